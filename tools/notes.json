{
 "C01": {
  "note": "Spec: SpecMd2.v (RFC 1319)."
 },
 "C02": {
  "note": "Receiver ranges over every md2 object reachable by API calls."
 },
 "C04": {
  "note": "Generic Go path (digest.go/utils.go); the assembly block functions are not modelled."
 },
 "C08": {
  "note": "S-boxes proved equal to the output of the authors' generator program."
 },
 "C12": {
  "note": "FALSE of the code (theorem _refuted): FormatInt drops leading zeros; the second theorem states exactly what the wrapper returns for every input."
 },
 "C13": {
  "note": "Polynomials below 2^64 (the table holds 64-bit words)."
 },
 "C14": {
  "note": "Readers that deliver the final error separately from data; positions are unbounded naturals (streams shorter than 2^64 bytes). The end-of-stream quirk (zero-length chunk) is part of the exact statement, see C62."
 },
 "C15": {
  "note": "FALSE of the code (refuted): buffered bytes are lost when the reader returns data together with io.EOF."
 },
 "C62": {
  "note": "FALSE of the code (refuted): (0, nil) is returned when the stream ends at a boundary and minBytes > window. The exact behaviour is C14_chunker."
 },
 "C16": {
  "note": "Proved for every 64/128-bit cipher. For the 256/512/1024-bit block sizes the package also offers, the documented polynomial is truncated to one byte (refuted + actual behaviour proved)."
 },
 "C60": {
  "note": "Add/Has/Get/Remove/Clean race-free and deadlock-free for all schedules; Names/All/Len take no lock and do race (refuted). RWMutex modelled as writer flag + reader count (without writer preference, so more schedules than Go allows)."
 },
 "C61": {
  "note": "FALSE of the code (refuted): a later SumBy/FuncHash/CRC16/FromHexString overwrites Error; true for chains of calls that do not assign Error."
 },
 "C22": {
  "note": "Histories of Write and Sum (Reset is C23). Round counts are naturals (negative int32 counts not modelled)."
 },
 "C23": {
  "status": "proved",
  "note": "FALSE of the code (refuted): Reset keeps the words absorbed so far. _actual gives the observations for every history; _reset_short is the case where Reset is harmless."
 },
 "C24": {
  "note": "One Write of the whole message is the Chaskey tag (proved); cutting the message is FALSE of the code (refuted): eager absorption of a completed block, and stale bytes in the padding."
 },
 "C25": {
  "note": "FALSE of the code (refuted): Reset zeroes the key; second theorem: after Reset results do not depend on the key at all."
 },
 "C27": {
  "note": "Messages shorter than 2^64 bytes (d.len is a uint64)."
 },
 "C63": {
  "note": "True for 32 and 128 bit; FALSE for the 64 bit digest (refuted): Size() returns 16, Sum appends 8 bytes."
 },
 "C18": {
  "status": "proved",
  "note": "FALSE of the code (refuted): Sum enciphers the running checksum in place. _actual gives the result (or panic) of every history for 64-, 128- and 256-bit ciphers; _contract is the PMAC contract for histories in which each Sum is followed by Reset or nothing."
 },
 "C19": {
  "status": "proved",
  "note": "FALSE of the code (refuted): the length entered in the last block is miscounted after a partial block. _actual gives the tag for every history; _aligned the histories that follow the standard. GHASH assembly not modelled."
 },
 "C20": {
  "note": "FALSE of the code: Sum(in) always returns 2*len(in)+16 bytes (proved for every history), so the claim holds only for empty in. Capacity of in assumed equal to its length."
 },
 "C64": {
  "note": "True for 128-bit ciphers; FALSE for 64-bit ciphers (refuted): the 128-bit constant 0x87 is used for every block size."
 },
 "C65": {
  "note": "FALSE of the code: Sum panics exactly for messages longer than bs*2^(2bs-1) bytes (256 KiB for 64-bit ciphers)."
 },
 "C66": {
  "note": "FALSE of the code (refuted): Sum on the zero value before any Write or Reset uses zero rounds and an all-zero state. Proved: correct whenever the first call is Write or Reset."
 },
 "C67": {
  "note": "FALSE of the code (refuted): Open returns dst extended with the unauthenticated plaintext together with the error; proved to do so for every input of at least 16 bytes."
 },
 "C41": {
  "note": "Messages of fewer than 2^64 bytes; every Sum is preceded by a Write since creation/Reset (otherwise see C42). The amd64 unsafe-pointer twins of the byte/word conversions are read as little-endian."
 },
 "C42": {
  "note": "FALSE of the code (refuted) for an object on which nothing was written: its Sum omits the message block altogether (exact behaviour proved). Proved: the one-shot functions equal Skein for every message."
 },
 "C69": {
  "note": "FALSE of the code (refuted) when the low tweak word wraps: the carry is not confined to the position field. Exact behaviour in both cases proved."
 },
 "C43": {
  "note": "Messages of fewer than 2^61 bytes (the code's length counter is 64 bits of bit length, the standard's 96). Spec on byte columns with S-boxes and MDS matrix; the code's T tables are proved equal to it by exhaustion over all 8*256 entries."
 },
 "C44": {
  "note": "FALSE of the code (refuted): the struct copied by Sum shares the inner hash, so Sum changes the object; Reset drops the key. Proved: the first Sum of every fresh object, for every cut, is the standard's KMAC, and NewKmac accepts exactly 32/48/64-byte keys."
 },
 "C45": {
  "note": "FALSE of the code (refuted): on a fresh tree every positive number whose masked parts are zero yields 32 zero bytes for every root key (C45_tlstree_fresh_zero_key). Proved: if the first call uses 0 or a number with a non-zero masked part, every call of every sequence returns the TLSTREE key. crypto/hmac is modelled over the modelled digest object; root key < 2^61 bytes."
 },
 "C46": {
  "note": "Every sequence of 5-byte identifiers; other lengths panic. Root key < 2^61 bytes."
 },
 "C70": {
  "note": "Histories of fewer than 2^61 bytes (64-bit bit counter). The linear-map cache built by init() is proved equal to the matrix by exhaustion over 8*256 entries plus linearity."
 },
 "C71": {
  "note": "Round trip proved for every history. The second half is FALSE of the code (refuted): UnmarshalBinary accepts an over-long buffer (Sum then panics) and any size byte. Not modelled: the restored object keeps a reference to the caller's slice."
 },
 "C72": {
  "note": "FALSE of the code (refuted): addm computes the carry before adding the incoming carry, so a carry is lost when a word sum is 2^64-1. Proved: the exact function computed (standard construction with the lossy addition) for every history, its equality with the standard whenever no carry is lost, in particular below one block."
 },
 "C57": {
  "status": "proved",
  "note": "FALSE of the code (refuted): r[i]+a[j] is an 8-bit sum, so no carry ever propagates. Proved: the exact function (bytewise sum mod 256) for all operands, and that it is addition mod 2^440 when no byte position overflows."
 },
 "C58": {
  "status": "proved",
  "note": "FALSE of the code (refuted): for every input bytes 32..54 of the output are zero and bytes 0..22 come from the second hash. Proved: the exact output for every sequence of Writes."
 },
 "C73": {
  "status": "proved",
  "note": "FALSE of the code (refuted for every state): only the first 32 bytes of out are written. Proved: exact output and state update for every state, clock, entropy and additional input; V and C keep 55 bytes in every reachable state."
 },
 "C74": {
  "status": "proved",
  "note": "FALSE of the code (time half, refuted for all clock readings): Second() is the second of the minute, so the difference never exceeds 59. Proved: reseed happens exactly when the counter exceeds 2^20; counter and time along every request sequence."
 },
 "C48": {
  "status": "proved",
  "note": "FALSE of the code for work factors 3*2^j, j>0 (refuted: decoded as 3^(j+1)); proved for powers of two and 3, and Marshal's success condition."
 },
 "C49": {
  "status": "proved",
  "note": "FALSE of the code (refuted): Extend drops leading zero bytes of the result. Proved: exact value, and iff condition for CheckPassword to accept an extended digest."
 },
 "C75": {
  "status": "proved",
  "note": "Proved for moduli whose bit length is a multiple of 8 (inverse q mod p given by its contract); for other bit lengths refuted in general form (Hash/Recover disagree on the padding length). No concrete private key is exhibited (primality proofs of 640-bit primes)."
 },
 "C76": {
  "status": "proved",
  "note": "FALSE of the code (refuted): panics on the empty text and on every text with too few separators; proved: never panics with at least three separators."
 },
 "C77": {
  "status": "proved",
  "note": "FALSE of the code (refuted for every hash function and password): only the low 32 bits are checked, 2-2^32 is accepted and the digest contains the password block unhashed."
 },
 "C78": {
  "status": "proved",
  "note": "Hash function, modulus, salt and work factor universally quantified."
 },
 "C34": {
  "status": "proved",
  "note": "Contract for all four variants and all histories (any length; the 64/128-bit counters wrap as in the specification); salted objects for all histories without Reset (see C35)."
 },
 "C35": {
  "status": "proved",
  "note": "FALSE of the code (refuted): Reset zeroes the salt; proved: after Reset any object behaves as the unsalted hash."
 },
 "C36": {
  "status": "proved",
  "note": "FALSE of the code (refuted for every history): 224/256 and 384/512 share magic and size, so a foreign state is accepted and yields a wrong digest; proved: the round trip within a variant, and exactly which byte strings are accepted."
 },
 "C37": {
  "status": "proved",
  "note": "FALSE of the code (refuted): a Write reaching past the block mixes the following bytes into the capacity, so the digest depends on the cuts and long one-shot digests are not the standard's; proved: exact (xor) sponge for all histories without boundary-crossing Writes, and the standard digest for all messages shorter than a block. SpecBash.v is our transcription of eprint 2016/587."
 },
 "C79": {
  "status": "proved",
  "note": "FALSE of the code for negative sizes (refuted for every negative size); exact characterisation for positive sizes proved."
 },
 "C33": {
  "note": "FALSE of the code (refuted): Reset leaves currentWritten and numChunk; after Write of one byte and Reset, an 8192-byte message hashes to something else. Proved: Reset is sound while all bytes ever written (with the suffixes appended by Reads) fit in the first 8192-byte chunk."
 },
 "C80": {
  "note": "The portable keccakF1600 is proved equal to Keccak-p[1600,12]; the amd64 assembly is not modelled, but C80_any_permutation holds for whatever 25-word function it computes."
 },
 "C52": {
  "status": "proved",
  "note": "FALSE of the code (refuted): a Write that exactly completes the buffered block (also an empty Write after 16 bytes) makes Sum return a wrong digest. Proved instead: the exact behaviour for every history (C52_actual), the contract for all histories without such a Sum, the one-shot functions for all messages."
 },
 "C54": {
  "status": "proved",
  "note": "FALSE of the code (refuted): the second Sum since Reset hashes the concatenation of the inner digests. Proved: exact behaviour for all inner objects and histories, the contract with one Sum per Reset."
 },
 "C51": {
  "status": "proved",
  "note": "FALSE of the code (refuted): with a pending partial block of r > 0 bytes Write(p) reslices p to 64-r bytes and panics when r + cap(p) < 64 (e.g. Write(5 bytes); Write(5 bytes), or an empty Write after one byte). Proved instead: the exact behaviour of every history for every slice capacity (C51_jh_histories_exact: panics exactly then, and otherwise returns JH-256), aligned Writes and the one-shot function never panic."
 },
 "C81": {
  "status": "proved",
  "note": "All four sizes; total written < 2^64 bytes. The bitsliced code is proved equal to the nibble-level specification (SpecJh.v) including round constants and initial values."
 },
 "C53": {
  "status": "proved",
  "note": "FALSE of the code (refuted): Write adds BlockSize per completed block and also the length of a partial chunk, so bytes of a chunk that later completes a block are counted twice and e.g. Write(63);Write(1) style splits change the digest (both 256- and 512-bit classes). Proved instead: the exact digest for every history (C53_shavite_histories_exact, with the code's bit count made explicit), equality with SHAvite-3 (spec independent of T-tables, from FIPS-197) for every history whose Writes keep the count in step, in particular block-aligned Writes plus a last one, and the one-shot Sum; all totals < 2^50 bytes."
 },
 "C50": {
  "status": "proved",
  "note": "FALSE of the code (refuted): chaining value (16 words) plus block (64 words) exceed the 64 data words of the compression function, so bytes 384..511 of every block but the first are ignored. Proved: for every configuration, two messages of the same length that differ only in such bytes have the same digest (C50_md6_ignored_bytes), and such a pair exists for every configuration (C50_md6_bytes_ignored_refuted)."
 },
 "C82": {
  "status": "proved",
  "note": "FALSE of the code in general (refuted: 512 zero bytes, and levels = 0). Proved: the exact function of the concatenation computed by every history (C82_md6_histories), and that it is MD6 (independent spec of the report, incl. tree mode) for messages of less than 512 bytes with levels >= 1 and a whole number of bytes of output (C82_md6_short_is_MD6)."
 },
 "C83": {
  "status": "proved",
  "note": "FALSE of the code (refuted): append on the caller's key slice writes zeros into its spare capacity. The exact effect is proved for every slice and capacity."
 },
 "C84": {
  "status": "proved",
  "note": "Sizes as natural numbers (negative sizes not modelled)."
 },
 "C31": {
  "status": "proved",
  "note": "All histories of Write/Sum/Reset with at most 2^17 bytes between Resets (every cut, every output size, hash/keyed/derive-key modes): no panic and every digest is BLAKE3 of what was written. Without the bound (up to 2^63-1 bytes): every digest observed before a possible panic is BLAKE3."
 },
 "C32": {
  "status": "proved",
  "note": "FALSE of the code (refuted): the uint8 index of the stack of chaining values wraps at 8. Any stream of more than 2^17 bytes written in nonempty pieces of at most 1024 bytes panics; Sum(data) panics exactly when len/2048 has 8 or more ones, or 7 ones and len mod 2048 <> 0 (shortest: 260097 bytes), and otherwise is BLAKE3."
 },
 "C85": {
  "status": "proved",
  "note": "No bound on the message length. The step constants are proved to follow the generation rule and the initial values to be CF((w, n, 0, ...), 0)."
 },
 "C86": {
  "status": "proved",
  "note": "No bound on the message length."
 },
 "C87": {
  "status": "proved",
  "note": "FALSE of the code (refuted): all three call New() and return a prefix of the LSH-512-512 digest; the exact value is proved for every input."
 },
 "C88": {
  "status": "proved",
  "note": "No bound on the message length; the one-shot functions are covered too."
 },
 "C89": {
  "status": "proved",
  "note": "FALSE of the code (refuted): with a block size below 4 ingest reads bs/4 = 0 words, so any two messages of equal length have the same digest (proved for every message)."
 },
 "C90": {
  "status": "proved",
  "note": "Round trip for every history of bytes; acceptance condition exact."
 },
 "C91": {
  "status": "proved",
  "note": "FALSE of the code (refuted for hs = 40): Sum appends 4*(hs/32) bytes; proved to equal Size() exactly when hs mod 32 < 8."
 },
 "C92": {
  "status": "proved",
  "note": "No bound on the message length; the one-shot Sum is covered. The circular buffer is proved to represent the 32-stage shift register."
 },
 "C93": {
  "status": "proved",
  "note": "All 16 accepted output sizes, no bound on the message length; the five stored IVs and getIV are proved to be the specified initial state; the one-shot functions are covered."
 },
 "C94": {
  "status": "proved",
  "note": "Parametric in the block cipher (the package takes it as an argument). Histories whose writes total less than 2^61 bytes, where the 64-bit bit counter cannot wrap. big.Int is modelled as an N below 2^256."
 },
 "C95": {
  "status": "proved",
  "note": "Parametric in the block cipher on 16-byte blocks (AES itself is the standard library). Hypothesis: at least size/8 of the 256 candidate L3 keys are usable (otherwise the key search of the code would run past its one-byte counter or for ever). Checked against the published vector with a FIPS 197 AES-128."
 },
 "C96": {
  "status": "proved",
  "note": "FALSE of the code (refuted): New accepts exactly the multiples of 8 (also 0 and negative ones) and nonces shorter than 16 bytes (also the empty one); for every size other than 8 and 16, and for the empty nonce (C95), every Sum panics."
 },
 "C97": {
  "status": "proved",
  "note": "All-history theorem: C97_skeins_all_histories (message processed with the block flushed as soon as it is full); C97_skeins_histories: equal to Skein-512-n where no Sum is at a nonempty multiple of 64 bytes."
 },
 "C98": {
  "status": "proved",
  "note": "FALSE of the code (refuted): Write processes a full buffer at once, so the final flag is set on an extra all-zero block; a 64-byte message gives another digest than Skein-512."
 },
 "C99": {
  "status": "proved",
  "note": "hs <= 32 proved; hs > 32 FALSE of the code (C99_hs256_long_output_refuted): the bytes after the 32nd are all zero for every message."
 },
 "C100": {
  "status": "proved",
  "note": "All four sizes, every history, every message (the length field is taken modulo 2^64 as in the specification); one-shot functions included. The unrolled 32-bit compression function is translated expression by expression (tools/goexpr.py)."
 },
 "C101": {
  "status": "proved",
  "note": "Every size of 8, 16, ..., 512 bits, every history of fewer than 2^61-256 bytes (where the 64-bit block counter of the code is exact); the T-tables are proved equal to SubBytes followed by MixBytes over the AES field. Size, BlockSize and the one-shot functions included."
 },
 "C102": {
  "status": "proved",
  "note": "FALSE of the code (refuted): every negative size is accepted (Go's % is not positive for negatives), and from -8 down every call of Sum panics."
 },
 "C103": {
  "status": "proved",
  "note": "Every size of 8, 16, ..., 512 bits, no salt or any 16-byte salt, every history of fewer than 2^64 bits; the table-driven AES rounds, the word-parallel field doubling and the block counter rules (0 for a block without message bits) are proved equal to the specification. Size, BlockSize and the one-shot functions included."
 },
 "C104": {
  "status": "proved",
  "note": "FALSE of the code (refuted): every negative size is accepted, and from -8 down every call of Sum panics."
 },
 "C105": {
  "status": "proved",
  "note": "All three variants, every history of fewer than 2^64 bits. The eight lookup tables of each variant and the round constants are proved equal, entry by entry, to S-box times circulant matrix; for Whirlpool and Whirlpool-T the S-box is computed from its 4-bit boxes, for Whirlpool-0 it is a table (as in its own specification), transcribed from the code. The bitwise Write of the code and its 256-bit byte-array counter are modelled."
 },
 "C106": {
  "status": "proved",
  "note": "Portable path and assembly path. The 48 + 151 instructions of haraka_amd64.s are transcribed one by one and run on a small machine (16-byte registers, Intel semantics of MOVUPS, AESENC, PUNPCKLDQ, PUNPCKHDQ, PXOR, MOVHLPS, MOVLHPS); alignment faults of memory operands are outside the model. Round constants are a table in the paper and in the code."
 },
 "C107": {
  "status": "proved",
  "note": "Both word sizes, every history without any bound on its length. The unrolled mill is translated from the Go text; the rotating belt index, the blocks of 13 rounds whose zero padding counts as blank rounds and the number of remaining blank rounds are proved equal to the specification."
 },
 "C108": {
  "status": "proved",
  "note": "messages below 2^61 bytes (the 64-bit bit counter of the format); the pass functions are translated from the Go text by script, the specification has the boolean functions in algebraic normal form and the constants as the binary expansion of pi (Machin's formula)"
 },
 "C109": {
  "status": "proved",
  "note": "lyra2re2.Lyra2 = lyra2_spec (SpecLyra.v, closed forms for the orders of rows), and the exact panic condition; nRows < 2^62"
 },
 "C110": {
  "status": "proved",
  "note": "FALSE of the code (refuted): timeCost >= 2 always panics, in both packages"
 },
 "C111": {
  "status": "proved",
  "note": "FALSE of the code (refuted): lyra2re absorbs at a stride of 64 words (as deployed in Lyra2RE version 1); positive: what it absorbs, and agreement for one-block inputs"
 },
 "C112": {
  "status": "proved",
  "note": "FALSE of the code (refuted): the last len mod 8 bytes of password and salt are dropped"
 },
 "C113": {
  "status": "proved",
  "note": "for every 32-byte function in place of the dependency x/crypto sha3.NewLegacyKeccak256, and for Keccak-256 itself"
 },
 "C114": {
  "status": "proved",
  "note": "as C113"
 },
 "C115": {
  "status": "proved",
  "note": "bit-level specification SpecFsb.v, with the Whirlpool of C105; the table (fsb/sbox.go) is universally quantified"
 },
 "C116": {
  "status": "proved",
  "note": "FALSE of the code (refuted): uint32(8*len(data)) wraps"
 },
 "C117": {
  "status": "proved",
  "note": "Holds for every outLen and every key except the empty non-nil one (C118)."
 },
 "C118": {
  "status": "proved",
  "note": "FALSE of the code (refuted): the key stage also runs on an empty non-nil key, so the result differs from Skein with the empty key (C118_skn_empty_key_refuted); C118_skn_key_exact says exactly what is computed."
 },
 "C119": {
  "status": "proved",
  "note": "Unbounded read sizes; the block counter wraps at 2^64 like the 64-bit counter of the specification's output stage."
 },
 "C120": {
  "status": "proved",
  "note": "FALSE of the code (refuted): the configuration string holds 2^64-8 bits, because (2^64-1)/8 bytes is multiplied by 8 again; the key stream differs from the one for 2^64-1 bits from the first byte. Proved: the key stream is the Skein output for 2^64-8 bits, and decryption recovers the plaintext for every splitting."
 },
 "C121": {
  "status": "proved",
  "note": "All four sizes; step constants are proved to be those of the specification's generator."
 },
 "C122": {
  "status": "proved",
  "note": "All four sizes; the tables of smix are proved to be the AES S-box followed by Super-Mix over GF(2^8)."
 },
 "C123": {
  "status": "proved",
  "note": "All four sizes; the expansion tables are proved to be the linear code over F4, the bit-sliced S-box and the diffusion layer to be the ones of the Hamsi document."
 },
 "C124": {
  "status": "proved",
  "note": "All eight functions in one theorem; the exact form covers 0..3 bytes with the code's own final function."
 },
 "C125": {
  "status": "proved",
  "note": "FALSE of the code (refuted): for each length 0..3 there is an input with another hash; len_0to16 uses the XXH3 avalanche where XXH3 prescribes that of XXH64."
 },
 "C126": {
  "status": "proved",
  "note": "FALSE of the code (refuted): for every input of more than 240 bytes and a multiple of 64 the last 64 bytes are ignored (hashLong_internal_loop skips the last stripe), in all eight functions."
 },
 "C127": {
  "status": "proved",
  "note": "Sequences with the panic of C128 are excluded by x3_safe, which is stated on lengths only; C128 shows that it is exactly the panic."
 },
 "C128": {
  "status": "proved",
  "note": "FALSE of the code (refuted): Write panics exactly when more than 192 bytes are buffered and buffered plus argument are 512 bytes, e.g. on the second of two writes of 256 bytes."
 },
 "C129": {
  "status": "proved",
  "note": "All sequences and lengths; the length field is modulo 2^64 bits, as in the specification."
 },
 "C130": {
  "status": "proved",
  "note": "The transform is written over an arithmetic and related to linear forms with bounds (parametricity), so the statement covers every block."
 },
 "C131": {
  "status": "proved",
  "note": "deepcopy.go over a memory of cells; types with a DeepCopy method and pointers into the inside of a variable are not modelled."
 },
 "C132": {
  "status": "proved",
  "note": "From the isolation invariant of the same induction."
 },
 "C133": {
  "status": "proved",
  "note": "FALSE of the code (refuted): the result of copying an array reaches every cell its source reaches; concrete write-through."
 },
 "C134": {
  "status": "proved",
  "note": "FALSE of the code (refuted): no number of steps suffices on a ring of n nodes, any n."
 },
 "C135": {
  "status": "proved",
  "note": "FALSE of the code (refuted): NaN key (any map whose iteration starts with it), nil interface key."
 },
 "C136": {
  "status": "proved",
  "note": "FALSE of the code (refuted): unexported fields; any number of keys collapse to one entry."
 },
 "C137": {
  "status": "proved",
  "note": "Heap of shared objects; byte slices are values (no aliasing of caller buffers). The library table has the methods whose contract has no side condition; C137_fluent_bounded and its instances (murmur, xxhash, whirlpool, gost34112012, gost341194, rabin, echo, siphash) cover methods whose contract needs bytes, a length bound or (siphash) no Reset."
 },
 "C138": {
  "status": "proved",
  "note": "FALSE of the code (refuted): _fork_actual says what two continuations give, for every method and every data; C137 gives every program."
 },
 "C139": {
  "status": "proved",
  "note": "FALSE of the code (refuted, for every registered name); _no_panic: true when no goroutine removes a name that some goroutine uses."
 },
 "C140": {
  "status": "proved",
  "note": "FALSE of the code (refuted for any number of goroutines, loads and stores sequentially consistent); _alone: an uninterrupted call."
 },
 "C141": {
  "status": "proved",
  "note": "crypto/hmac is modelled from the Go standard library (go 1.20), with its marshaling path. C141_hmac_any needs only a relation kept by New, Write, Sum, Reset and restored by UnmarshalBinary of MarshalBinary; C141_hmac_histories/_programs instantiate it for 15 constructors. C141_hmac_long_keys says what happens to keys longer than the block, also when BlockSize() < Size() (fugue, ascon, esch, luffa, murmur3)."
 },
 "C142": {
  "status": "proved",
  "note": "Slices are windows of arrays here (C137 treats them as values); the digest of a call is a parameter, which C137 determines."
 },
 "C143": {
  "status": "proved",
  "note": "FALSE of the code (refuted): for every buffer, a store to byte i of buf changes byte i of FromBytes(buf); for every buf with room for a digest, after Sum(buf) on a second value the first one shows the second digest."
 }
}