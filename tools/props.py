#!/usr/bin/env python3
"""Writes /verif/properties.jsonl (kept as a script so that the list is easy to extend)."""
import json
P=[]
def p(id,title,statement,quant,why,anchors): P.append(dict(id=id,title=title,statement=statement,quantifier=quant,why_tests_cant=why,anchors=anchors))
HIST="every finite sequence of Write/Sum/Reset calls with arbitrary byte slices of arbitrary lengths"
WHYH="the number of ways to cut a message into Writes and to interleave Sum/Reset is infinite; tests fix a handful of cuts"
def hist(id,pkg,spec,anchors,extra=""):
    p(id,f"{pkg}: hash.Hash contract",f"For a digest created by the package constructor, every sequence of Write, Sum and Reset calls is observably equal to: Write returns len(p) and nil; Sum(in) returns in followed by {spec} of the concatenation of everything written since creation or the last Reset; Sum does not change later results; Reset makes the object behave as new.{extra}",HIST,WHYH,anchors)
hist("C01","md2","the RFC 1319 digest (padding, appended checksum, 48-byte state, first 16 bytes)",["md2/digest.go: Write, Sum, checkSum, block, Reset","md2/md2.go: New, Sum"])
p("C02","md2: MarshalBinary/UnmarshalBinary round trip","Serialising a digest after any history and unmarshalling into any md2 digest succeeds, and the restored object gives the same results as the original under every later sequence of calls.","every history before the snapshot, every sequence of calls after it, every receiver","snapshot points and continuations are unbounded",["md2/binary.go: MarshalBinary, UnmarshalBinary"])
p("C03","md2: UnmarshalBinary accepts exactly well-formed states","UnmarshalBinary returns an error exactly when the input does not start with the identifier or does not have the exact size.","every byte string","inputs are unbounded",["md2/binary.go: UnmarshalBinary"])
hist("C04","sm3","the SM3 digest (GB/T 32905: 0x80, zeros, 64-bit big-endian bit length; iterated compression)",["sm3/digest.go: Write, Sum, checkSum, Reset","sm3/block_generic.go"])
p("C05","sm3: MarshalBinary/UnmarshalBinary round trip and rejection","A state serialised after any history and restored into any receiver behaves like the original under all later calls; inputs with a wrong identifier or size are rejected.","every history, continuation, receiver; every byte string for the rejection part","snapshot points and continuations are unbounded",["sm3/binary.go"])
hist("C06","sha0","the SHA-0 digest (FIPS 180 padding with 64-bit big-endian bit length)",["sha0/digest.go: Write, Sum, checkSum, processBlock, Reset"])
hist("C07","ripemd (128, 160, 256, 320)","the RIPEMD digest (0x80, zeros, 64-bit little-endian bit length)",["ripemd/digest128.go","ripemd/digest160.go","ripemd/digest256.go","ripemd/digest320.go"])
hist("C08","tiger (Tiger and Tiger2, 128/160/192)","the Tiger digest (marker 0x01 or 0x80, zeros, 64-bit little-endian bit length)",["tiger/digest.go","tiger/utils.go"])
hist("C09","has160","the HAS-160 digest",["has160/digest.go"])
p("C10","Merkle-Damgard padding adds no collisions","For the packages of C04, C06-C09: two different messages shorter than 2^61 bytes are turned into different padded block sequences, and padded messages are whole numbers of blocks.","all pairs of messages","pairs of messages are unbounded",["sm3/digest.go: checkSum","sha0/digest.go: checkSum","ripemd/digest160.go: checkSum","tiger/digest.go: checkSum","has160/digest.go: checkSum"])
p("C11","crc16: table-driven checksums equal the bitwise CRC","For every byte string the table-driven x25 and modbus checksums equal the bit-by-bit reflected CRC with polynomial 0x8408 / 0xA001, the stated initial value and final xor.","every byte string","unbounded inputs",["crc16/x25/x25.go","crc16/modbus/modbus.go"])
p("C12","crc16: hexadecimal form is always four digits","The string form of a CRC-16 value always has four hexadecimal digits, so that decoding it gives the two bytes of the value.","every byte string","the failing inputs are 1/16 of all inputs but no test vector hits one",["crc16/x25/x25.go","crc16/modbus/modbus.go","hash/crc16.go"])
p("C13","rabin: rolling hash equals the polynomial residue of the window","After any history the digest equals the remainder modulo the polynomial (over GF(2)) of the polynomial whose coefficients are the last window-size bytes written.","every polynomial of degree 8..64 accepted by the constructor, every window size, every sequence of writes","unbounded histories; algebraic identity over GF(2)",["rabin/digest.go","rabin/table.go","rabin/poly.go"])
p("C14","rabin chunker: content-defined boundaries","Successive Next calls cut the stream into consecutive chunks that cover it exactly, every chunk but the last has between minBytes and maxBytes bytes, and the boundaries depend only on the bytes of the stream, not on how the reader splits them.","every stream, every reader schedule, all parameters","schedules and streams are unbounded",["rabin/chunker.go: Next, more, discard"])
p("C15","rabin chunker: end of stream","No byte delivered by the reader is lost, including when the reader returns data together with io.EOF.","every reader schedule","reader schedules are unbounded",["rabin/chunker.go: Next, more"])
p("C16","cmac: equals NIST SP 800-38B / RFC 4493 for every way of writing","For every block cipher with 8 or 16 byte blocks, after any sequence of Writes Sum returns the CMAC of the concatenation; Reset starts a new message; Sum does not disturb later results.","every cipher (as a function on blocks), key schedule, sequence of calls","unbounded histories",["cmac/cmac.go"])
p("C17","cmac: Verify accepts exactly the correct tag","Verify(mac, m) succeeds exactly when mac is the CMAC of m truncated to the requested size.","every tag and message","unbounded",["cmac/cmac.go: Verify, Sum"])
p("C18","pmac: Sum does not change the object","Calling Sum twice, or Sum and then Write and Sum, gives the results of the corresponding messages.","every history","interleavings are unbounded",["pmac/pmac.go: Sum, Write"])
p("C19","gmac: streaming","Writing a message in pieces gives the same tag as writing it at once.","all messages and cuts","unbounded",["gmac/gmac.go: Write, Sum"])
p("C20","gmac: Sum appends exactly 16 bytes","Sum(in) returns in followed by the 16-byte tag.","every slice in","unbounded",["gmac/gmac.go: Sum"])
p("C21","gcm: 4-bit table multiplication is multiplication in GF(2^128)","The table-driven field multiplication used for GHASH equals the multiplication of blocks defined by NIST SP 800-38D Algorithm 1 (modulo x^128+x^7+x^2+x+1 in the GCM bit order), for every hash subkey and operand.","all 2^256 pairs","exhaustive testing is impossible",["gmac/gcm/gcm_generic.go: gcmMul, gcmInitGo"])
p("C22","siphash: streaming and one-shot","For every 16-byte key and every cut, Sum returns SipHash-2-4 (64 or 128 bit) of the concatenation.","all keys, histories without Reset","unbounded",["siphash/digest.go","siphash/siphash.go"])
p("C23","siphash: Reset","After Reset the object behaves as new.","every history","unbounded",["siphash/digest.go: Reset"])
p("C24","chaskey: streaming","Writing a message in pieces gives the same tag as writing it at once.","all cuts","unbounded",["chaskey/digest.go: Write"])
p("C25","chaskey: Reset","After Reset the object behaves as a new one with the same key.","every history","unbounded",["chaskey/digest.go: Reset"])
hist("C26","murmur3 (32, 64, 128)","MurmurHash3 with the given seed",["murmur3/"])
hist("C27","xxhash32 / xxhash64","xxHash with the given seed",["xxhash/xxhash32/digest.go","xxhash/xxhash64/digest.go"])
hist("C28","ascon Hash/Hasha","Ascon-Hash(a)",["ascon/hash.go"])
p("C29","ascon XOF: reads can be split arbitrarily","The bytes returned by successive Read calls concatenate to the same output stream however the reads are sized.","all messages, all sequences of read sizes","unbounded",["ascon/hash.go: Xof, digest.read"])
p("C30","ascon AEAD: Open inverts Seal and rejects wrong tags","Open(nonce, Seal(nonce, pt, ad), ad) returns pt without error; Open returns an error exactly when the recomputed tag differs from the received one.","all keys, nonces, plaintexts, additional data, ciphertexts","unbounded",["ascon/aead.go"])
p("C31","blake3: streaming tree hash","For inputs that need at most seven stacked chaining values, every cut of the message gives the BLAKE3 tree hash of the concatenation.","all messages below the bound, all cuts","unbounded cuts; tree shapes",["blake3/digest.go","blake3/blake3.go"])
p("C32","blake3: no panic on long inputs","Write never panics.","all inputs","the shortest failing input is longer than 128 KiB",["blake3/digest.go: mergeCvStack, pushCV"])
p("C33","k12: Reset","After Reset the object behaves as new.","every history","unbounded",["k12/digest.go: Reset"])
hist("C34","blake256 / blake512 (unsalted)","the BLAKE digest",["blake256/digest.go","blake512/digest.go"])
p("C35","blake256 / blake512: Reset keeps the salt","As documented, Reset leaves the salt intact.","every salted digest","unbounded",["blake256/digest.go: Reset","blake512/digest.go: Reset"])
p("C36","blake256 / blake512: serialised states are tied to the variant","A state marshalled by one variant (224/256, 384/512) is rejected by, or behaves identically in, the other variant.","every history","unbounded",["blake256/binary.go","blake512/binary.go"])
p("C37","bash: streaming","Writing a message in pieces gives the same digest as writing it at once.","all messages, all cuts","unbounded",["bash/digest.go: Write"])
hist("C38","belt","the STB 34.101.31 belt-hash digest",["belt/digest.go"])
p("C39","belt: block decryption inverts encryption","For every key and block, decrypting the encryption returns the block.","all 2^128 blocks and 2^256 keys","exhaustive testing impossible",["belt/belt.go"])
p("C40","threefish: the standard permutation, and decryption inverts encryption","For every key, tweak and block of Threefish-256/512/1024 encryption computes the standard Threefish, decryption inverts it and conversely; NewCipher accepts exactly the key sizes 32, 64, 128.","all keys, tweaks, blocks","exhaustive testing impossible",["skein/threefish/threefish256_ref.go","skein/threefish/threefish512_ref.go","skein/threefish/threefish1024_ref.go"])
hist("C41","skein-256/512/1024 (after at least one Write)","the Skein digest of the configured state size, output size, key, nonce and other arguments",["skein/skein256.go","skein/skein512.go","skein/skein1024.go","skein/skein.go"])
p("C42","skein: object and one-shot API agree","New512(nil) followed by Sum(nil) equals Sum512(nil, nil).","every message including the empty one written by no call","corner case",["skein/skein.go","skein/skein512.go"])
hist("C43","kupyna (256, 384, 512)","the Kupyna digest (0x80, zeros, 96-bit little-endian bit length)",["kupyna/kupyna256.go","kupyna/kupyna384.go","kupyna/kupyna512.go"])
p("C44","kupyna KMAC: Sum and Reset","Sum does not change the object and Reset returns to the keyed initial state.","every history","unbounded",["kupyna/kmac256.go","kupyna/kmac384.go","kupyna/kmac512.go"])
p("C45","TLSTree: derived key depends only on root key and sequence number","Derive(n) returns the same key whatever was derived before.","every sequence of Derive calls","histories are unbounded",["gost/gost34112012256/tlstree.go"])
p("C46","ESPTree: derived key depends only on root key and identifier","Derive(is) returns the KDF chain value whatever was derived before.","every sequence of Derive calls","histories are unbounded",["gost/gost34112012256/esptree.go"])
p("C47","makwa: base64 codec","b64Decode inverts b64Encode on every byte string and rejects foreign characters.","every byte string","unbounded",["makwa/digest.go: b64Encode, b64Decode"])
p("C48","makwa: textual digest round trip","UnmarshalText(MarshalText(d)) restores the digest, in particular the work factor.","every digest with a valid work factor","unbounded",["makwa/digest.go: MarshalText, UnmarshalText","makwa/makwa.go: wfMant"])
p("C49","makwa: Extend","Extending a digest to a larger work factor gives the digest that Hash computes for that work factor.","all moduli, messages, work factors","unbounded",["makwa/makwa.go: Extend, Hash"])
p("C50","md6: every message byte influences the digest state","No byte of the message is discarded before compression.","every message","needs messages longer than 512 bytes differing in chosen positions",["md6/digest.go: f, par"])
p("C51","jh: Write accepts every sequence of slices","Write never panics and cuts do not matter.","all cuts","unbounded",["jh/digest.go: Write"])
p("C52","esch: streaming","Writing a message in pieces (also empty ones) gives the same digest as writing it at once.","all cuts","unbounded",["esch/digest.go: Write"])
p("C53","shavite: streaming","Writing a message in pieces gives the same digest as writing it at once.","all cuts","unbounded",["shavite/digest256.go: Write","shavite/digest512.go: Write"])
p("C54","hash_composition: Sum","Sum returns h1(h2(message)) every time it is called.","every history","unbounded",["hash_composition/digest.go: Sum"])
p("C55","hash wrapper: DataSet behaves as a finite map","Get returns the latest value set, Remove removes exactly one name, Names/Len agree with the contents.","every sequence of operations","unbounded histories",["hash/hash_data_set.go"])
p("C56","hash wrapper: LeftCRCPadding","The result is the input preceded by '0' bytes, its length is the least multiple of size that is at least the input length.","every string and size","unbounded",["hash/hash_helper.go"])
p("C57","sm3 DRBG: big-endian addition","beAdd computes addition modulo 2^440.","all operands","carry patterns",["sm3/rand.go: beAdd"])
p("C58","sm3 DRBG: derivation function fills all 55 bytes","The derivation function returns 55 bytes derived from the input.","every input","needs inspection of bytes 32..54",["sm3/rand_df.go: checkSum"])
p("C59","sm3: round constants","The precomputed table of rotated round constants equals the rotation formula for every round.","all rounds","generated table",["sm3/sbox.go","sm3/utils.go: GenT"])
p("C60","hash wrapper: DataSet is safe for concurrent use","Any number of goroutines may call the DataSet methods concurrently: no two of them access the map at the same time with one access being a write, and some unfinished goroutine can always proceed.","every number of goroutines, every sequence of calls per goroutine, every schedule","schedules are unbounded; races are not observable in sequential tests",["hash/hash_data_set.go: Add, Has, Get, Remove, Clean, Names, All, Len"])
p("C61","hash wrapper: errors survive a chain of calls","If some call in a chain such as FromHexString(..).CRC16_X25() failed, GetError reports an error at the end of the chain.","every chain of calls","chains are unbounded",["hash/hash.go: FuncHash, Checksum, GetError","hash/hash_from.go: FromHexString","hash/hash_use.go: SumBy","hash/crc16.go"])
p("C62","rabin chunker: no empty chunk before the end of the stream","As documented, when there are no more chunks Next returns 0, io.EOF: it never returns a zero-length chunk without an error.","every stream and parameters","depends on where the stream ends relative to a content-defined boundary",["rabin/chunker.go: Next, discard"])
p("C63","murmur3: Size() is the number of bytes Sum appends","For each of the 32, 64 and 128 bit digests, Sum(in) returns len(in)+Size() bytes.","every history and every slice in","histories are unbounded",["murmur3/digest.go","murmur3/murmur64.go: digest64","murmur3/murmur128.go: Size"])
p("C64","pmac: one-shot Sum and Verify","For a 128-bit block cipher and an admissible tag size, pmac.Sum(msg) is the PMAC tag of msg and Verify(mac, msg) is true exactly when mac is that tag; the constructor fails exactly for an inadmissible tag or block size; 64-bit ciphers use the polynomial of the PMAC paper.","all ciphers, tag sizes and messages up to 2^35 bytes","unbounded messages, all ciphers",["pmac/pmac.go: NewWithTagSize, Write, checkSum","pmac/verify.go"])
p("C65","pmac: no panic on long messages","Write never panics however long the message is.","all messages","needs messages of hundreds of kilobytes to gigabytes",["pmac/pmac.go: processBuffer"])
p("C66","ascon: the zero value of Hash","var h ascon.Hash behaves like NewHash().","every call history","depends on the first call",["ascon/hash.go: Hash, digest.sum"])
p("C67","ascon AEAD: a failing Open releases no plaintext","When Open returns an error the returned slice contains no decrypted bytes.","every forged ciphertext","forged inputs are unbounded",["ascon/aead.go: Open"])
p("C68","ascon MAC","NewMAC, Write and Sum compute Ascon-Mac of the bytes written, for every cut and without changing the object; Verify is true exactly for that tag.","all keys, all histories, all tags","unbounded",["ascon/mac.go"])
p("C69","threefish: IncrementTweak advances the position","IncrementTweak advances the 96-bit position field of the tweak by ctr and keeps the type and first/final flags.","all tweaks and counters","carry needs 2^64 bytes",["skein/threefish/threefish.go: IncrementTweak"])
hist("C70","gost34112012 (256 and 512)","the GOST R 34.11-2012 (Streebog) digest",["gost/gost34112012/hash.go","gost/gost34112012256/hash.go","gost/gost34112012512/hash.go"])
p("C71","gost34112012: saving and restoring the state","MarshalBinary followed by UnmarshalBinary restores the object exactly; data that UnmarshalBinary accepts gives an object whose Sum works and returns Size() bytes.","every history; every byte string offered to UnmarshalBinary","unbounded histories and inputs",["gost/gost34112012/hash.go: MarshalBinary, UnmarshalBinary"])
p("C72","streebog: the package computes GOST R 34.11-2012","For every sequence of calls Sum returns the standard digest (the same as the gost34112012 package).","every history","needs a carry pattern of probability about 2^-64",["streebog/digest.go","streebog/utils.go: addm"])
p("C73","sm3 DRBG: Generate fills the output","Generate fills every byte of out with generator output.","every generator state, every buffer length","needs buffers longer than one hash output in every state",["sm3/rand.go: Generate"])
p("C74","sm3 DRBG: reseeding","Generate reseeds when more than 2^20 requests were served or more than 600 seconds passed since the last (re)seed.","every state, every pair of clock readings","needs a million requests or a clock ten minutes later",["sm3/rand.go: Generate, reseed"])
p("C75","makwa: Recover inverts Hash","With the private key (p,q), Recover succeeds on every digest Hash produced without pre- or post-hashing, and the password it returns hashes (same salt and work factor) to that same digest.","every private key whose primes are 3 mod 4, every password, salt, work factor","needs number theory over all primes; tests use one key",["makwa/makwa.go: Recover, sqrtExp"])
p("C76","makwa: UnmarshalText rejects malformed text","UnmarshalText returns an error, never panics, on malformed text.","every byte string","inputs without separators are not tried",["makwa/makwa.go: UnmarshalText"])
p("C77","makwa: negative work factors are refused","Hash refuses (error) every work factor that is not a positive value it can encode; no digest reveals the password.","every int work factor","needs work factors outside 32 bits",["makwa/makwa.go: Hash, wFactor"])
p("C78","makwa: CheckPassword accepts exactly the right digests","CheckPassword accepts a digest iff recomputing with its parameters gives the same bytes; it accepts every digest Hash produced; Hash fails exactly for passwords that are too long.","every modulus, hash function, password, salt, work factor","space of inputs is infinite",["makwa/makwa.go: CheckPassword, Hash"])
p("C79","bash: New rejects unsupported sizes","New(n) succeeds exactly for n = 8, 16, ..., 512 bits.","every integer n","unbounded",["bash/digest.go: newDigest"])
p("C80","k12: every history without Reset is KangarooTwelve","For every customization string and digest size, any interleaving of Write, Sum and Read on a new object returns KangarooTwelve's output: Write returns len(p) and never fails before the first Read, Sum appends the digest of everything written without disturbing the object, consecutive Reads return consecutive pieces of the one output stream, Write after Read fails and changes nothing.","every customization string, digest size and call sequence without Reset (fewer than 2^63 bytes)","unbounded message length: block (168) and chunk (8192) boundaries, any number of chunks",["k12/digest.go: Write, Read, Sum","k12/sponge.go","k12/keccakf.go: keccakF1600","k12/utils.go: rightEncode"])
hist("C81","jh2 (JH-224/256/384/512)","the JH digest (round-3 JH: bit string, 42 rounds of S-boxes, MDS and permutation)",["jh2/digest.go","jh2/jh2.go","jh2/sbox.go"])
p("C82","md6: streaming, and the MD6 function","For every digest size up to 1024 bits, key and level count, whatever the cut of the message into Writes, Sum returns its argument followed by the MD6 digest of the bytes written since the last Reset.","all sizes, keys, levels and histories of Write/Sum/Reset","messages, cuts, keys and sizes are unbounded; the test suite has six messages written in one piece and its long vectors were produced by this code",["md6/digest.go: Write, process, par, seq, mid, f, checkSum","md6/utils.go"])
p("C83","md6: the caller's key memory","Building a keyed hash leaves the caller's memory unchanged.","all key slices with their spare capacity, sizes, levels","the spare capacity of a slice is invisible to a test that looks at the digest",["md6/digest.go: newDigest"])
p("C84","md6: Sum panics only for digest sizes above 1024 bits","The constructors accept every size; in every reachable state Sum panics if and only if the size is larger than 1024 bits.","all sizes, keys, levels, histories","all sizes and states",["md6/digest.go: checkSum","md6/utils.go: crop"])
hist("C85","lsh256 (LSH-256-224, LSH-256-256)","the LSH digest (KS X 3262: one-zeros padding, wide-pipe compression, folded output)",["lsh256/digest.go","lsh256/lsh256.go","lsh256/sbox.go"])
hist("C86","lsh512 (LSH-512-224/256/384/512)","the LSH digest (KS X 3262, 64-bit words)",["lsh512/digest.go","lsh512/lsh512.go: New, New384, New256, New224, Sum","lsh512/sbox.go"])
p("C87","lsh512: one-shot functions agree with the streaming digests","Sum384, Sum256 and Sum224 return the digest that New384, New256 and New224 compute for the same data.","every input","needs the right reference value for every input",["lsh512/lsh512.go: Sum384, Sum256, Sum224"])
hist("C88","cubehash (every constructor except NewHS512x, and NewCubehash with a block size that is a multiple of 4 up to 128 bytes and a digest size that is a multiple of 32 up to 1024 bits)","the CubeHash i+r/b+f-h digest",["cubehash/digest.go","cubehash/cubehash.go","cubehash/utils.go"])
p("C89","cubehash.NewHS512x computes CubeHash16+16/1+32-512","The digest returned by NewHS512x depends on every byte of the message, as CubeHash with 1-byte blocks does.","every message","needs the right reference value for every input",["cubehash/cubehash.go: NewHS512x","cubehash/digest.go: ingest"])
p("C90","cubehash: saved states resume exactly","MarshalBinary after any history, followed by UnmarshalBinary into a digest of the same parameters with any other past (and with any bytes appended to the encoding), gives a digest whose later outputs equal those of the saved one; UnmarshalBinary accepts exactly encodings with 128 state bytes, a count below the block size and that many buffered bytes.","every parameter set, pair of histories, trailing bytes and continuation","all histories and continuations",["cubehash/digest.go: MarshalBinary, UnmarshalBinary"])
p("C91","cubehash: Sum appends Size() bytes","Sum appends exactly Size() bytes to its argument, for every digest size accepted by NewCubehash.","every digest size and history","all parameters",["cubehash/digest.go: Size, Sum, checkSum"])
hist("C92","panama","the PANAMA hash",["panama/digest.go","panama/panama.go"])
hist("C93","shabal (New with every accepted output size, New192 ... New512)","the Shabal digest of that size",["shabal/digest.go","shabal/sbox.go","shabal/shabal.go"])
hist("C94","gost/gost341194 (with any block cipher whose blocks have 8 bytes)","the GOST R 34.11-94 digest over that cipher",["gost/gost341194/hash.go"])
p("C95","vmac: Write/Sum/Reset/SetNonce contract","For a MAC object created by New with an AES key, a nonce of 1 to 15 bytes and tag size 8 or 16, every sequence of Write, Sum, Reset and SetNonce calls is observably equal to: Sum(in) returns in followed by the VMAC tag (draft-krovetz-vmac-01) of everything written since creation or the last Reset under the nonce in force; Sum changes nothing; SetNonce takes effect for all later Sums without touching the message, and a nonce of 16 bytes or more is refused and changes nothing; with an empty nonce Sum panics.","all keys New accepts, all nonces, both tag sizes, all call sequences and messages, every block cipher with 16-byte blocks","message lengths, call sequences and keys are unbounded; the tests have ten vectors with one key and nonce",["vmac/vmac.go","vmac/utils.go","vmac/sbox.go"])
p("C96","vmac: an object New returned can be summed","If New(key, nonce, size) succeeds, Sum does not panic.","all key, nonce and size arguments New accepts, all call sequences","the argument space is unbounded; the tests only use sizes 8 and 16",["vmac/vmac.go"])
p("C97","skeins: New224/256/384/512 and Sum224/256/384/512 compute Skein-512-n","Every history of Write, Sum and Reset calls in which no Sum happens while the message written so far is a nonempty multiple of 64 bytes returns in followed by the Skein-512-n digest of everything written since creation or the last Reset; Sum changes nothing; the one-shot functions return the same digest. On every history without that restriction the object still behaves as a function of the concatenated message (the streaming contract).","all four digest sizes, all call sequences, all messages below 2^64 bytes","message lengths and call sequences are unbounded",["skeins/skeins.go","skeins/digest512.go","skeins/sbox.go","skeins/utils.go"])
p("C98","skeins: the digest is Skein also on whole blocks","Also for messages that are a nonempty multiple of the 64-byte block, the digest is the Skein-512-n digest.","all messages","the tests have no message of 64 or 128 bytes checked against the Skein specification",["skeins/digest512.go"])
p("C99","skeins: NewHS256(hs, iv)","For hs <= 32 and any chaining value iv, every history without a Sum at a nonempty multiple of 32 bytes returns in followed by the hs-byte Skein-256 output of the message processed from iv; with the iv of the configuration block this is Skein-256. For hs > 32 the output function is asked for more than one block.","all hs, all iv, all call sequences and messages below 2^64 bytes","hs, iv, message lengths and call sequences are unbounded",["skeins/skeins.go","skeins/digest256.go","skeins/utils.go"])
hist("C100","bmw","the Blue Midnight Wish digest (New224, New256, New384, New512 and the one-shot functions Sum224 ... Sum512)",["bmw/bmw.go","bmw/digest256.go","bmw/digest512.go","bmw/sbox.go","bmw/utils.go"])
hist("C101","groestl","the Groestl digest (New for every size of 8..512 bits, the fixed-size constructors and the one-shot functions)",["groestl/groestl.go","groestl/digest.go","groestl/sbox.go","groestl/utils.go"])
p("C102","groestl: New rejects unusable sizes","groestl.New returns an error for every hash size with which Sum cannot return a digest.","every integer hash size","negative sizes are not among the tested ones",["groestl/digest.go:newDigest"])
hist("C103","echo","the ECHO digest (New and NewWithSalt for every size of 8..512 bits, the fixed-size constructors and the one-shot functions)",["echo/echo.go","echo/digest.go","echo/sbox.go","echo/utils.go"])
p("C104","echo: New rejects unusable sizes","echo.New returns an error for every hash size with which Sum cannot return a digest.","every integer hash size","negative sizes are not among the tested ones",["echo/digest.go:newDigest"])
hist("C105","whirlpool","the Whirlpool, Whirlpool-0 and Whirlpool-T digests (New, New0, New1 and the one-shot functions)",["whirlpool/whirlpool.go","whirlpool/digest.go","whirlpool/sbox.go","whirlpool/utils.go"])
p("C106","haraka: both code paths compute Haraka v2","Haraka256 and Haraka512 return the Haraka v2 digest of every 32-byte, respectively 64-byte, input; the answer is the same whether the processor has AES instructions (assembly path) or not (portable path).","every input, every processor path, every prior register contents","the tests run one path per machine and sample inputs",["haraka/haraka.go","haraka/haraka_ref.go","haraka/aes.go","haraka/const.go","haraka/haraka_amd64.s","haraka/init_amd64.go"])
hist("C107","radio_gatun","the RadioGatun digests with 32-bit and 64-bit words (New32, New64, Sum32, Sum64)",["radio_gatun/radio_gatun.go","radio_gatun/digest32.go","radio_gatun/digest64.go","radio_gatun/utils.go"])
hist("C108","haval","the HAVAL digest (with the length, 128 to 256 bits, and number of passes, 3 to 5, that the constructor names)",["haval/haval.go: New128_3..New256_5, Sum128_3..Sum256_5","haval/digest.go: newDigest, Write, Sum, Reset, checkSum, processBlock, writeOutput"])
p("C109","lyra2re2.Lyra2 computes Lyra2","For every output length, every password and salt of a whole number of 8-byte words, time cost 0 or 1, at least two rows and one column, lyra2re2.Lyra2 fills k with the Lyra2 output (Blake2b sponge, setup, wandering, squeeze) whenever the matrix can hold the padded input, and it panics exactly when it has fewer than two rows, is too small for the input, or the time cost is above 1.","all key lengths, passwords, salts, row and column counts below 2^62 rows","the memory matrix, the revisiting order and the wandering order are defined for every size; tests fix one size and a few inputs",["lyra2re2/lyra2re.go:Lyra2","lyra2re2/lyra2re.go:reducedDuplexRowSetup","lyra2re2/lyra2re.go:reducedDuplexRow"])
p("C110","Lyra2 accepts every time cost","Lyra2 of lyra2re and lyra2re2 returns for every time cost (refuted: for every time cost of 2 or more both functions panic on every input, because the second pass steps from row 0 to row -1).","all inputs with timeCost >= 2","no test uses a time cost other than 1",["lyra2re/lyra2re.go:Lyra2","lyra2re2/lyra2re.go:Lyra2"])
p("C111","lyra2re.Lyra2 depends on the whole password and the salt","The key filled in by lyra2re.Lyra2 depends on every byte of password, salt and parameters (refuted: input blocks are read at a stride of 64 words instead of 8, so with 64 to 463 bytes of password and salt only their first 64 bytes and the number of blocks matter; exact description of what is absorbed; agreement with Lyra2 for inputs of one block).","all passwords and salts of whole words, all matrix sizes","needs all pairs of inputs",["lyra2re/lyra2re.go:Lyra2"])
p("C112","Every byte of password and salt counts in Lyra2","Two passwords or salts of the same length that differ give unrelated keys in both packages (refuted: the bytes after the last whole 8-byte word are ignored; in particular all passwords of the same length below 8 bytes give the same key).","all passwords and salts, all parameters","needs all pairs of inputs",["lyra2re/lyra2re.go:Lyra2","lyra2re2/lyra2re.go:Lyra2"])
p("C113","lyra2re.Sum is the Lyra2RE chain","For every input lyra2re.Sum returns, without panic, Groestl-256 of Skein-512-256 of Lyra2 (version 1, 8x8) of Keccak-256 of Blake-256 of the input.","all inputs","a chain of five hash functions must agree for every input",["lyra2re/sum.go:Sum"])
p("C114","lyra2re2.Sum is the Lyra2REv2 chain","For every input lyra2re2.Sum returns, without panic, BMW-256 of CubeHash-256 of Skein-512-256 of Lyra2 (4x4) of CubeHash-256 of Keccak-256 of Blake-256 of the input.","all inputs","a chain of seven hash functions must agree for every input",["lyra2re2/sum.go:Sum"])
p("C115","fsb is FSB on every history","For each of the six sizes fsb.New accepts, every table of round constants and every history of Write, Sum and Reset (each Write of fewer than 2^29 bytes less one block), each Sum returns its argument followed by FSB of the bytes written since the last Reset: the code never reaches its unaligned paths, never indexes outside the matrix and never panics, and Sum does not disturb the state.","all six parameter sets, all tables, all histories of writes below the limit","the column index, the cyclic shifts by bytes and bits and the buffering must agree with the bit-level definition for every input",["fsb/digest.go:Reset","fsb/digest.go:write","fsb/digest.go:performHash","fsb/digest.go:checkSum","fsb/utils.go","fsb/fsb.go:Sum"])
p("C116","fsb.Write accepts messages of any length","A Write of a message of any length counts every byte of it (refuted: the bit count is a uint32, so a Write of 2^29 bytes on a fresh digest reports 2^29 bytes written and leaves the state unchanged: every message of 2^29 bytes has the digest of the empty message).","all messages of 2^29 bytes, all six sizes","needs inputs of half a gigabyte and a claim about all of them",["fsb/digest.go:Write"])
p("C117","skein512: every history of the hash is Skein-512 with the given optional inputs","New(outLen, args) returns a hash whose Sum, after any interleaving of Write, Sum and Reset, appends the Skein-512 output of outLen bytes for the key, personalization, public key, key identifier and nonce given (each absent when nil) and the bytes written since the last Reset, including the four output lengths with precomputed initial values; with NoMsg, Write accepts no bytes and Sum always returns the output of the chain without a message.","all output lengths, all optional inputs (key not the empty non-nil slice) and all histories of fewer than 2^64 bytes","Skein-512 is defined on every byte string and every combination of inputs; tests use a few vectors",["skein512/hash.go:New","skein512/hash.go:Hash","skein512/block.go:block"])
p("C118","skein512: an empty key is the same as no key","With Key an empty (non-nil) byte slice, e.g. NewMAC(outLen, []byte{}), the result is the one Skein defines for the empty key.","all output lengths, inputs and histories","the Skein specification gives the empty key a special meaning; no test uses it",["skein512/hash.go:New","skein512/skein.go:NewMAC"])
p("C119","skein512: the output reader returns the output stream in order","After any history of the hash, OutputReader gives a reader for which any sequence of Read and XORKeyStream calls of any sizes returns (or xors in) consecutive slices of the Skein output of the current message, without repetition or gaps; Sum is its prefix of outLen bytes.","all inputs, all histories of fewer than 2^64 bytes, all sequences of reads","read sizes interact with the 64-byte buffer and the block counter in unboundedly many ways",["skein512/hash.go:OutputReader","skein512/hash.go:Read","skein512/hash.go:XORKeyStream"])
p("C120","skein512: the stream cipher is the Skein stream cipher","NewStream(key, nonce) is the Skein-512 stream cipher: the key stream of the output length of 2^64-1 bits (the length its comment announces), and decryption with the same key and nonce recovers the plaintext however the two sides split the data.","all keys, nonces, messages and splittings","all keys and all splittings",["skein512/skein.go:NewStream","skein512/hash.go:XORKeyStream"])
hist("C121","luffa","the Luffa-224, Luffa-256, Luffa-384 and Luffa-512 digests (v2)",["luffa/digest256.go","luffa/digest384.go","luffa/digest512.go","luffa/luffa.go"])
hist("C122","fugue","the Fugue-224, Fugue-256, Fugue-384 and Fugue-512 digests",["fugue/digest.go","fugue/utils.go","fugue/sbox.go","fugue/fugue.go"])
hist("C123","hamsi","the Hamsi-224, Hamsi-256, Hamsi-384 and Hamsi-512 digests",["hamsi/digest256.go","hamsi/digest512.go","hamsi/sbox.go","hamsi/hamsi.go"])
p("C124","xxh3: the one-shot functions are XXH3","Hash_64bits, Hash_128bits and their _withSeed, _withSecret and _withSecretandSeed forms return the XXH3 hash of the input for every input of at least 4 bytes that has at most 240 bytes or a length not divisible by 64; for 0 to 3 bytes they return XXH3 with the final function of longer inputs.","all byte strings of such a length, all seeds, all secrets of at least 136 bytes","all lengths, contents, seeds and secrets, including the block boundaries of every path",["xxhash/xxh3/utils.go","xxhash/xxh3/xxh3_64.go","xxhash/xxh3/xxh3_128.go","xxhash/xxh3/sbox.go"])
p("C125","xxh3: short inputs are hashed as in XXH3","For 0 to 3 bytes Hash_64bits and Hash_128bits return the XXH3 hash.","all byte strings of at most 3 bytes","the result is a claim about agreement with another function on every such input",["xxhash/xxh3/utils.go","xxhash/xxh3/xxh3_64.go","xxhash/xxh3/xxh3_128.go","xxhash/xxh3/sbox.go"])
p("C126","xxh3: the one-shot functions read the whole input","Hash_64bits, Hash_128bits and their keyed forms depend on every byte of the input: changing the last 64 bytes of an input changes the hash unless there is a real collision.","all inputs of more than 240 bytes with a length divisible by 64, all seeds and secrets","a property of all pairs of inputs",["xxhash/xxh3/utils.go","xxhash/xxh3/xxh3_64.go","xxhash/xxh3/xxh3_128.go","xxhash/xxh3/sbox.go"])
p("C127","xxh3: the digests are incremental","On a digest made by New64, New128, NewWithSeed or NewWithSecret, for any sequence of Write, Sum and Reset with less than 2^64 bytes in which no Write panics, Write returns the length of its argument and Sum appends the hash of everything written since the last Reset (XXH3 from 4 bytes on); the one-call functions Sum64, Sum128, Checksum64, Checksum128 with or without seed never panic and return that hash; NewWithSecret refuses exactly the secrets of less than 136 bytes.","all call sequences, contents, seeds and secrets","unbounded call sequences and all splits of a message into writes",["xxhash/xxh3/digest64.go","xxhash/xxh3/digest128.go","xxhash/xxh3/xxh3_64.go","xxhash/xxh3/xxh3_128.go"])
p("C128","xxh3: Write never panics","Write on a digest accepts every argument after every sequence of calls, so that the split of a message into writes does not matter.","all call sequences and arguments","unbounded call sequences",["xxhash/xxh3/digest64.go","xxhash/xxh3/digest128.go","xxhash/xxh3/xxh3_64.go","xxhash/xxh3/xxh3_128.go"])
hist("C129","simd","the SIMD-224, SIMD-256, SIMD-384 and SIMD-512 digests",["simd/digest256.go","simd/digest512.go","simd/utils.go","simd/sbox.go","simd/simd.go"])
p("C130","simd: tables and compression are those of SIMD","The four initial values are the compression of the ASCII version strings into the zero state; for every block and chaining value one compression is that of SIMD: the fast transform with its lazily reduced int32 values computes the number theoretic transform over GF(257) exactly, whatever earlier calls left in the scratch arrays.","all blocks, chaining values, scratch contents, both values of the last flag, both block sizes","an overflow or a missing reduction would show on rare blocks only",["simd/digest256.go","simd/digest512.go","simd/utils.go","simd/sbox.go","simd/simd.go"])
p('C131','deepcopy.Copy returns a value that shows the same as its source, unexported fields set to zero','For every value whose references can be followed to the end (pointers, interfaces, structs, slices with any length, offset and capacity, maps, arrays, times, nested to any depth, with sharing), whose types have no DeepCopy method and whose map keys hold no pointer, NaN, unexported field and are not the nil interface, Copy ends without a panic, changes no memory that was there, and the result shows the same dynamic type, nils, lengths, capacities, elements, map keys and values, the unexported fields of structs outside arrays being zero; with no such field it shows exactly what the source shows. Copy(nil) is nil.','all memories, all values of finite unfolding in them','Go values nest without bound and share memory in arbitrary ways; tests compare a handful of literals',['tool/deepcopy/deepcopy.go:Copy', 'tool/deepcopy/deepcopy.go:copyRecursive'])
p('C132','A value made by deepcopy.Copy shares no memory with its source','If moreover no array holds a pointer, slice or map, every memory cell that can be reached through the copy did not exist before the call: whatever is written through the copy the source still shows the same, and whatever is written to the memory there was before the call the copy still shows the same (channels and functions are not copied and are left out).','all memories and values as in C131, all later writes','aliasing is invisible to a comparison of the copy with its source; every later write to every reachable cell counts',['tool/deepcopy/deepcopy.go:Copy', 'tool/deepcopy/deepcopy.go:copyRecursive'])
p('C133','deepcopy.Copy copies what an array refers to','Every memory cell reached through the result of Copy on an array is new.','all arrays','FALSE of the code: reflect.Array falls to the default case, and the copy of an array keeps all its references: a write through the copy of a [1][]byte shows in the source',['tool/deepcopy/deepcopy.go:Copy', 'tool/deepcopy/deepcopy.go:copyRecursive'])
p('C134','deepcopy.Copy ends on every value','Copy ends for every Go value.','all values, in particular cyclic ones','FALSE of the code: on a ring of any number of nodes linked by pointers Copy does not end (the stack overflows)',['tool/deepcopy/deepcopy.go:Copy', 'tool/deepcopy/deepcopy.go:copyRecursive'])
p('C135','deepcopy.Copy panics on no map','Copy of a map does not panic.','all maps','FALSE of the code: a map with a NaN key, or with the nil interface as a key, makes Copy panic',['tool/deepcopy/deepcopy.go:Copy', 'tool/deepcopy/deepcopy.go:copyRecursive'])
p('C136','deepcopy.Copy loses no data','Two values that differ have different copies, and the copy of a map has as many entries as the map.','all values and maps','FALSE of the code: unexported fields are lost (structs that differ in them only have the same copy) and map keys that differ in them only become one entry',['tool/deepcopy/deepcopy.go:Copy', 'tool/deepcopy/deepcopy.go:copyRecursive'])
p('C137','hash wrapper: call chains compute the digest they name',"In every program that builds Hash values from Hash values (FromBytes, X, NewX, NewHash, Checksum, Write, WriteReader, Sum, Reset), each value's bytes are determined by the log of what was written, in program order, to its hash object: NewX, any Writes and Resets, Sum(i) gives i followed by the digest named X of what was written since the last Reset; X on a message gives the same as NewX with the message written in pieces; Checksum(h) digests what h had absorbed followed by the data; a failing reader's bytes are hashed and its error is reported; a method of a nil object panics, and nothing else does.",'every program (straight-line, any sharing of values), every message, for the 15 methods whose constructor meets the hash.Hash contract unconditionally, and for any constructors that meet it','chains and forks are unbounded; the tests call each method once',['hash/hash_sum.go: Write, WriteReader, Sum, Reset, Hash', 'hash/hash.go: NewHash, Checksum', 'hash/hash_from.go: FromBytes', 'hash/md2.go, sm3.go, has160.go, tiger.go, blake256.go, blake512.go, lsh256.go, lsh512.go'])
p('C138','hash wrapper: a Hash value is not affected by calls on a copy of it','Hash has value receivers and every method returns a new value; two continuations of the same value do not influence each other.','all values and calls','FALSE of the code: the copies share the hash object, so two continuations both give the digest of what either wrote',['hash/hash_sum.go: Write, WriteReader, Sum, Reset, Hash', 'hash/hash.go: NewHash, Checksum'])
p('C139','hash wrapper: SumBy and NewBy report an unknown name as an error','SumBy and NewBy never panic, whatever other goroutines do to the registry UseHash.','any number of goroutines, all interleavings','FALSE of the code: getHash asks Has and then Get in two critical sections; a Remove in between makes it call a nil constructor',['hash/hash_use.go: getHash, SumBy, NewBy', 'hash/hash_data_set.go: Has, Get, Remove, Clean'])
p('C140','hash wrapper: TypeSet.Generate gives each caller its own id','Two calls of Generate never return the same id.','any number of goroutines, all interleavings','FALSE of the code: the counter is read and incremented without a lock; any number of concurrent callers can get the same id',['hash/hash_type_set.go: Generate'])
p("C141","hash wrapper: Hmac and NewHmac compute RFC 2104 HMAC","For every constructor of the library that keeps the hash.Hash contract, Hmac(h, key) and every sequence of Write, Sum and Reset on NewHmac(h, key) give the RFC 2104 HMAC with that hash and its published block length, whatever the key length, whatever else the program does in between, and also after Reset, which saves and restores states through MarshalBinary and UnmarshalBinary; HMACs can themselves be used as the hash of an HMAC.","every constructor of the table (and any other meeting the contract), key, message, history of calls and program","Each history exercises a different mixture of buffered, marshaled and restored states; tests use one key and one message per hash and never call Reset.",["hash/hmac.go: Hmac, NewHmac","md2/binary.go, sm3/binary.go, blake256/binary.go, blake512/binary.go: MarshalBinary, UnmarshalBinary","md2, sm3, has160, tiger, blake256, blake512, lsh256, lsh512: BlockSize"])
p("C142","hash wrapper: what a value shows is changed only by a write to the bytes it shows","ToBytes of a Hash value is what the call that made it produced (the caller's bytes, the digest, or in followed by the digest, in or out of place) and stays that through every sequence of calls and stores, unless one of them writes a byte the value shows; the only writes are the client's own stores and Sum(in) into spare capacity of in. So programs without stores that give Sum slices without room never change a value, and the digest of FromBytes(s).X() stays whatever is stored afterwards.","every memory, slice, program of calls and stores, every growth policy of append","Aliasing depends on the offsets and capacities of all slices alive at once and on the order of all later calls.",["hash/hash_from.go: FromBytes","hash/hash_sum.go: Sum","hash/hash_to.go: ToBytes","hash/md2.go and the like: X()"])
p("C143","hash wrapper: a value does not depend on the buffers passed to it","After FromBytes(buf) or Sum(buf) a later change of buf, or a later Sum(buf), does not change the value.","every buffer, offset and digest","Needs two live slices of one array; tests use each buffer once.",["hash/hash_from.go: FromBytes","hash/hash_sum.go: Sum"])
open('/verif/properties.jsonl','w').write(''.join(json.dumps(x,ensure_ascii=False)+'\n' for x in P))
print(len(P))
