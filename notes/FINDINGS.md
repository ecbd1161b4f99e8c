# Reading notes (facts about /repo found while reading; each to be turned into a theorem)
- sm3: beAdd (rand.go) adds bytes with uint8 overflow before widening -> loses carries; DF.checkSum copies second half onto out[:23] instead of out[32:], so last 23 bytes are always 0; Rand.Generate reseed-by-time never fires (Second() in 0..59). GenT = tSbox.
- md2/sm3/blake256/blake512 have MarshalBinary/UnmarshalBinary.
- crc16 x25/modbus: FormatInt(…,16) drops leading zeros -> hash wrapper HexDecode fails on odd lengths.
- hash_composition: Sum writes into shared h1 -> second Sum differs (Sum not pure); Reset on New.
- pmac: Sum's `d0 := *d` shares Block.Data slices -> Sum mutates digest; second Sum differs. l table has 2*bs-1 entries -> panic at block number 2^(2bs-1) (bs=8: 2^15 blocks = 256 KiB). R=0x87 for every block size.
- cmac: p256/p512/p1024 truncated to byte (0x25,0x25,0x43).
- gmac: Sum(in) uses SliceForAppend(b,len(b)+16) -> extra len(in) bytes; `written` bookkeeping double-counts/loses -> streaming broken.
- rabin chunker: Reader returning (n>0, EOF) -> next Next() returns 0,EOF, dropping buffered bytes; stream ending at chunk boundary w/ minBytes>window -> Next returns (0,nil).
- ascon: Open on failure returns dst with plaintext; zero-value Hash Sum w/o Write differs from NewHash.
- chaskey: Reset zeroes key material; Write absorbs a completed buffered block eagerly (split at 16 differs); lastblock uses stale bytes of x.
- siphash: Reset doesn't restore s; invalid hashSize silently 16.
- k12: Reset doesn't reset numChunk/currentWritten/dsbyte.
- blake3: cv_stack_len is uint8, index arithmetic cv_stack_len*32 in uint8 wraps at 8 (if const untyped).
- blake3 (confirmed): in mergeCvStack slice `[(len-2)*32 : (len-2)*32+64]` is uint8 arithmetic; with cv_stack_len=8 upper bound wraps to 0 -> slice bounds panic. Chunk-by-chunk streaming panics once >128 KiB written; single Write of 255 KiB panics as well. Correct while stack len <= 7. pushCV idx 8*32 wraps to 0. rootBytes slice wrong if seek offset != 0 (never used: seek always 0).
- blake256/blake512: Reset doc "leaves salt intact" but zeroes s; NewWithSalt+Reset loses salt. Marshal does not carry hs/initVal: 224/256 states are interchangeable (UnmarshalBinary accepts). blake counters ok.
- bash: d.x has 192 bytes, `copy(d.x[nx:],p)` copies past rate bs when p is long; processBlock xors all 192 bytes -> long single Write differs from split Writes.
- jh: Write when buffered & not filling does data[:64-(nx>>3)] -> slice out of range panic (cap=len).
- esch: eager processing when buffered block exactly full (Write(5);Write(11) != Write(16)); Write(nil) after Write(16) changes hash.
- shavite256/512: d.len += BlockSize per block AND += plen for partials -> over-counts; Write(63);Write(1);Write(63);Write(1) wrong bit count.
- skeins: eager last block -> differs from Skein (skein256 pkg) when message is nonempty multiple of block.
- others (sha0,ripemd,haval,streebog,whirlpool,lsh,groestl,echo,fugue,hamsi,luffa,shabal,bmw,cubehash,panama,radio_gatun) streaming plausible ok.
- gost34112012256.TLSTree: fresh tree, first Derive(seq>0 with masks = 0) returns 32 zero bytes (cache hit on uninitialised). ESPTree cache ok.
- kupyna kmac: d0:=*d shares d.h -> Sum mutates; Reset drops key & keeps len.
- makwa: UnmarshalText work factor mantissa^(log+1) (wrong for 3: 12 -> "302" -> 27); Extend drops leading zero padding (x.Bytes()); b64 round trip; Recover via sqrt mod p,q.
- skein: New512(nil).Sum(nil) without Write skips finalizeHash: differs from Sum512(nil,nil).
- md6: in f(), input longer than n=89 words is ignored: bytes 384..511 of every block after the first don't influence hash (universal collision). ell counts blocks not levels.
- vmac: size=0 -> div by zero panic at Sum, size 24.., empty nonce -> panic.
- gost341194: check chkAdd purity.
- makwa (proved): UnmarshalText panics on "" and texts without separators; work factor check only looks at low 32 bits (2-2^32 accepted, squaring loop does not run, digest leaks password); Recover assumes bit length multiple of 8.
- streebog addm (proved): carry lost when a byte sum chain saturates; sm3 Generate only fills the first 32 bytes; time reseed never fires.
- lsh512 (proved, C87): Sum384/Sum256/Sum224 call New() and return a prefix of the LSH-512-512 digest.
- cubehash (proved, C89/C91): NewHS512x has 1-byte blocks but ingest reads bs/4 = 0 words, so message bytes are ignored; hs not a multiple of 32 -> Sum appends 4*(hs/32) bytes, not Size(). Not modelled: bs > 131 or hs > 1055 panic, bs = 0 loops for ever.
- skeins (proved, C98/C99): full buffer is flushed at once, so a message of k*64 bytes (k>0) gets an extra zero final block (not Skein); NewHS256 with hs > 32 returns zero bytes after the 32nd.
- vmac (proved, C96): New accepts any multiple of 8 (0, negative, 24...) and the empty nonce; Sum then panics.
- groestl (proved, C102), echo: New accepts every negative size (Go % is <= 0 for negatives); Sum then panics.
- lyra2re, lyra2re2 (proved, C110-C112): Lyra2 panics for every timeCost >= 2 (row = (row-1) % nRows is -1 in Go); trailing len%8 bytes of password and salt are ignored; lyra2re reads input blocks at stride 64 words (deployed Lyra2RE v1 behaviour), so salt and most of a long password do not count.
- fsb (proved, C116): Write computes uint32(8*len(data)); a 2^29-byte Write is counted as 0 bits and dropped (longer ones keep len mod 2^29 bytes).
- skein512 (proved, C118/C120): an empty non-nil Key still runs the key stage (NewMAC(n, []byte{}) is not Skein with the empty key); NewStream configures 2^64-8 output bits instead of the announced 2^64-1.
- xxh3 (proved, C125): inputs of 0..3 bytes get the XXH3 avalanche instead of the XXH64 one (empty input: 5a9635b1c4ed54c5, XXH3 gives 2d06800538d394c2).
- xxh3 (proved, C126): the one-shot Hash_* functions ignore the last 64 bytes of inputs longer than 240 bytes whose length is a multiple of 64; the digests hash them correctly.
- xxh3 (proved, C128): digest Write panics (slice index -1 or lower) when 192 < buffered and buffered + len = 512, e.g. two writes of 256 bytes.
- simd (proved, C129/C130): no bug found.
- deepcopy (proved, C133-C136): arrays are copied shallowly; cyclic values do not end; a NaN key or a nil interface key panics; unexported fields are lost, so struct keys may collapse.
- hash wrapper (proved, C138-C140): copies of a Hash share the digest object, so forked chains mix their input; getHash (SumBy/NewBy) calls a nil constructor when another goroutine removes the name between Has and Get; concurrent Generate calls return the same id.
- pmac, gmac, siphash (proved): exact behaviour of every history is now stated in C18_pmac_actual, C19_gmac_actual, C23_siphash_actual.
- hash.Hmac with constructors whose BlockSize() < Size() (fugue 4 < 28..64, ascon 8 < 32, esch 16, luffa 32 < 64, murmur3 1): crypto/hmac truncates the hashed key to BlockSize bytes (C141_hmac_long_keys): with fugue every key longer than 4 bytes counts as 32 bits.
- hash wrapper: FromBytes keeps the caller's slice and Sum(in) appends into spare capacity: later stores / a second Sum(in) change earlier values (C143).
