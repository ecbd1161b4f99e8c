{"id": "C01", "title": "md2: hash.Hash contract", "statement": "For a digest created by the package constructor, every sequence of Write, Sum and Reset calls is observably equal to: Write returns len(p) and nil; Sum(in) returns in followed by the RFC 1319 digest (padding, appended checksum, 48-byte state, first 16 bytes) of the concatenation of everything written since creation or the last Reset; Sum does not change later results; Reset makes the object behave as new.", "quantifier": "every finite sequence of Write/Sum/Reset calls with arbitrary byte slices of arbitrary lengths", "why_tests_cant": "the number of ways to cut a message into Writes and to interleave Sum/Reset is infinite; tests fix a handful of cuts", "anchors": ["md2/digest.go: Write, Sum, checkSum, block, Reset", "md2/md2.go: New, Sum"]}
{"id": "C02", "title": "md2: MarshalBinary/UnmarshalBinary round trip", "statement": "Serialising a digest after any history and unmarshalling into any md2 digest succeeds, and the restored object gives the same results as the original under every later sequence of calls.", "quantifier": "every history before the snapshot, every sequence of calls after it, every receiver", "why_tests_cant": "snapshot points and continuations are unbounded", "anchors": ["md2/binary.go: MarshalBinary, UnmarshalBinary"]}
{"id": "C03", "title": "md2: UnmarshalBinary accepts exactly well-formed states", "statement": "UnmarshalBinary returns an error exactly when the input does not start with the identifier or does not have the exact size.", "quantifier": "every byte string", "why_tests_cant": "inputs are unbounded", "anchors": ["md2/binary.go: UnmarshalBinary"]}
{"id": "C04", "title": "sm3: hash.Hash contract", "statement": "For a digest created by the package constructor, every sequence of Write, Sum and Reset calls is observably equal to: Write returns len(p) and nil; Sum(in) returns in followed by the SM3 digest (GB/T 32905: 0x80, zeros, 64-bit big-endian bit length; iterated compression) of the concatenation of everything written since creation or the last Reset; Sum does not change later results; Reset makes the object behave as new.", "quantifier": "every finite sequence of Write/Sum/Reset calls with arbitrary byte slices of arbitrary lengths", "why_tests_cant": "the number of ways to cut a message into Writes and to interleave Sum/Reset is infinite; tests fix a handful of cuts", "anchors": ["sm3/digest.go: Write, Sum, checkSum, Reset", "sm3/block_generic.go"]}
{"id": "C05", "title": "sm3: MarshalBinary/UnmarshalBinary round trip and rejection", "statement": "A state serialised after any history and restored into any receiver behaves like the original under all later calls; inputs with a wrong identifier or size are rejected.", "quantifier": "every history, continuation, receiver; every byte string for the rejection part", "why_tests_cant": "snapshot points and continuations are unbounded", "anchors": ["sm3/binary.go"]}
{"id": "C06", "title": "sha0: hash.Hash contract", "statement": "For a digest created by the package constructor, every sequence of Write, Sum and Reset calls is observably equal to: Write returns len(p) and nil; Sum(in) returns in followed by the SHA-0 digest (FIPS 180 padding with 64-bit big-endian bit length) of the concatenation of everything written since creation or the last Reset; Sum does not change later results; Reset makes the object behave as new.", "quantifier": "every finite sequence of Write/Sum/Reset calls with arbitrary byte slices of arbitrary lengths", "why_tests_cant": "the number of ways to cut a message into Writes and to interleave Sum/Reset is infinite; tests fix a handful of cuts", "anchors": ["sha0/digest.go: Write, Sum, checkSum, processBlock, Reset"]}
{"id": "C07", "title": "ripemd (128, 160, 256, 320): hash.Hash contract", "statement": "For a digest created by the package constructor, every sequence of Write, Sum and Reset calls is observably equal to: Write returns len(p) and nil; Sum(in) returns in followed by the RIPEMD digest (0x80, zeros, 64-bit little-endian bit length) of the concatenation of everything written since creation or the last Reset; Sum does not change later results; Reset makes the object behave as new.", "quantifier": "every finite sequence of Write/Sum/Reset calls with arbitrary byte slices of arbitrary lengths", "why_tests_cant": "the number of ways to cut a message into Writes and to interleave Sum/Reset is infinite; tests fix a handful of cuts", "anchors": ["ripemd/digest128.go", "ripemd/digest160.go", "ripemd/digest256.go", "ripemd/digest320.go"]}
{"id": "C08", "title": "tiger (Tiger and Tiger2, 128/160/192): hash.Hash contract", "statement": "For a digest created by the package constructor, every sequence of Write, Sum and Reset calls is observably equal to: Write returns len(p) and nil; Sum(in) returns in followed by the Tiger digest (marker 0x01 or 0x80, zeros, 64-bit little-endian bit length) of the concatenation of everything written since creation or the last Reset; Sum does not change later results; Reset makes the object behave as new.", "quantifier": "every finite sequence of Write/Sum/Reset calls with arbitrary byte slices of arbitrary lengths", "why_tests_cant": "the number of ways to cut a message into Writes and to interleave Sum/Reset is infinite; tests fix a handful of cuts", "anchors": ["tiger/digest.go", "tiger/utils.go"]}
{"id": "C09", "title": "has160: hash.Hash contract", "statement": "For a digest created by the package constructor, every sequence of Write, Sum and Reset calls is observably equal to: Write returns len(p) and nil; Sum(in) returns in followed by the HAS-160 digest of the concatenation of everything written since creation or the last Reset; Sum does not change later results; Reset makes the object behave as new.", "quantifier": "every finite sequence of Write/Sum/Reset calls with arbitrary byte slices of arbitrary lengths", "why_tests_cant": "the number of ways to cut a message into Writes and to interleave Sum/Reset is infinite; tests fix a handful of cuts", "anchors": ["has160/digest.go"]}
{"id": "C10", "title": "Merkle-Damgard padding adds no collisions", "statement": "For the packages of C04, C06-C09: two different messages shorter than 2^61 bytes are turned into different padded block sequences, and padded messages are whole numbers of blocks.", "quantifier": "all pairs of messages", "why_tests_cant": "pairs of messages are unbounded", "anchors": ["sm3/digest.go: checkSum", "sha0/digest.go: checkSum", "ripemd/digest160.go: checkSum", "tiger/digest.go: checkSum", "has160/digest.go: checkSum"]}
{"id": "C11", "title": "crc16: table-driven checksums equal the bitwise CRC", "statement": "For every byte string the table-driven x25 and modbus checksums equal the bit-by-bit reflected CRC with polynomial 0x8408 / 0xA001, the stated initial value and final xor.", "quantifier": "every byte string", "why_tests_cant": "unbounded inputs", "anchors": ["crc16/x25/x25.go", "crc16/modbus/modbus.go"]}
{"id": "C12", "title": "crc16: hexadecimal form is always four digits", "statement": "The string form of a CRC-16 value always has four hexadecimal digits, so that decoding it gives the two bytes of the value.", "quantifier": "every byte string", "why_tests_cant": "the failing inputs are 1/16 of all inputs but no test vector hits one", "anchors": ["crc16/x25/x25.go", "crc16/modbus/modbus.go", "hash/crc16.go"]}
{"id": "C13", "title": "rabin: rolling hash equals the polynomial residue of the window", "statement": "After any history the digest equals the remainder modulo the polynomial (over GF(2)) of the polynomial whose coefficients are the last window-size bytes written.", "quantifier": "every polynomial of degree 8..64 accepted by the constructor, every window size, every sequence of writes", "why_tests_cant": "unbounded histories; algebraic identity over GF(2)", "anchors": ["rabin/digest.go", "rabin/table.go", "rabin/poly.go"]}
{"id": "C14", "title": "rabin chunker: content-defined boundaries", "statement": "Successive Next calls cut the stream into consecutive chunks that cover it exactly, every chunk but the last has between minBytes and maxBytes bytes, and the boundaries depend only on the bytes of the stream, not on how the reader splits them.", "quantifier": "every stream, every reader schedule, all parameters", "why_tests_cant": "schedules and streams are unbounded", "anchors": ["rabin/chunker.go: Next, more, discard"]}
{"id": "C15", "title": "rabin chunker: end of stream", "statement": "No byte delivered by the reader is lost, including when the reader returns data together with io.EOF.", "quantifier": "every reader schedule", "why_tests_cant": "reader schedules are unbounded", "anchors": ["rabin/chunker.go: Next, more"]}
{"id": "C16", "title": "cmac: equals NIST SP 800-38B / RFC 4493 for every way of writing", "statement": "For every block cipher with 8 or 16 byte blocks, after any sequence of Writes Sum returns the CMAC of the concatenation; Reset starts a new message; Sum does not disturb later results.", "quantifier": "every cipher (as a function on blocks), key schedule, sequence of calls", "why_tests_cant": "unbounded histories", "anchors": ["cmac/cmac.go"]}
{"id": "C17", "title": "cmac: Verify accepts exactly the correct tag", "statement": "Verify(mac, m) succeeds exactly when mac is the CMAC of m truncated to the requested size.", "quantifier": "every tag and message", "why_tests_cant": "unbounded", "anchors": ["cmac/cmac.go: Verify, Sum"]}
{"id": "C18", "title": "pmac: Sum does not change the object", "statement": "Calling Sum twice, or Sum and then Write and Sum, gives the results of the corresponding messages.", "quantifier": "every history", "why_tests_cant": "interleavings are unbounded", "anchors": ["pmac/pmac.go: Sum, Write"]}
{"id": "C19", "title": "gmac: streaming", "statement": "Writing a message in pieces gives the same tag as writing it at once.", "quantifier": "all messages and cuts", "why_tests_cant": "unbounded", "anchors": ["gmac/gmac.go: Write, Sum"]}
{"id": "C20", "title": "gmac: Sum appends exactly 16 bytes", "statement": "Sum(in) returns in followed by the 16-byte tag.", "quantifier": "every slice in", "why_tests_cant": "unbounded", "anchors": ["gmac/gmac.go: Sum"]}
{"id": "C21", "title": "gcm: 4-bit table multiplication is multiplication in GF(2^128)", "statement": "The table-driven field multiplication used for GHASH equals the multiplication of blocks defined by NIST SP 800-38D Algorithm 1 (modulo x^128+x^7+x^2+x+1 in the GCM bit order), for every hash subkey and operand.", "quantifier": "all 2^256 pairs", "why_tests_cant": "exhaustive testing is impossible", "anchors": ["gmac/gcm/gcm_generic.go: gcmMul, gcmInitGo"]}
{"id": "C22", "title": "siphash: streaming and one-shot", "statement": "For every 16-byte key and every cut, Sum returns SipHash-2-4 (64 or 128 bit) of the concatenation.", "quantifier": "all keys, histories without Reset", "why_tests_cant": "unbounded", "anchors": ["siphash/digest.go", "siphash/siphash.go"]}
{"id": "C23", "title": "siphash: Reset", "statement": "After Reset the object behaves as new.", "quantifier": "every history", "why_tests_cant": "unbounded", "anchors": ["siphash/digest.go: Reset"]}
{"id": "C24", "title": "chaskey: streaming", "statement": "Writing a message in pieces gives the same tag as writing it at once.", "quantifier": "all cuts", "why_tests_cant": "unbounded", "anchors": ["chaskey/digest.go: Write"]}
{"id": "C25", "title": "chaskey: Reset", "statement": "After Reset the object behaves as a new one with the same key.", "quantifier": "every history", "why_tests_cant": "unbounded", "anchors": ["chaskey/digest.go: Reset"]}
{"id": "C26", "title": "murmur3 (32, 64, 128): hash.Hash contract", "statement": "For a digest created by the package constructor, every sequence of Write, Sum and Reset calls is observably equal to: Write returns len(p) and nil; Sum(in) returns in followed by MurmurHash3 with the given seed of the concatenation of everything written since creation or the last Reset; Sum does not change later results; Reset makes the object behave as new.", "quantifier": "every finite sequence of Write/Sum/Reset calls with arbitrary byte slices of arbitrary lengths", "why_tests_cant": "the number of ways to cut a message into Writes and to interleave Sum/Reset is infinite; tests fix a handful of cuts", "anchors": ["murmur3/"]}
{"id": "C27", "title": "xxhash32 / xxhash64: hash.Hash contract", "statement": "For a digest created by the package constructor, every sequence of Write, Sum and Reset calls is observably equal to: Write returns len(p) and nil; Sum(in) returns in followed by xxHash with the given seed of the concatenation of everything written since creation or the last Reset; Sum does not change later results; Reset makes the object behave as new.", "quantifier": "every finite sequence of Write/Sum/Reset calls with arbitrary byte slices of arbitrary lengths", "why_tests_cant": "the number of ways to cut a message into Writes and to interleave Sum/Reset is infinite; tests fix a handful of cuts", "anchors": ["xxhash/xxhash32/digest.go", "xxhash/xxhash64/digest.go"]}
{"id": "C28", "title": "ascon Hash/Hasha: hash.Hash contract", "statement": "For a digest created by the package constructor, every sequence of Write, Sum and Reset calls is observably equal to: Write returns len(p) and nil; Sum(in) returns in followed by Ascon-Hash(a) of the concatenation of everything written since creation or the last Reset; Sum does not change later results; Reset makes the object behave as new.", "quantifier": "every finite sequence of Write/Sum/Reset calls with arbitrary byte slices of arbitrary lengths", "why_tests_cant": "the number of ways to cut a message into Writes and to interleave Sum/Reset is infinite; tests fix a handful of cuts", "anchors": ["ascon/hash.go"]}
{"id": "C29", "title": "ascon XOF: reads can be split arbitrarily", "statement": "The bytes returned by successive Read calls concatenate to the same output stream however the reads are sized.", "quantifier": "all messages, all sequences of read sizes", "why_tests_cant": "unbounded", "anchors": ["ascon/hash.go: Xof, digest.read"]}
{"id": "C30", "title": "ascon AEAD: Open inverts Seal and rejects wrong tags", "statement": "Open(nonce, Seal(nonce, pt, ad), ad) returns pt without error; Open returns an error exactly when the recomputed tag differs from the received one.", "quantifier": "all keys, nonces, plaintexts, additional data, ciphertexts", "why_tests_cant": "unbounded", "anchors": ["ascon/aead.go"]}
{"id": "C31", "title": "blake3: streaming tree hash", "statement": "For inputs that need at most seven stacked chaining values, every cut of the message gives the BLAKE3 tree hash of the concatenation.", "quantifier": "all messages below the bound, all cuts", "why_tests_cant": "unbounded cuts; tree shapes", "anchors": ["blake3/digest.go", "blake3/blake3.go"]}
{"id": "C32", "title": "blake3: no panic on long inputs", "statement": "Write never panics.", "quantifier": "all inputs", "why_tests_cant": "the shortest failing input is longer than 128 KiB", "anchors": ["blake3/digest.go: mergeCvStack, pushCV"]}
{"id": "C33", "title": "k12: Reset", "statement": "After Reset the object behaves as new.", "quantifier": "every history", "why_tests_cant": "unbounded", "anchors": ["k12/digest.go: Reset"]}
{"id": "C34", "title": "blake256 / blake512 (unsalted): hash.Hash contract", "statement": "For a digest created by the package constructor, every sequence of Write, Sum and Reset calls is observably equal to: Write returns len(p) and nil; Sum(in) returns in followed by the BLAKE digest of the concatenation of everything written since creation or the last Reset; Sum does not change later results; Reset makes the object behave as new.", "quantifier": "every finite sequence of Write/Sum/Reset calls with arbitrary byte slices of arbitrary lengths", "why_tests_cant": "the number of ways to cut a message into Writes and to interleave Sum/Reset is infinite; tests fix a handful of cuts", "anchors": ["blake256/digest.go", "blake512/digest.go"]}
{"id": "C35", "title": "blake256 / blake512: Reset keeps the salt", "statement": "As documented, Reset leaves the salt intact.", "quantifier": "every salted digest", "why_tests_cant": "unbounded", "anchors": ["blake256/digest.go: Reset", "blake512/digest.go: Reset"]}
{"id": "C36", "title": "blake256 / blake512: serialised states are tied to the variant", "statement": "A state marshalled by one variant (224/256, 384/512) is rejected by, or behaves identically in, the other variant.", "quantifier": "every history", "why_tests_cant": "unbounded", "anchors": ["blake256/binary.go", "blake512/binary.go"]}
{"id": "C37", "title": "bash: streaming", "statement": "Writing a message in pieces gives the same digest as writing it at once.", "quantifier": "all messages, all cuts", "why_tests_cant": "unbounded", "anchors": ["bash/digest.go: Write"]}
{"id": "C38", "title": "belt: hash.Hash contract", "statement": "For a digest created by the package constructor, every sequence of Write, Sum and Reset calls is observably equal to: Write returns len(p) and nil; Sum(in) returns in followed by the STB 34.101.31 belt-hash digest of the concatenation of everything written since creation or the last Reset; Sum does not change later results; Reset makes the object behave as new.", "quantifier": "every finite sequence of Write/Sum/Reset calls with arbitrary byte slices of arbitrary lengths", "why_tests_cant": "the number of ways to cut a message into Writes and to interleave Sum/Reset is infinite; tests fix a handful of cuts", "anchors": ["belt/digest.go"]}
{"id": "C39", "title": "belt: block decryption inverts encryption", "statement": "For every key and block, decrypting the encryption returns the block.", "quantifier": "all 2^128 blocks and 2^256 keys", "why_tests_cant": "exhaustive testing impossible", "anchors": ["belt/belt.go"]}
{"id": "C40", "title": "threefish: the standard permutation, and decryption inverts encryption", "statement": "For every key, tweak and block of Threefish-256/512/1024 encryption computes the standard Threefish, decryption inverts it and conversely; NewCipher accepts exactly the key sizes 32, 64, 128.", "quantifier": "all keys, tweaks, blocks", "why_tests_cant": "exhaustive testing impossible", "anchors": ["skein/threefish/threefish256_ref.go", "skein/threefish/threefish512_ref.go", "skein/threefish/threefish1024_ref.go"]}
{"id": "C41", "title": "skein-256/512/1024 (after at least one Write): hash.Hash contract", "statement": "For a digest created by the package constructor, every sequence of Write, Sum and Reset calls is observably equal to: Write returns len(p) and nil; Sum(in) returns in followed by the Skein digest of the configured state size, output size, key, nonce and other arguments of the concatenation of everything written since creation or the last Reset; Sum does not change later results; Reset makes the object behave as new.", "quantifier": "every finite sequence of Write/Sum/Reset calls with arbitrary byte slices of arbitrary lengths", "why_tests_cant": "the number of ways to cut a message into Writes and to interleave Sum/Reset is infinite; tests fix a handful of cuts", "anchors": ["skein/skein256.go", "skein/skein512.go", "skein/skein1024.go", "skein/skein.go"]}
{"id": "C42", "title": "skein: object and one-shot API agree", "statement": "New512(nil) followed by Sum(nil) equals Sum512(nil, nil).", "quantifier": "every message including the empty one written by no call", "why_tests_cant": "corner case", "anchors": ["skein/skein.go", "skein/skein512.go"]}
{"id": "C43", "title": "kupyna (256, 384, 512): hash.Hash contract", "statement": "For a digest created by the package constructor, every sequence of Write, Sum and Reset calls is observably equal to: Write returns len(p) and nil; Sum(in) returns in followed by the Kupyna digest (0x80, zeros, 96-bit little-endian bit length) of the concatenation of everything written since creation or the last Reset; Sum does not change later results; Reset makes the object behave as new.", "quantifier": "every finite sequence of Write/Sum/Reset calls with arbitrary byte slices of arbitrary lengths", "why_tests_cant": "the number of ways to cut a message into Writes and to interleave Sum/Reset is infinite; tests fix a handful of cuts", "anchors": ["kupyna/kupyna256.go", "kupyna/kupyna384.go", "kupyna/kupyna512.go"]}
{"id": "C44", "title": "kupyna KMAC: Sum and Reset", "statement": "Sum does not change the object and Reset returns to the keyed initial state.", "quantifier": "every history", "why_tests_cant": "unbounded", "anchors": ["kupyna/kmac256.go", "kupyna/kmac384.go", "kupyna/kmac512.go"]}
{"id": "C45", "title": "TLSTree: derived key depends only on root key and sequence number", "statement": "Derive(n) returns the same key whatever was derived before.", "quantifier": "every sequence of Derive calls", "why_tests_cant": "histories are unbounded", "anchors": ["gost/gost34112012256/tlstree.go"]}
{"id": "C46", "title": "ESPTree: derived key depends only on root key and identifier", "statement": "Derive(is) returns the KDF chain value whatever was derived before.", "quantifier": "every sequence of Derive calls", "why_tests_cant": "histories are unbounded", "anchors": ["gost/gost34112012256/esptree.go"]}
{"id": "C47", "title": "makwa: base64 codec", "statement": "b64Decode inverts b64Encode on every byte string and rejects foreign characters.", "quantifier": "every byte string", "why_tests_cant": "unbounded", "anchors": ["makwa/digest.go: b64Encode, b64Decode"]}
{"id": "C48", "title": "makwa: textual digest round trip", "statement": "UnmarshalText(MarshalText(d)) restores the digest, in particular the work factor.", "quantifier": "every digest with a valid work factor", "why_tests_cant": "unbounded", "anchors": ["makwa/digest.go: MarshalText, UnmarshalText", "makwa/makwa.go: wfMant"]}
{"id": "C49", "title": "makwa: Extend", "statement": "Extending a digest to a larger work factor gives the digest that Hash computes for that work factor.", "quantifier": "all moduli, messages, work factors", "why_tests_cant": "unbounded", "anchors": ["makwa/makwa.go: Extend, Hash"]}
{"id": "C50", "title": "md6: every message byte influences the digest state", "statement": "No byte of the message is discarded before compression.", "quantifier": "every message", "why_tests_cant": "needs messages longer than 512 bytes differing in chosen positions", "anchors": ["md6/digest.go: f, par"]}
{"id": "C51", "title": "jh: Write accepts every sequence of slices", "statement": "Write never panics and cuts do not matter.", "quantifier": "all cuts", "why_tests_cant": "unbounded", "anchors": ["jh/digest.go: Write"]}
{"id": "C52", "title": "esch: streaming", "statement": "Writing a message in pieces (also empty ones) gives the same digest as writing it at once.", "quantifier": "all cuts", "why_tests_cant": "unbounded", "anchors": ["esch/digest.go: Write"]}
{"id": "C53", "title": "shavite: streaming", "statement": "Writing a message in pieces gives the same digest as writing it at once.", "quantifier": "all cuts", "why_tests_cant": "unbounded", "anchors": ["shavite/digest256.go: Write", "shavite/digest512.go: Write"]}
{"id": "C54", "title": "hash_composition: Sum", "statement": "Sum returns h1(h2(message)) every time it is called.", "quantifier": "every history", "why_tests_cant": "unbounded", "anchors": ["hash_composition/digest.go: Sum"]}
{"id": "C55", "title": "hash wrapper: DataSet behaves as a finite map", "statement": "Get returns the latest value set, Remove removes exactly one name, Names/Len agree with the contents.", "quantifier": "every sequence of operations", "why_tests_cant": "unbounded histories", "anchors": ["hash/hash_data_set.go"]}
{"id": "C56", "title": "hash wrapper: LeftCRCPadding", "statement": "The result is the input preceded by '0' bytes, its length is the least multiple of size that is at least the input length.", "quantifier": "every string and size", "why_tests_cant": "unbounded", "anchors": ["hash/hash_helper.go"]}
{"id": "C57", "title": "sm3 DRBG: big-endian addition", "statement": "beAdd computes addition modulo 2^440.", "quantifier": "all operands", "why_tests_cant": "carry patterns", "anchors": ["sm3/rand.go: beAdd"]}
{"id": "C58", "title": "sm3 DRBG: derivation function fills all 55 bytes", "statement": "The derivation function returns 55 bytes derived from the input.", "quantifier": "every input", "why_tests_cant": "needs inspection of bytes 32..54", "anchors": ["sm3/rand_df.go: checkSum"]}
{"id": "C59", "title": "sm3: round constants", "statement": "The precomputed table of rotated round constants equals the rotation formula for every round.", "quantifier": "all rounds", "why_tests_cant": "generated table", "anchors": ["sm3/sbox.go", "sm3/utils.go: GenT"]}
{"id": "C60", "title": "hash wrapper: DataSet is safe for concurrent use", "statement": "Any number of goroutines may call the DataSet methods concurrently: no two of them access the map at the same time with one access being a write, and some unfinished goroutine can always proceed.", "quantifier": "every number of goroutines, every sequence of calls per goroutine, every schedule", "why_tests_cant": "schedules are unbounded; races are not observable in sequential tests", "anchors": ["hash/hash_data_set.go: Add, Has, Get, Remove, Clean, Names, All, Len"]}
{"id": "C61", "title": "hash wrapper: errors survive a chain of calls", "statement": "If some call in a chain such as FromHexString(..).CRC16_X25() failed, GetError reports an error at the end of the chain.", "quantifier": "every chain of calls", "why_tests_cant": "chains are unbounded", "anchors": ["hash/hash.go: FuncHash, Checksum, GetError", "hash/hash_from.go: FromHexString", "hash/hash_use.go: SumBy", "hash/crc16.go"]}
{"id": "C62", "title": "rabin chunker: no empty chunk before the end of the stream", "statement": "As documented, when there are no more chunks Next returns 0, io.EOF: it never returns a zero-length chunk without an error.", "quantifier": "every stream and parameters", "why_tests_cant": "depends on where the stream ends relative to a content-defined boundary", "anchors": ["rabin/chunker.go: Next, discard"]}
{"id": "C63", "title": "murmur3: Size() is the number of bytes Sum appends", "statement": "For each of the 32, 64 and 128 bit digests, Sum(in) returns len(in)+Size() bytes.", "quantifier": "every history and every slice in", "why_tests_cant": "histories are unbounded", "anchors": ["murmur3/digest.go", "murmur3/murmur64.go: digest64", "murmur3/murmur128.go: Size"]}
{"id": "C64", "title": "pmac: one-shot Sum and Verify", "statement": "For a 128-bit block cipher and an admissible tag size, pmac.Sum(msg) is the PMAC tag of msg and Verify(mac, msg) is true exactly when mac is that tag; the constructor fails exactly for an inadmissible tag or block size; 64-bit ciphers use the polynomial of the PMAC paper.", "quantifier": "all ciphers, tag sizes and messages up to 2^35 bytes", "why_tests_cant": "unbounded messages, all ciphers", "anchors": ["pmac/pmac.go: NewWithTagSize, Write, checkSum", "pmac/verify.go"]}
{"id": "C65", "title": "pmac: no panic on long messages", "statement": "Write never panics however long the message is.", "quantifier": "all messages", "why_tests_cant": "needs messages of hundreds of kilobytes to gigabytes", "anchors": ["pmac/pmac.go: processBuffer"]}
{"id": "C66", "title": "ascon: the zero value of Hash", "statement": "var h ascon.Hash behaves like NewHash().", "quantifier": "every call history", "why_tests_cant": "depends on the first call", "anchors": ["ascon/hash.go: Hash, digest.sum"]}
{"id": "C67", "title": "ascon AEAD: a failing Open releases no plaintext", "statement": "When Open returns an error the returned slice contains no decrypted bytes.", "quantifier": "every forged ciphertext", "why_tests_cant": "forged inputs are unbounded", "anchors": ["ascon/aead.go: Open"]}
{"id": "C68", "title": "ascon MAC", "statement": "NewMAC, Write and Sum compute Ascon-Mac of the bytes written, for every cut and without changing the object; Verify is true exactly for that tag.", "quantifier": "all keys, all histories, all tags", "why_tests_cant": "unbounded", "anchors": ["ascon/mac.go"]}
{"id": "C69", "title": "threefish: IncrementTweak advances the position", "statement": "IncrementTweak advances the 96-bit position field of the tweak by ctr and keeps the type and first/final flags.", "quantifier": "all tweaks and counters", "why_tests_cant": "carry needs 2^64 bytes", "anchors": ["skein/threefish/threefish.go: IncrementTweak"]}
{"id": "C70", "title": "gost34112012 (256 and 512): hash.Hash contract", "statement": "For a digest created by the package constructor, every sequence of Write, Sum and Reset calls is observably equal to: Write returns len(p) and nil; Sum(in) returns in followed by the GOST R 34.11-2012 (Streebog) digest of the concatenation of everything written since creation or the last Reset; Sum does not change later results; Reset makes the object behave as new.", "quantifier": "every finite sequence of Write/Sum/Reset calls with arbitrary byte slices of arbitrary lengths", "why_tests_cant": "the number of ways to cut a message into Writes and to interleave Sum/Reset is infinite; tests fix a handful of cuts", "anchors": ["gost/gost34112012/hash.go", "gost/gost34112012256/hash.go", "gost/gost34112012512/hash.go"]}
{"id": "C71", "title": "gost34112012: saving and restoring the state", "statement": "MarshalBinary followed by UnmarshalBinary restores the object exactly; data that UnmarshalBinary accepts gives an object whose Sum works and returns Size() bytes.", "quantifier": "every history; every byte string offered to UnmarshalBinary", "why_tests_cant": "unbounded histories and inputs", "anchors": ["gost/gost34112012/hash.go: MarshalBinary, UnmarshalBinary"]}
{"id": "C72", "title": "streebog: the package computes GOST R 34.11-2012", "statement": "For every sequence of calls Sum returns the standard digest (the same as the gost34112012 package).", "quantifier": "every history", "why_tests_cant": "needs a carry pattern of probability about 2^-64", "anchors": ["streebog/digest.go", "streebog/utils.go: addm"]}
{"id": "C73", "title": "sm3 DRBG: Generate fills the output", "statement": "Generate fills every byte of out with generator output.", "quantifier": "every generator state, every buffer length", "why_tests_cant": "needs buffers longer than one hash output in every state", "anchors": ["sm3/rand.go: Generate"]}
{"id": "C74", "title": "sm3 DRBG: reseeding", "statement": "Generate reseeds when more than 2^20 requests were served or more than 600 seconds passed since the last (re)seed.", "quantifier": "every state, every pair of clock readings", "why_tests_cant": "needs a million requests or a clock ten minutes later", "anchors": ["sm3/rand.go: Generate, reseed"]}
{"id": "C75", "title": "makwa: Recover inverts Hash", "statement": "With the private key (p,q), Recover succeeds on every digest Hash produced without pre- or post-hashing, and the password it returns hashes (same salt and work factor) to that same digest.", "quantifier": "every private key whose primes are 3 mod 4, every password, salt, work factor", "why_tests_cant": "needs number theory over all primes; tests use one key", "anchors": ["makwa/makwa.go: Recover, sqrtExp"]}
{"id": "C76", "title": "makwa: UnmarshalText rejects malformed text", "statement": "UnmarshalText returns an error, never panics, on malformed text.", "quantifier": "every byte string", "why_tests_cant": "inputs without separators are not tried", "anchors": ["makwa/makwa.go: UnmarshalText"]}
{"id": "C77", "title": "makwa: negative work factors are refused", "statement": "Hash refuses (error) every work factor that is not a positive value it can encode; no digest reveals the password.", "quantifier": "every int work factor", "why_tests_cant": "needs work factors outside 32 bits", "anchors": ["makwa/makwa.go: Hash, wFactor"]}
{"id": "C78", "title": "makwa: CheckPassword accepts exactly the right digests", "statement": "CheckPassword accepts a digest iff recomputing with its parameters gives the same bytes; it accepts every digest Hash produced; Hash fails exactly for passwords that are too long.", "quantifier": "every modulus, hash function, password, salt, work factor", "why_tests_cant": "space of inputs is infinite", "anchors": ["makwa/makwa.go: CheckPassword, Hash"]}
{"id": "C79", "title": "bash: New rejects unsupported sizes", "statement": "New(n) succeeds exactly for n = 8, 16, ..., 512 bits.", "quantifier": "every integer n", "why_tests_cant": "unbounded", "anchors": ["bash/digest.go: newDigest"]}
{"id": "C80", "title": "k12: every history without Reset is KangarooTwelve", "statement": "For every customization string and digest size, any interleaving of Write, Sum and Read on a new object returns KangarooTwelve's output: Write returns len(p) and never fails before the first Read, Sum appends the digest of everything written without disturbing the object, consecutive Reads return consecutive pieces of the one output stream, Write after Read fails and changes nothing.", "quantifier": "every customization string, digest size and call sequence without Reset (fewer than 2^63 bytes)", "why_tests_cant": "unbounded message length: block (168) and chunk (8192) boundaries, any number of chunks", "anchors": ["k12/digest.go: Write, Read, Sum", "k12/sponge.go", "k12/keccakf.go: keccakF1600", "k12/utils.go: rightEncode"]}
{"id": "C81", "title": "jh2 (JH-224/256/384/512): hash.Hash contract", "statement": "For a digest created by the package constructor, every sequence of Write, Sum and Reset calls is observably equal to: Write returns len(p) and nil; Sum(in) returns in followed by the JH digest (round-3 JH: bit string, 42 rounds of S-boxes, MDS and permutation) of the concatenation of everything written since creation or the last Reset; Sum does not change later results; Reset makes the object behave as new.", "quantifier": "every finite sequence of Write/Sum/Reset calls with arbitrary byte slices of arbitrary lengths", "why_tests_cant": "the number of ways to cut a message into Writes and to interleave Sum/Reset is infinite; tests fix a handful of cuts", "anchors": ["jh2/digest.go", "jh2/jh2.go", "jh2/sbox.go"]}
{"id": "C82", "title": "md6: streaming, and the MD6 function", "statement": "For every digest size up to 1024 bits, key and level count, whatever the cut of the message into Writes, Sum returns its argument followed by the MD6 digest of the bytes written since the last Reset.", "quantifier": "all sizes, keys, levels and histories of Write/Sum/Reset", "why_tests_cant": "messages, cuts, keys and sizes are unbounded; the test suite has six messages written in one piece and its long vectors were produced by this code", "anchors": ["md6/digest.go: Write, process, par, seq, mid, f, checkSum", "md6/utils.go"]}
{"id": "C83", "title": "md6: the caller's key memory", "statement": "Building a keyed hash leaves the caller's memory unchanged.", "quantifier": "all key slices with their spare capacity, sizes, levels", "why_tests_cant": "the spare capacity of a slice is invisible to a test that looks at the digest", "anchors": ["md6/digest.go: newDigest"]}
{"id": "C84", "title": "md6: Sum panics only for digest sizes above 1024 bits", "statement": "The constructors accept every size; in every reachable state Sum panics if and only if the size is larger than 1024 bits.", "quantifier": "all sizes, keys, levels, histories", "why_tests_cant": "all sizes and states", "anchors": ["md6/digest.go: checkSum", "md6/utils.go: crop"]}
{"id": "C85", "title": "lsh256 (LSH-256-224, LSH-256-256): hash.Hash contract", "statement": "For a digest created by the package constructor, every sequence of Write, Sum and Reset calls is observably equal to: Write returns len(p) and nil; Sum(in) returns in followed by the LSH digest (KS X 3262: one-zeros padding, wide-pipe compression, folded output) of the concatenation of everything written since creation or the last Reset; Sum does not change later results; Reset makes the object behave as new.", "quantifier": "every finite sequence of Write/Sum/Reset calls with arbitrary byte slices of arbitrary lengths", "why_tests_cant": "the number of ways to cut a message into Writes and to interleave Sum/Reset is infinite; tests fix a handful of cuts", "anchors": ["lsh256/digest.go", "lsh256/lsh256.go", "lsh256/sbox.go"]}
{"id": "C86", "title": "lsh512 (LSH-512-224/256/384/512): hash.Hash contract", "statement": "For a digest created by the package constructor, every sequence of Write, Sum and Reset calls is observably equal to: Write returns len(p) and nil; Sum(in) returns in followed by the LSH digest (KS X 3262, 64-bit words) of the concatenation of everything written since creation or the last Reset; Sum does not change later results; Reset makes the object behave as new.", "quantifier": "every finite sequence of Write/Sum/Reset calls with arbitrary byte slices of arbitrary lengths", "why_tests_cant": "the number of ways to cut a message into Writes and to interleave Sum/Reset is infinite; tests fix a handful of cuts", "anchors": ["lsh512/digest.go", "lsh512/lsh512.go: New, New384, New256, New224, Sum", "lsh512/sbox.go"]}
{"id": "C87", "title": "lsh512: one-shot functions agree with the streaming digests", "statement": "Sum384, Sum256 and Sum224 return the digest that New384, New256 and New224 compute for the same data.", "quantifier": "every input", "why_tests_cant": "needs the right reference value for every input", "anchors": ["lsh512/lsh512.go: Sum384, Sum256, Sum224"]}
{"id": "C88", "title": "cubehash (every constructor except NewHS512x, and NewCubehash with a block size that is a multiple of 4 up to 128 bytes and a digest size that is a multiple of 32 up to 1024 bits): hash.Hash contract", "statement": "For a digest created by the package constructor, every sequence of Write, Sum and Reset calls is observably equal to: Write returns len(p) and nil; Sum(in) returns in followed by the CubeHash i+r/b+f-h digest of the concatenation of everything written since creation or the last Reset; Sum does not change later results; Reset makes the object behave as new.", "quantifier": "every finite sequence of Write/Sum/Reset calls with arbitrary byte slices of arbitrary lengths", "why_tests_cant": "the number of ways to cut a message into Writes and to interleave Sum/Reset is infinite; tests fix a handful of cuts", "anchors": ["cubehash/digest.go", "cubehash/cubehash.go", "cubehash/utils.go"]}
{"id": "C89", "title": "cubehash.NewHS512x computes CubeHash16+16/1+32-512", "statement": "The digest returned by NewHS512x depends on every byte of the message, as CubeHash with 1-byte blocks does.", "quantifier": "every message", "why_tests_cant": "needs the right reference value for every input", "anchors": ["cubehash/cubehash.go: NewHS512x", "cubehash/digest.go: ingest"]}
{"id": "C90", "title": "cubehash: saved states resume exactly", "statement": "MarshalBinary after any history, followed by UnmarshalBinary into a digest of the same parameters with any other past (and with any bytes appended to the encoding), gives a digest whose later outputs equal those of the saved one; UnmarshalBinary accepts exactly encodings with 128 state bytes, a count below the block size and that many buffered bytes.", "quantifier": "every parameter set, pair of histories, trailing bytes and continuation", "why_tests_cant": "all histories and continuations", "anchors": ["cubehash/digest.go: MarshalBinary, UnmarshalBinary"]}
{"id": "C91", "title": "cubehash: Sum appends Size() bytes", "statement": "Sum appends exactly Size() bytes to its argument, for every digest size accepted by NewCubehash.", "quantifier": "every digest size and history", "why_tests_cant": "all parameters", "anchors": ["cubehash/digest.go: Size, Sum, checkSum"]}
{"id": "C92", "title": "panama: hash.Hash contract", "statement": "For a digest created by the package constructor, every sequence of Write, Sum and Reset calls is observably equal to: Write returns len(p) and nil; Sum(in) returns in followed by the PANAMA hash of the concatenation of everything written since creation or the last Reset; Sum does not change later results; Reset makes the object behave as new.", "quantifier": "every finite sequence of Write/Sum/Reset calls with arbitrary byte slices of arbitrary lengths", "why_tests_cant": "the number of ways to cut a message into Writes and to interleave Sum/Reset is infinite; tests fix a handful of cuts", "anchors": ["panama/digest.go", "panama/panama.go"]}
{"id": "C93", "title": "shabal (New with every accepted output size, New192 ... New512): hash.Hash contract", "statement": "For a digest created by the package constructor, every sequence of Write, Sum and Reset calls is observably equal to: Write returns len(p) and nil; Sum(in) returns in followed by the Shabal digest of that size of the concatenation of everything written since creation or the last Reset; Sum does not change later results; Reset makes the object behave as new.", "quantifier": "every finite sequence of Write/Sum/Reset calls with arbitrary byte slices of arbitrary lengths", "why_tests_cant": "the number of ways to cut a message into Writes and to interleave Sum/Reset is infinite; tests fix a handful of cuts", "anchors": ["shabal/digest.go", "shabal/sbox.go", "shabal/shabal.go"]}
{"id": "C94", "title": "gost/gost341194 (with any block cipher whose blocks have 8 bytes): hash.Hash contract", "statement": "For a digest created by the package constructor, every sequence of Write, Sum and Reset calls is observably equal to: Write returns len(p) and nil; Sum(in) returns in followed by the GOST R 34.11-94 digest over that cipher of the concatenation of everything written since creation or the last Reset; Sum does not change later results; Reset makes the object behave as new.", "quantifier": "every finite sequence of Write/Sum/Reset calls with arbitrary byte slices of arbitrary lengths", "why_tests_cant": "the number of ways to cut a message into Writes and to interleave Sum/Reset is infinite; tests fix a handful of cuts", "anchors": ["gost/gost341194/hash.go"]}
{"id": "C95", "title": "vmac: Write/Sum/Reset/SetNonce contract", "statement": "For a MAC object created by New with an AES key, a nonce of 1 to 15 bytes and tag size 8 or 16, every sequence of Write, Sum, Reset and SetNonce calls is observably equal to: Sum(in) returns in followed by the VMAC tag (draft-krovetz-vmac-01) of everything written since creation or the last Reset under the nonce in force; Sum changes nothing; SetNonce takes effect for all later Sums without touching the message, and a nonce of 16 bytes or more is refused and changes nothing; with an empty nonce Sum panics.", "quantifier": "all keys New accepts, all nonces, both tag sizes, all call sequences and messages, every block cipher with 16-byte blocks", "why_tests_cant": "message lengths, call sequences and keys are unbounded; the tests have ten vectors with one key and nonce", "anchors": ["vmac/vmac.go", "vmac/utils.go", "vmac/sbox.go"]}
{"id": "C96", "title": "vmac: an object New returned can be summed", "statement": "If New(key, nonce, size) succeeds, Sum does not panic.", "quantifier": "all key, nonce and size arguments New accepts, all call sequences", "why_tests_cant": "the argument space is unbounded; the tests only use sizes 8 and 16", "anchors": ["vmac/vmac.go"]}
{"id": "C97", "title": "skeins: New224/256/384/512 and Sum224/256/384/512 compute Skein-512-n", "statement": "Every history of Write, Sum and Reset calls in which no Sum happens while the message written so far is a nonempty multiple of 64 bytes returns in followed by the Skein-512-n digest of everything written since creation or the last Reset; Sum changes nothing; the one-shot functions return the same digest. On every history without that restriction the object still behaves as a function of the concatenated message (the streaming contract).", "quantifier": "all four digest sizes, all call sequences, all messages below 2^64 bytes", "why_tests_cant": "message lengths and call sequences are unbounded", "anchors": ["skeins/skeins.go", "skeins/digest512.go", "skeins/sbox.go", "skeins/utils.go"]}
{"id": "C98", "title": "skeins: the digest is Skein also on whole blocks", "statement": "Also for messages that are a nonempty multiple of the 64-byte block, the digest is the Skein-512-n digest.", "quantifier": "all messages", "why_tests_cant": "the tests have no message of 64 or 128 bytes checked against the Skein specification", "anchors": ["skeins/digest512.go"]}
{"id": "C99", "title": "skeins: NewHS256(hs, iv)", "statement": "For hs <= 32 and any chaining value iv, every history without a Sum at a nonempty multiple of 32 bytes returns in followed by the hs-byte Skein-256 output of the message processed from iv; with the iv of the configuration block this is Skein-256. For hs > 32 the output function is asked for more than one block.", "quantifier": "all hs, all iv, all call sequences and messages below 2^64 bytes", "why_tests_cant": "hs, iv, message lengths and call sequences are unbounded", "anchors": ["skeins/skeins.go", "skeins/digest256.go", "skeins/utils.go"]}
{"id": "C100", "title": "bmw: hash.Hash contract", "statement": "For a digest created by the package constructor, every sequence of Write, Sum and Reset calls is observably equal to: Write returns len(p) and nil; Sum(in) returns in followed by the Blue Midnight Wish digest (New224, New256, New384, New512 and the one-shot functions Sum224 ... Sum512) of the concatenation of everything written since creation or the last Reset; Sum does not change later results; Reset makes the object behave as new.", "quantifier": "every finite sequence of Write/Sum/Reset calls with arbitrary byte slices of arbitrary lengths", "why_tests_cant": "the number of ways to cut a message into Writes and to interleave Sum/Reset is infinite; tests fix a handful of cuts", "anchors": ["bmw/bmw.go", "bmw/digest256.go", "bmw/digest512.go", "bmw/sbox.go", "bmw/utils.go"]}
{"id": "C101", "title": "groestl: hash.Hash contract", "statement": "For a digest created by the package constructor, every sequence of Write, Sum and Reset calls is observably equal to: Write returns len(p) and nil; Sum(in) returns in followed by the Groestl digest (New for every size of 8..512 bits, the fixed-size constructors and the one-shot functions) of the concatenation of everything written since creation or the last Reset; Sum does not change later results; Reset makes the object behave as new.", "quantifier": "every finite sequence of Write/Sum/Reset calls with arbitrary byte slices of arbitrary lengths", "why_tests_cant": "the number of ways to cut a message into Writes and to interleave Sum/Reset is infinite; tests fix a handful of cuts", "anchors": ["groestl/groestl.go", "groestl/digest.go", "groestl/sbox.go", "groestl/utils.go"]}
{"id": "C102", "title": "groestl: New rejects unusable sizes", "statement": "groestl.New returns an error for every hash size with which Sum cannot return a digest.", "quantifier": "every integer hash size", "why_tests_cant": "negative sizes are not among the tested ones", "anchors": ["groestl/digest.go:newDigest"]}
{"id": "C103", "title": "echo: hash.Hash contract", "statement": "For a digest created by the package constructor, every sequence of Write, Sum and Reset calls is observably equal to: Write returns len(p) and nil; Sum(in) returns in followed by the ECHO digest (New and NewWithSalt for every size of 8..512 bits, the fixed-size constructors and the one-shot functions) of the concatenation of everything written since creation or the last Reset; Sum does not change later results; Reset makes the object behave as new.", "quantifier": "every finite sequence of Write/Sum/Reset calls with arbitrary byte slices of arbitrary lengths", "why_tests_cant": "the number of ways to cut a message into Writes and to interleave Sum/Reset is infinite; tests fix a handful of cuts", "anchors": ["echo/echo.go", "echo/digest.go", "echo/sbox.go", "echo/utils.go"]}
{"id": "C104", "title": "echo: New rejects unusable sizes", "statement": "echo.New returns an error for every hash size with which Sum cannot return a digest.", "quantifier": "every integer hash size", "why_tests_cant": "negative sizes are not among the tested ones", "anchors": ["echo/digest.go:newDigest"]}
{"id": "C105", "title": "whirlpool: hash.Hash contract", "statement": "For a digest created by the package constructor, every sequence of Write, Sum and Reset calls is observably equal to: Write returns len(p) and nil; Sum(in) returns in followed by the Whirlpool, Whirlpool-0 and Whirlpool-T digests (New, New0, New1 and the one-shot functions) of the concatenation of everything written since creation or the last Reset; Sum does not change later results; Reset makes the object behave as new.", "quantifier": "every finite sequence of Write/Sum/Reset calls with arbitrary byte slices of arbitrary lengths", "why_tests_cant": "the number of ways to cut a message into Writes and to interleave Sum/Reset is infinite; tests fix a handful of cuts", "anchors": ["whirlpool/whirlpool.go", "whirlpool/digest.go", "whirlpool/sbox.go", "whirlpool/utils.go"]}
{"id": "C106", "title": "haraka: both code paths compute Haraka v2", "statement": "Haraka256 and Haraka512 return the Haraka v2 digest of every 32-byte, respectively 64-byte, input; the answer is the same whether the processor has AES instructions (assembly path) or not (portable path).", "quantifier": "every input, every processor path, every prior register contents", "why_tests_cant": "the tests run one path per machine and sample inputs", "anchors": ["haraka/haraka.go", "haraka/haraka_ref.go", "haraka/aes.go", "haraka/const.go", "haraka/haraka_amd64.s", "haraka/init_amd64.go"]}
{"id": "C107", "title": "radio_gatun: hash.Hash contract", "statement": "For a digest created by the package constructor, every sequence of Write, Sum and Reset calls is observably equal to: Write returns len(p) and nil; Sum(in) returns in followed by the RadioGatun digests with 32-bit and 64-bit words (New32, New64, Sum32, Sum64) of the concatenation of everything written since creation or the last Reset; Sum does not change later results; Reset makes the object behave as new.", "quantifier": "every finite sequence of Write/Sum/Reset calls with arbitrary byte slices of arbitrary lengths", "why_tests_cant": "the number of ways to cut a message into Writes and to interleave Sum/Reset is infinite; tests fix a handful of cuts", "anchors": ["radio_gatun/radio_gatun.go", "radio_gatun/digest32.go", "radio_gatun/digest64.go", "radio_gatun/utils.go"]}
{"id": "C108", "title": "haval: hash.Hash contract", "statement": "For a digest created by the package constructor, every sequence of Write, Sum and Reset calls is observably equal to: Write returns len(p) and nil; Sum(in) returns in followed by the HAVAL digest (with the length, 128 to 256 bits, and number of passes, 3 to 5, that the constructor names) of the concatenation of everything written since creation or the last Reset; Sum does not change later results; Reset makes the object behave as new.", "quantifier": "every finite sequence of Write/Sum/Reset calls with arbitrary byte slices of arbitrary lengths", "why_tests_cant": "the number of ways to cut a message into Writes and to interleave Sum/Reset is infinite; tests fix a handful of cuts", "anchors": ["haval/haval.go: New128_3..New256_5, Sum128_3..Sum256_5", "haval/digest.go: newDigest, Write, Sum, Reset, checkSum, processBlock, writeOutput"]}
{"id": "C109", "title": "lyra2re2.Lyra2 computes Lyra2", "statement": "For every output length, every password and salt of a whole number of 8-byte words, time cost 0 or 1, at least two rows and one column, lyra2re2.Lyra2 fills k with the Lyra2 output (Blake2b sponge, setup, wandering, squeeze) whenever the matrix can hold the padded input, and it panics exactly when it has fewer than two rows, is too small for the input, or the time cost is above 1.", "quantifier": "all key lengths, passwords, salts, row and column counts below 2^62 rows", "why_tests_cant": "the memory matrix, the revisiting order and the wandering order are defined for every size; tests fix one size and a few inputs", "anchors": ["lyra2re2/lyra2re.go:Lyra2", "lyra2re2/lyra2re.go:reducedDuplexRowSetup", "lyra2re2/lyra2re.go:reducedDuplexRow"]}
{"id": "C110", "title": "Lyra2 accepts every time cost", "statement": "Lyra2 of lyra2re and lyra2re2 returns for every time cost (refuted: for every time cost of 2 or more both functions panic on every input, because the second pass steps from row 0 to row -1).", "quantifier": "all inputs with timeCost >= 2", "why_tests_cant": "no test uses a time cost other than 1", "anchors": ["lyra2re/lyra2re.go:Lyra2", "lyra2re2/lyra2re.go:Lyra2"]}
{"id": "C111", "title": "lyra2re.Lyra2 depends on the whole password and the salt", "statement": "The key filled in by lyra2re.Lyra2 depends on every byte of password, salt and parameters (refuted: input blocks are read at a stride of 64 words instead of 8, so with 64 to 463 bytes of password and salt only their first 64 bytes and the number of blocks matter; exact description of what is absorbed; agreement with Lyra2 for inputs of one block).", "quantifier": "all passwords and salts of whole words, all matrix sizes", "why_tests_cant": "needs all pairs of inputs", "anchors": ["lyra2re/lyra2re.go:Lyra2"]}
{"id": "C112", "title": "Every byte of password and salt counts in Lyra2", "statement": "Two passwords or salts of the same length that differ give unrelated keys in both packages (refuted: the bytes after the last whole 8-byte word are ignored; in particular all passwords of the same length below 8 bytes give the same key).", "quantifier": "all passwords and salts, all parameters", "why_tests_cant": "needs all pairs of inputs", "anchors": ["lyra2re/lyra2re.go:Lyra2", "lyra2re2/lyra2re.go:Lyra2"]}
{"id": "C113", "title": "lyra2re.Sum is the Lyra2RE chain", "statement": "For every input lyra2re.Sum returns, without panic, Groestl-256 of Skein-512-256 of Lyra2 (version 1, 8x8) of Keccak-256 of Blake-256 of the input.", "quantifier": "all inputs", "why_tests_cant": "a chain of five hash functions must agree for every input", "anchors": ["lyra2re/sum.go:Sum"]}
{"id": "C114", "title": "lyra2re2.Sum is the Lyra2REv2 chain", "statement": "For every input lyra2re2.Sum returns, without panic, BMW-256 of CubeHash-256 of Skein-512-256 of Lyra2 (4x4) of CubeHash-256 of Keccak-256 of Blake-256 of the input.", "quantifier": "all inputs", "why_tests_cant": "a chain of seven hash functions must agree for every input", "anchors": ["lyra2re2/sum.go:Sum"]}
{"id": "C115", "title": "fsb is FSB on every history", "statement": "For each of the six sizes fsb.New accepts, every table of round constants and every history of Write, Sum and Reset (each Write of fewer than 2^29 bytes less one block), each Sum returns its argument followed by FSB of the bytes written since the last Reset: the code never reaches its unaligned paths, never indexes outside the matrix and never panics, and Sum does not disturb the state.", "quantifier": "all six parameter sets, all tables, all histories of writes below the limit", "why_tests_cant": "the column index, the cyclic shifts by bytes and bits and the buffering must agree with the bit-level definition for every input", "anchors": ["fsb/digest.go:Reset", "fsb/digest.go:write", "fsb/digest.go:performHash", "fsb/digest.go:checkSum", "fsb/utils.go", "fsb/fsb.go:Sum"]}
{"id": "C116", "title": "fsb.Write accepts messages of any length", "statement": "A Write of a message of any length counts every byte of it (refuted: the bit count is a uint32, so a Write of 2^29 bytes on a fresh digest reports 2^29 bytes written and leaves the state unchanged: every message of 2^29 bytes has the digest of the empty message).", "quantifier": "all messages of 2^29 bytes, all six sizes", "why_tests_cant": "needs inputs of half a gigabyte and a claim about all of them", "anchors": ["fsb/digest.go:Write"]}
{"id": "C117", "title": "skein512: every history of the hash is Skein-512 with the given optional inputs", "statement": "New(outLen, args) returns a hash whose Sum, after any interleaving of Write, Sum and Reset, appends the Skein-512 output of outLen bytes for the key, personalization, public key, key identifier and nonce given (each absent when nil) and the bytes written since the last Reset, including the four output lengths with precomputed initial values; with NoMsg, Write accepts no bytes and Sum always returns the output of the chain without a message.", "quantifier": "all output lengths, all optional inputs (key not the empty non-nil slice) and all histories of fewer than 2^64 bytes", "why_tests_cant": "Skein-512 is defined on every byte string and every combination of inputs; tests use a few vectors", "anchors": ["skein512/hash.go:New", "skein512/hash.go:Hash", "skein512/block.go:block"]}
{"id": "C118", "title": "skein512: an empty key is the same as no key", "statement": "With Key an empty (non-nil) byte slice, e.g. NewMAC(outLen, []byte{}), the result is the one Skein defines for the empty key.", "quantifier": "all output lengths, inputs and histories", "why_tests_cant": "the Skein specification gives the empty key a special meaning; no test uses it", "anchors": ["skein512/hash.go:New", "skein512/skein.go:NewMAC"]}
{"id": "C119", "title": "skein512: the output reader returns the output stream in order", "statement": "After any history of the hash, OutputReader gives a reader for which any sequence of Read and XORKeyStream calls of any sizes returns (or xors in) consecutive slices of the Skein output of the current message, without repetition or gaps; Sum is its prefix of outLen bytes.", "quantifier": "all inputs, all histories of fewer than 2^64 bytes, all sequences of reads", "why_tests_cant": "read sizes interact with the 64-byte buffer and the block counter in unboundedly many ways", "anchors": ["skein512/hash.go:OutputReader", "skein512/hash.go:Read", "skein512/hash.go:XORKeyStream"]}
{"id": "C120", "title": "skein512: the stream cipher is the Skein stream cipher", "statement": "NewStream(key, nonce) is the Skein-512 stream cipher: the key stream of the output length of 2^64-1 bits (the length its comment announces), and decryption with the same key and nonce recovers the plaintext however the two sides split the data.", "quantifier": "all keys, nonces, messages and splittings", "why_tests_cant": "all keys and all splittings", "anchors": ["skein512/skein.go:NewStream", "skein512/hash.go:XORKeyStream"]}
{"id": "C121", "title": "luffa: hash.Hash contract", "statement": "For a digest created by the package constructor, every sequence of Write, Sum and Reset calls is observably equal to: Write returns len(p) and nil; Sum(in) returns in followed by the Luffa-224, Luffa-256, Luffa-384 and Luffa-512 digests (v2) of the concatenation of everything written since creation or the last Reset; Sum does not change later results; Reset makes the object behave as new.", "quantifier": "every finite sequence of Write/Sum/Reset calls with arbitrary byte slices of arbitrary lengths", "why_tests_cant": "the number of ways to cut a message into Writes and to interleave Sum/Reset is infinite; tests fix a handful of cuts", "anchors": ["luffa/digest256.go", "luffa/digest384.go", "luffa/digest512.go", "luffa/luffa.go"]}
{"id": "C122", "title": "fugue: hash.Hash contract", "statement": "For a digest created by the package constructor, every sequence of Write, Sum and Reset calls is observably equal to: Write returns len(p) and nil; Sum(in) returns in followed by the Fugue-224, Fugue-256, Fugue-384 and Fugue-512 digests of the concatenation of everything written since creation or the last Reset; Sum does not change later results; Reset makes the object behave as new.", "quantifier": "every finite sequence of Write/Sum/Reset calls with arbitrary byte slices of arbitrary lengths", "why_tests_cant": "the number of ways to cut a message into Writes and to interleave Sum/Reset is infinite; tests fix a handful of cuts", "anchors": ["fugue/digest.go", "fugue/utils.go", "fugue/sbox.go", "fugue/fugue.go"]}
{"id": "C123", "title": "hamsi: hash.Hash contract", "statement": "For a digest created by the package constructor, every sequence of Write, Sum and Reset calls is observably equal to: Write returns len(p) and nil; Sum(in) returns in followed by the Hamsi-224, Hamsi-256, Hamsi-384 and Hamsi-512 digests of the concatenation of everything written since creation or the last Reset; Sum does not change later results; Reset makes the object behave as new.", "quantifier": "every finite sequence of Write/Sum/Reset calls with arbitrary byte slices of arbitrary lengths", "why_tests_cant": "the number of ways to cut a message into Writes and to interleave Sum/Reset is infinite; tests fix a handful of cuts", "anchors": ["hamsi/digest256.go", "hamsi/digest512.go", "hamsi/sbox.go", "hamsi/hamsi.go"]}
{"id": "C124", "title": "xxh3: the one-shot functions are XXH3", "statement": "Hash_64bits, Hash_128bits and their _withSeed, _withSecret and _withSecretandSeed forms return the XXH3 hash of the input for every input of at least 4 bytes that has at most 240 bytes or a length not divisible by 64; for 0 to 3 bytes they return XXH3 with the final function of longer inputs.", "quantifier": "all byte strings of such a length, all seeds, all secrets of at least 136 bytes", "why_tests_cant": "all lengths, contents, seeds and secrets, including the block boundaries of every path", "anchors": ["xxhash/xxh3/utils.go", "xxhash/xxh3/xxh3_64.go", "xxhash/xxh3/xxh3_128.go", "xxhash/xxh3/sbox.go"]}
{"id": "C125", "title": "xxh3: short inputs are hashed as in XXH3", "statement": "For 0 to 3 bytes Hash_64bits and Hash_128bits return the XXH3 hash.", "quantifier": "all byte strings of at most 3 bytes", "why_tests_cant": "the result is a claim about agreement with another function on every such input", "anchors": ["xxhash/xxh3/utils.go", "xxhash/xxh3/xxh3_64.go", "xxhash/xxh3/xxh3_128.go", "xxhash/xxh3/sbox.go"]}
{"id": "C126", "title": "xxh3: the one-shot functions read the whole input", "statement": "Hash_64bits, Hash_128bits and their keyed forms depend on every byte of the input: changing the last 64 bytes of an input changes the hash unless there is a real collision.", "quantifier": "all inputs of more than 240 bytes with a length divisible by 64, all seeds and secrets", "why_tests_cant": "a property of all pairs of inputs", "anchors": ["xxhash/xxh3/utils.go", "xxhash/xxh3/xxh3_64.go", "xxhash/xxh3/xxh3_128.go", "xxhash/xxh3/sbox.go"]}
{"id": "C127", "title": "xxh3: the digests are incremental", "statement": "On a digest made by New64, New128, NewWithSeed or NewWithSecret, for any sequence of Write, Sum and Reset with less than 2^64 bytes in which no Write panics, Write returns the length of its argument and Sum appends the hash of everything written since the last Reset (XXH3 from 4 bytes on); the one-call functions Sum64, Sum128, Checksum64, Checksum128 with or without seed never panic and return that hash; NewWithSecret refuses exactly the secrets of less than 136 bytes.", "quantifier": "all call sequences, contents, seeds and secrets", "why_tests_cant": "unbounded call sequences and all splits of a message into writes", "anchors": ["xxhash/xxh3/digest64.go", "xxhash/xxh3/digest128.go", "xxhash/xxh3/xxh3_64.go", "xxhash/xxh3/xxh3_128.go"]}
{"id": "C128", "title": "xxh3: Write never panics", "statement": "Write on a digest accepts every argument after every sequence of calls, so that the split of a message into writes does not matter.", "quantifier": "all call sequences and arguments", "why_tests_cant": "unbounded call sequences", "anchors": ["xxhash/xxh3/digest64.go", "xxhash/xxh3/digest128.go", "xxhash/xxh3/xxh3_64.go", "xxhash/xxh3/xxh3_128.go"]}
{"id": "C129", "title": "simd: hash.Hash contract", "statement": "For a digest created by the package constructor, every sequence of Write, Sum and Reset calls is observably equal to: Write returns len(p) and nil; Sum(in) returns in followed by the SIMD-224, SIMD-256, SIMD-384 and SIMD-512 digests of the concatenation of everything written since creation or the last Reset; Sum does not change later results; Reset makes the object behave as new.", "quantifier": "every finite sequence of Write/Sum/Reset calls with arbitrary byte slices of arbitrary lengths", "why_tests_cant": "the number of ways to cut a message into Writes and to interleave Sum/Reset is infinite; tests fix a handful of cuts", "anchors": ["simd/digest256.go", "simd/digest512.go", "simd/utils.go", "simd/sbox.go", "simd/simd.go"]}
{"id": "C130", "title": "simd: tables and compression are those of SIMD", "statement": "The four initial values are the compression of the ASCII version strings into the zero state; for every block and chaining value one compression is that of SIMD: the fast transform with its lazily reduced int32 values computes the number theoretic transform over GF(257) exactly, whatever earlier calls left in the scratch arrays.", "quantifier": "all blocks, chaining values, scratch contents, both values of the last flag, both block sizes", "why_tests_cant": "an overflow or a missing reduction would show on rare blocks only", "anchors": ["simd/digest256.go", "simd/digest512.go", "simd/utils.go", "simd/sbox.go", "simd/simd.go"]}
{"id": "C131", "title": "deepcopy.Copy returns a value that shows the same as its source, unexported fields set to zero", "statement": "For every value whose references can be followed to the end (pointers, interfaces, structs, slices with any length, offset and capacity, maps, arrays, times, nested to any depth, with sharing), whose types have no DeepCopy method and whose map keys hold no pointer, NaN, unexported field and are not the nil interface, Copy ends without a panic, changes no memory that was there, and the result shows the same dynamic type, nils, lengths, capacities, elements, map keys and values, the unexported fields of structs outside arrays being zero; with no such field it shows exactly what the source shows. Copy(nil) is nil.", "quantifier": "all memories, all values of finite unfolding in them", "why_tests_cant": "Go values nest without bound and share memory in arbitrary ways; tests compare a handful of literals", "anchors": ["tool/deepcopy/deepcopy.go:Copy", "tool/deepcopy/deepcopy.go:copyRecursive"]}
{"id": "C132", "title": "A value made by deepcopy.Copy shares no memory with its source", "statement": "If moreover no array holds a pointer, slice or map, every memory cell that can be reached through the copy did not exist before the call: whatever is written through the copy the source still shows the same, and whatever is written to the memory there was before the call the copy still shows the same (channels and functions are not copied and are left out).", "quantifier": "all memories and values as in C131, all later writes", "why_tests_cant": "aliasing is invisible to a comparison of the copy with its source; every later write to every reachable cell counts", "anchors": ["tool/deepcopy/deepcopy.go:Copy", "tool/deepcopy/deepcopy.go:copyRecursive"]}
{"id": "C133", "title": "deepcopy.Copy copies what an array refers to", "statement": "Every memory cell reached through the result of Copy on an array is new.", "quantifier": "all arrays", "why_tests_cant": "FALSE of the code: reflect.Array falls to the default case, and the copy of an array keeps all its references: a write through the copy of a [1][]byte shows in the source", "anchors": ["tool/deepcopy/deepcopy.go:Copy", "tool/deepcopy/deepcopy.go:copyRecursive"]}
{"id": "C134", "title": "deepcopy.Copy ends on every value", "statement": "Copy ends for every Go value.", "quantifier": "all values, in particular cyclic ones", "why_tests_cant": "FALSE of the code: on a ring of any number of nodes linked by pointers Copy does not end (the stack overflows)", "anchors": ["tool/deepcopy/deepcopy.go:Copy", "tool/deepcopy/deepcopy.go:copyRecursive"]}
{"id": "C135", "title": "deepcopy.Copy panics on no map", "statement": "Copy of a map does not panic.", "quantifier": "all maps", "why_tests_cant": "FALSE of the code: a map with a NaN key, or with the nil interface as a key, makes Copy panic", "anchors": ["tool/deepcopy/deepcopy.go:Copy", "tool/deepcopy/deepcopy.go:copyRecursive"]}
{"id": "C136", "title": "deepcopy.Copy loses no data", "statement": "Two values that differ have different copies, and the copy of a map has as many entries as the map.", "quantifier": "all values and maps", "why_tests_cant": "FALSE of the code: unexported fields are lost (structs that differ in them only have the same copy) and map keys that differ in them only become one entry", "anchors": ["tool/deepcopy/deepcopy.go:Copy", "tool/deepcopy/deepcopy.go:copyRecursive"]}
{"id": "C137", "title": "hash wrapper: call chains compute the digest they name", "statement": "In every program that builds Hash values from Hash values (FromBytes, X, NewX, NewHash, Checksum, Write, WriteReader, Sum, Reset), each value's bytes are determined by the log of what was written, in program order, to its hash object: NewX, any Writes and Resets, Sum(i) gives i followed by the digest named X of what was written since the last Reset; X on a message gives the same as NewX with the message written in pieces; Checksum(h) digests what h had absorbed followed by the data; a failing reader's bytes are hashed and its error is reported; a method of a nil object panics, and nothing else does.", "quantifier": "every program (straight-line, any sharing of values), every message, for the 15 methods whose constructor meets the hash.Hash contract unconditionally, and for any constructors that meet it", "why_tests_cant": "chains and forks are unbounded; the tests call each method once", "anchors": ["hash/hash_sum.go: Write, WriteReader, Sum, Reset, Hash", "hash/hash.go: NewHash, Checksum", "hash/hash_from.go: FromBytes", "hash/md2.go, sm3.go, has160.go, tiger.go, blake256.go, blake512.go, lsh256.go, lsh512.go"]}
{"id": "C138", "title": "hash wrapper: a Hash value is not affected by calls on a copy of it", "statement": "Hash has value receivers and every method returns a new value; two continuations of the same value do not influence each other.", "quantifier": "all values and calls", "why_tests_cant": "FALSE of the code: the copies share the hash object, so two continuations both give the digest of what either wrote", "anchors": ["hash/hash_sum.go: Write, WriteReader, Sum, Reset, Hash", "hash/hash.go: NewHash, Checksum"]}
{"id": "C139", "title": "hash wrapper: SumBy and NewBy report an unknown name as an error", "statement": "SumBy and NewBy never panic, whatever other goroutines do to the registry UseHash.", "quantifier": "any number of goroutines, all interleavings", "why_tests_cant": "FALSE of the code: getHash asks Has and then Get in two critical sections; a Remove in between makes it call a nil constructor", "anchors": ["hash/hash_use.go: getHash, SumBy, NewBy", "hash/hash_data_set.go: Has, Get, Remove, Clean"]}
{"id": "C140", "title": "hash wrapper: TypeSet.Generate gives each caller its own id", "statement": "Two calls of Generate never return the same id.", "quantifier": "any number of goroutines, all interleavings", "why_tests_cant": "FALSE of the code: the counter is read and incremented without a lock; any number of concurrent callers can get the same id", "anchors": ["hash/hash_type_set.go: Generate"]}
{"id": "C141", "title": "hash wrapper: Hmac and NewHmac compute RFC 2104 HMAC", "statement": "For every constructor of the library that keeps the hash.Hash contract, Hmac(h, key) and every sequence of Write, Sum and Reset on NewHmac(h, key) give the RFC 2104 HMAC with that hash and its published block length, whatever the key length, whatever else the program does in between, and also after Reset, which saves and restores states through MarshalBinary and UnmarshalBinary; HMACs can themselves be used as the hash of an HMAC.", "quantifier": "every constructor of the table (and any other meeting the contract), key, message, history of calls and program", "why_tests_cant": "Each history exercises a different mixture of buffered, marshaled and restored states; tests use one key and one message per hash and never call Reset.", "anchors": ["hash/hmac.go: Hmac, NewHmac", "md2/binary.go, sm3/binary.go, blake256/binary.go, blake512/binary.go: MarshalBinary, UnmarshalBinary", "md2, sm3, has160, tiger, blake256, blake512, lsh256, lsh512: BlockSize"]}
{"id": "C142", "title": "hash wrapper: what a value shows is changed only by a write to the bytes it shows", "statement": "ToBytes of a Hash value is what the call that made it produced (the caller's bytes, the digest, or in followed by the digest, in or out of place) and stays that through every sequence of calls and stores, unless one of them writes a byte the value shows; the only writes are the client's own stores and Sum(in) into spare capacity of in. So programs without stores that give Sum slices without room never change a value, and the digest of FromBytes(s).X() stays whatever is stored afterwards.", "quantifier": "every memory, slice, program of calls and stores, every growth policy of append", "why_tests_cant": "Aliasing depends on the offsets and capacities of all slices alive at once and on the order of all later calls.", "anchors": ["hash/hash_from.go: FromBytes", "hash/hash_sum.go: Sum", "hash/hash_to.go: ToBytes", "hash/md2.go and the like: X()"]}
{"id": "C143", "title": "hash wrapper: a value does not depend on the buffers passed to it", "statement": "After FromBytes(buf) or Sum(buf) a later change of buf, or a later Sum(buf), does not change the value.", "quantifier": "every buffer, offset and digest", "why_tests_cant": "Needs two live slices of one array; tests use each buffer once.", "anchors": ["hash/hash_from.go: FromBytes", "hash/hash_sum.go: Sum"]}
