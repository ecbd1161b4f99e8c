{
 "claims": [
  {
   "property": "C01",
   "status": "proved",
   "theorems": [
    "C01_md2_hash_contract",
    "C01_md2_oneshot"
   ],
   "note": "Spec: SpecMd2.v (RFC 1319)."
  },
  {
   "property": "C02",
   "status": "proved",
   "theorems": [
    "C02_md2_marshal_roundtrip"
   ],
   "note": "Receiver ranges over every md2 object reachable by API calls."
  },
  {
   "property": "C03",
   "status": "proved",
   "theorems": [
    "C03_md2_unmarshal_accepts_iff"
   ],
   "note": ""
  },
  {
   "property": "C04",
   "status": "proved",
   "theorems": [
    "C04_sm3_hash_contract",
    "C04_sm3_oneshot"
   ],
   "note": "Generic Go path (digest.go/utils.go); the assembly block functions are not modelled."
  },
  {
   "property": "C05",
   "status": "proved",
   "theorems": [
    "C05_sm3_marshal_roundtrip",
    "C05_sm3_unmarshal_accepts_iff"
   ],
   "note": ""
  },
  {
   "property": "C06",
   "status": "proved",
   "theorems": [
    "C06_sha0_hash_contract"
   ],
   "note": ""
  },
  {
   "property": "C07",
   "status": "proved",
   "theorems": [
    "C07_ripemd128_hash_contract",
    "C07_ripemd160_hash_contract",
    "C07_ripemd256_hash_contract",
    "C07_ripemd320_hash_contract"
   ],
   "note": ""
  },
  {
   "property": "C08",
   "status": "proved",
   "theorems": [
    "C08_tiger_hash_contract",
    "C08_tiger_sboxes_are_generated"
   ],
   "note": "S-boxes proved equal to the output of the authors' generator program."
  },
  {
   "property": "C09",
   "status": "proved",
   "theorems": [
    "C09_has160_hash_contract"
   ],
   "note": ""
  },
  {
   "property": "C10",
   "status": "proved",
   "theorems": [
    "C10_padding_injective",
    "C10_padding_whole_blocks"
   ],
   "note": ""
  },
  {
   "property": "C11",
   "status": "proved",
   "theorems": [
    "C11_x25_is_bitwise_crc",
    "C11_modbus_is_bitwise_crc"
   ],
   "note": ""
  },
  {
   "property": "C12",
   "status": "proved",
   "theorems": [
    "C12_four_digits_refuted",
    "C12_wrapper_result"
   ],
   "note": "FALSE of the code (theorem _refuted): FormatInt drops leading zeros; the second theorem states exactly what the wrapper returns for every input."
  },
  {
   "property": "C13",
   "status": "proved",
   "theorems": [
    "C13_prem_is_the_remainder",
    "C13_rabin_contract",
    "C13_new_table"
   ],
   "note": "Polynomials below 2^64 (the table holds 64-bit words)."
  },
  {
   "property": "C14",
   "status": "proved",
   "theorems": [
    "C14_chunker",
    "C14_independent_of_reader",
    "C14_chunks_cover_the_stream"
   ],
   "note": "Readers that deliver the final error separately from data; positions are unbounded naturals (streams shorter than 2^64 bytes). The end-of-stream quirk (zero-length chunk) is part of the exact statement, see C62."
  },
  {
   "property": "C15",
   "status": "proved",
   "theorems": [
    "C15_eof_with_data_refuted"
   ],
   "note": "FALSE of the code (refuted): buffered bytes are lost when the reader returns data together with io.EOF."
  },
  {
   "property": "C16",
   "status": "proved",
   "theorems": [
    "C16_cmac_contract_64",
    "C16_cmac_contract_128",
    "C16_cmac_new_error_iff",
    "C16_cmac_large_blocks_refuted",
    "C16_cmac_large_blocks_actual"
   ],
   "note": "Proved for every 64/128-bit cipher. For the 256/512/1024-bit block sizes the package also offers, the documented polynomial is truncated to one byte (refuted + actual behaviour proved)."
  },
  {
   "property": "C17",
   "status": "proved",
   "theorems": [
    "C17_cmac_verify_iff"
   ],
   "note": ""
  },
  {
   "property": "C18",
   "status": "proved",
   "theorems": [
    "C18_pmac_sum_mutates_refuted",
    "C18_pmac_contract",
    "C18_pmac_actual",
    "C18_pmac_actual_first_sum"
   ],
   "note": "FALSE of the code (refuted): Sum enciphers the running checksum in place. _actual gives the result (or panic) of every history for 64-, 128- and 256-bit ciphers; _contract is the PMAC contract for histories in which each Sum is followed by Reset or nothing."
  },
  {
   "property": "C19",
   "status": "proved",
   "theorems": [
    "C19_gmac_actual",
    "C19_gmac_aligned",
    "C19_gmac_streaming_refuted"
   ],
   "note": "FALSE of the code (refuted): the length entered in the last block is miscounted after a partial block. _actual gives the tag for every history; _aligned the histories that follow the standard. GHASH assembly not modelled."
  },
  {
   "property": "C20",
   "status": "proved",
   "theorems": [
    "C20_gmac_sum_length_refuted"
   ],
   "note": "FALSE of the code: Sum(in) always returns 2*len(in)+16 bytes (proved for every history), so the claim holds only for empty in. Capacity of in assumed equal to its length."
  },
  {
   "property": "C21",
   "status": "proved",
   "theorems": [
    "C21_gcm_multiplication"
   ],
   "note": ""
  },
  {
   "property": "C22",
   "status": "proved",
   "theorems": [
    "C22_siphash_contract",
    "C22_siphash_new_error_iff"
   ],
   "note": "Histories of Write and Sum (Reset is C23). Round counts are naturals (negative int32 counts not modelled)."
  },
  {
   "property": "C23",
   "status": "proved",
   "theorems": [
    "C23_siphash_reset_refuted",
    "C23_siphash_reset_actual",
    "C23_siphash_actual",
    "C23_siphash_reset_short"
   ],
   "note": "FALSE of the code (refuted): Reset keeps the words absorbed so far. _actual gives the observations for every history; _reset_short is the case where Reset is harmless."
  },
  {
   "property": "C24",
   "status": "proved",
   "theorems": [
    "C24_chaskey_oneshot",
    "C24_chaskey_streaming_refuted"
   ],
   "note": "One Write of the whole message is the Chaskey tag (proved); cutting the message is FALSE of the code (refuted): eager absorption of a completed block, and stale bytes in the padding."
  },
  {
   "property": "C25",
   "status": "proved",
   "theorems": [
    "C25_chaskey_reset_refuted",
    "C25_chaskey_reset_forgets_key"
   ],
   "note": "FALSE of the code (refuted): Reset zeroes the key; second theorem: after Reset results do not depend on the key at all."
  },
  {
   "property": "C26",
   "status": "proved",
   "theorems": [
    "C26_murmur32_contract",
    "C26_murmur64_contract",
    "C26_murmur128_contract",
    "C26_murmur_oneshot"
   ],
   "note": ""
  },
  {
   "property": "C27",
   "status": "proved",
   "theorems": [
    "C27_xxhash32_contract",
    "C27_xxhash64_contract",
    "C27_xxhash_oneshot"
   ],
   "note": "Messages shorter than 2^64 bytes (d.len is a uint64)."
  },
  {
   "property": "C28",
   "status": "proved",
   "theorems": [
    "C28_ascon_hash_contract",
    "C28_ascon_hasha_contract"
   ],
   "note": ""
  },
  {
   "property": "C29",
   "status": "proved",
   "theorems": [
    "C29_ascon_xof_contract",
    "C29_ascon_xof_zero_value",
    "C29_ascon_xof_reads_split"
   ],
   "note": ""
  },
  {
   "property": "C30",
   "status": "proved",
   "theorems": [
    "C30_seal_is_ascon128",
    "C30_open_succeeds_iff",
    "C30_open_inverts_seal",
    "C30_open_fails_iff"
   ],
   "note": ""
  },
  {
   "property": "C31",
   "status": "proved",
   "theorems": [
    "C31_blake3_hash",
    "C31_blake3_keyed",
    "C31_blake3_derive",
    "C31_blake3_never_wrong",
    "C31_blake3_keyed_never_wrong"
   ],
   "note": "All histories of Write/Sum/Reset with at most 2^17 bytes between Resets (every cut, every output size, hash/keyed/derive-key modes): no panic and every digest is BLAKE3 of what was written. Without the bound (up to 2^63-1 bytes): every digest observed before a possible panic is BLAKE3."
  },
  {
   "property": "C32",
   "status": "proved",
   "theorems": [
    "C32_blake3_stream_panics_refuted",
    "C32_blake3_sum_panics_iff",
    "C32_blake3_sum_no_panic_short"
   ],
   "note": "FALSE of the code (refuted): the uint8 index of the stack of chaining values wraps at 8. Any stream of more than 2^17 bytes written in nonempty pieces of at most 1024 bytes panics; Sum(data) panics exactly when len/2048 has 8 or more ones, or 7 ones and len mod 2048 <> 0 (shortest: 260097 bytes), and otherwise is BLAKE3."
  },
  {
   "property": "C33",
   "status": "proved",
   "theorems": [
    "C33_reset_refuted",
    "C33_within_first_chunk"
   ],
   "note": "FALSE of the code (refuted): Reset leaves currentWritten and numChunk; after Write of one byte and Reset, an 8192-byte message hashes to something else. Proved: Reset is sound while all bytes ever written (with the suffixes appended by Reads) fit in the first 8192-byte chunk."
  },
  {
   "property": "C34",
   "status": "proved",
   "theorems": [
    "C34_blake256_contract",
    "C34_blake224_contract",
    "C34_blake512_contract",
    "C34_blake384_contract",
    "C34_blake256_oneshot",
    "C34_blake512_oneshot",
    "C34_blake256_salted",
    "C34_blake512_salted"
   ],
   "note": "Contract for all four variants and all histories (any length; the 64/128-bit counters wrap as in the specification); salted objects for all histories without Reset (see C35)."
  },
  {
   "property": "C35",
   "status": "proved",
   "theorems": [
    "C35_reset_drops_salt",
    "C35_salt_kept_refuted",
    "C35_salt_kept_512_refuted"
   ],
   "note": "FALSE of the code (refuted): Reset zeroes the salt; proved: after Reset any object behaves as the unsalted hash."
  },
  {
   "property": "C36",
   "status": "proved",
   "theorems": [
    "C36_blake256_round_trip",
    "C36_blake224_round_trip",
    "C36_blake512_round_trip",
    "C36_blake384_round_trip",
    "C36_accepts",
    "C36_variant_refuted",
    "C36_variant_512_refuted",
    "C36_variant_prefix_refuted"
   ],
   "note": "FALSE of the code (refuted for every history): 224/256 and 384/512 share magic and size, so a foreign state is accepted and yields a wrong digest; proved: the round trip within a variant, and exactly which byte strings are accepted."
  },
  {
   "property": "C37",
   "status": "proved",
   "theorems": [
    "C37_streaming_refuted",
    "C37_standard_refuted",
    "C37_overwrite_refuted",
    "C37_within_blocks",
    "C37_short_standard"
   ],
   "note": "FALSE of the code (refuted): a Write reaching past the block mixes the following bytes into the capacity, so the digest depends on the cuts and long one-shot digests are not the standard's; proved: exact (xor) sponge for all histories without boundary-crossing Writes, and the standard digest for all messages shorter than a block. SpecBash.v is our transcription of eprint 2016/587."
  },
  {
   "property": "C38",
   "status": "proved",
   "theorems": [
    "C38_belt_contract",
    "C38_belt_oneshot"
   ],
   "note": ""
  },
  {
   "property": "C39",
   "status": "proved",
   "theorems": [
    "C39_belt_decrypt_encrypt",
    "C39_belt_encrypt_decrypt",
    "C39_belt_encrypt_is_standard"
   ],
   "note": ""
  },
  {
   "property": "C40",
   "status": "proved",
   "theorems": [
    "C40_threefish_key_sizes",
    "C40_threefish_is_standard",
    "C40_threefish_decrypt_encrypt",
    "C40_threefish_encrypt_decrypt",
    "C40_threefish_words"
   ],
   "note": ""
  },
  {
   "property": "C41",
   "status": "proved",
   "theorems": [
    "C41_skein_contract",
    "C41_skein_New512_New256",
    "C41_skein_hashsize_zero"
   ],
   "note": "Messages of fewer than 2^64 bytes; every Sum is preceded by a Write since creation/Reset (otherwise see C42). The amd64 unsafe-pointer twins of the byte/word conversions are read as little-endian."
  },
  {
   "property": "C42",
   "status": "proved",
   "theorems": [
    "C42_skein_oneshot",
    "C42_skein_Sum",
    "C42_skein_unwritten_sum",
    "C42_skein_unwritten_refuted"
   ],
   "note": "FALSE of the code (refuted) for an object on which nothing was written: its Sum omits the message block altogether (exact behaviour proved). Proved: the one-shot functions equal Skein for every message."
  },
  {
   "property": "C43",
   "status": "proved",
   "theorems": [
    "C43_kupyna256_contract",
    "C43_kupyna512_contract",
    "C43_kupyna384_contract",
    "C43_kupyna_oneshot"
   ],
   "note": "Messages of fewer than 2^61 bytes (the code's length counter is 64 bits of bit length, the standard's 96). Spec on byte columns with S-boxes and MDS matrix; the code's T tables are proved equal to it by exhaustion over all 8*256 entries."
  },
  {
   "property": "C44",
   "status": "proved",
   "theorems": [
    "C44_kmac256_first_sum",
    "C44_kmac384_first_sum",
    "C44_kmac512_first_sum",
    "C44_kmac_key_sizes",
    "C44_kmac_direct_key_sizes",
    "C44_kmac_sum_refuted",
    "C44_kmac_reset_refuted"
   ],
   "note": "FALSE of the code (refuted): the struct copied by Sum shares the inner hash, so Sum changes the object; Reset drops the key. Proved: the first Sum of every fresh object, for every cut, is the standard's KMAC, and NewKmac accepts exactly 32/48/64-byte keys."
  },
  {
   "property": "C45",
   "status": "proved",
   "theorems": [
    "C45_tlstree_derive",
    "C45_tlstree_fresh_zero_key",
    "C45_tlstree_history_refuted"
   ],
   "note": "FALSE of the code (refuted): on a fresh tree every positive number whose masked parts are zero yields 32 zero bytes for every root key (C45_tlstree_fresh_zero_key). Proved: if the first call uses 0 or a number with a non-zero masked part, every call of every sequence returns the TLSTREE key. crypto/hmac is modelled over the modelled digest object; root key < 2^61 bytes."
  },
  {
   "property": "C46",
   "status": "proved",
   "theorems": [
    "C46_esptree_derive",
    "C46_esptree_cached_flag",
    "C46_esptree_length"
   ],
   "note": "Every sequence of 5-byte identifiers; other lengths panic. Root key < 2^61 bytes."
  },
  {
   "property": "C47",
   "status": "proved",
   "theorems": [
    "C47_b64_encode",
    "C47_b64_decode_iff",
    "C47_b64_roundtrip",
    "C47_b64_rejects_foreign"
   ],
   "note": ""
  },
  {
   "property": "C48",
   "status": "proved",
   "theorems": [
    "C48_marshal_ok_iff",
    "C48_marshal_text",
    "C48_roundtrip_power_of_two",
    "C48_roundtrip_three_refuted"
   ],
   "note": "FALSE of the code for work factors 3*2^j, j>0 (refuted: decoded as 3^(j+1)); proved for powers of two and 3, and Marshal's success condition."
  },
  {
   "property": "C49",
   "status": "proved",
   "theorems": [
    "C49_extend_value",
    "C49_extend_check_iff",
    "C49_extend_refuted"
   ],
   "note": "FALSE of the code (refuted): Extend drops leading zero bytes of the result. Proved: exact value, and iff condition for CheckPassword to accept an extended digest."
  },
  {
   "property": "C50",
   "status": "proved",
   "theorems": [
    "C50_md6_ignored_bytes",
    "C50_md6_bytes_ignored_refuted"
   ],
   "note": "FALSE of the code (refuted): chaining value (16 words) plus block (64 words) exceed the 64 data words of the compression function, so bytes 384..511 of every block but the first are ignored. Proved: for every configuration, two messages of the same length that differ only in such bytes have the same digest (C50_md6_ignored_bytes), and such a pair exists for every configuration (C50_md6_bytes_ignored_refuted)."
  },
  {
   "property": "C51",
   "status": "proved",
   "theorems": [
    "C51_jh_histories_exact",
    "C51_jh_write_split_refuted",
    "C51_jh_write_empty_refuted",
    "C51_jh_aligned_writes",
    "C51_jh_Sum"
   ],
   "note": "FALSE of the code (refuted): with a pending partial block of r > 0 bytes Write(p) reslices p to 64-r bytes and panics when r + cap(p) < 64 (e.g. Write(5 bytes); Write(5 bytes), or an empty Write after one byte). Proved instead: the exact behaviour of every history for every slice capacity (C51_jh_histories_exact: panics exactly then, and otherwise returns JH-256), aligned Writes and the one-shot function never panic."
  },
  {
   "property": "C52",
   "status": "proved",
   "theorems": [
    "C52_actual",
    "C52_contract_without_stale_sums",
    "C52_one_shot",
    "C52_write_pieces_refuted",
    "C52_write_empty_refuted",
    "C52_sizes"
   ],
   "note": "FALSE of the code (refuted): a Write that exactly completes the buffered block (also an empty Write after 16 bytes) makes Sum return a wrong digest. Proved instead: the exact behaviour for every history (C52_actual), the contract for all histories without such a Sum, the one-shot functions for all messages."
  },
  {
   "property": "C53",
   "status": "proved",
   "theorems": [
    "C53_shavite_histories_exact",
    "C53_shavite_in_step",
    "C53_shavite_aligned_writes",
    "C53_shavite_Sum",
    "C53_shavite_split_refuted",
    "C53_shavite512_split_refuted"
   ],
   "note": "FALSE of the code (refuted): Write adds BlockSize per completed block and also the length of a partial chunk, so bytes of a chunk that later completes a block are counted twice and e.g. Write(63);Write(1) style splits change the digest (both 256- and 512-bit classes). Proved instead: the exact digest for every history (C53_shavite_histories_exact, with the code's bit count made explicit), equality with SHAvite-3 (spec independent of T-tables, from FIPS-197) for every history whose Writes keep the count in step, in particular block-aligned Writes plus a last one, and the one-shot Sum; all totals < 2^50 bytes."
  },
  {
   "property": "C54",
   "status": "proved",
   "theorems": [
    "C54_actual",
    "C54_one_sum_per_reset",
    "C54_one_shot",
    "C54_sum_twice_refuted",
    "C54_sm3_of_md2"
   ],
   "note": "FALSE of the code (refuted): the second Sum since Reset hashes the concatenation of the inner digests. Proved: exact behaviour for all inner objects and histories, the contract with one Sum per Reset."
  },
  {
   "property": "C55",
   "status": "proved",
   "theorems": [
    "C55_dataset_is_finite_map",
    "C55_generate_fresh_ids"
   ],
   "note": ""
  },
  {
   "property": "C56",
   "status": "proved",
   "theorems": [
    "C56_left_crc_padding"
   ],
   "note": ""
  },
  {
   "property": "C57",
   "status": "proved",
   "theorems": [
    "C57_beadd_exact",
    "C57_beadd_no_overflow",
    "C57_beadd_refuted"
   ],
   "note": "FALSE of the code (refuted): r[i]+a[j] is an 8-bit sum, so no carry ever propagates. Proved: the exact function (bytewise sum mod 256) for all operands, and that it is addition mod 2^440 when no byte position overflows."
  },
  {
   "property": "C58",
   "status": "proved",
   "theorems": [
    "C58_df_exact",
    "C58_df_tail_zero",
    "C58_df_refuted",
    "C58_df_entropy_refuted"
   ],
   "note": "FALSE of the code (refuted): for every input bytes 32..54 of the output are zero and bytes 0..22 come from the second hash. Proved: the exact output for every sequence of Writes."
  },
  {
   "property": "C59",
   "status": "proved",
   "theorems": [
    "C59_sm3_round_constants",
    "C59_sm3_generated_table"
   ],
   "note": ""
  },
  {
   "property": "C60",
   "status": "proved",
   "theorems": [
    "C60_locked_methods_race_free",
    "C60_locked_methods_deadlock_free",
    "C60_names_all_len_race_refuted"
   ],
   "note": "Add/Has/Get/Remove/Clean race-free and deadlock-free for all schedules; Names/All/Len take no lock and do race (refuted). RWMutex modelled as writer flag + reader count (without writer preference, so more schedules than Go allows)."
  },
  {
   "property": "C61",
   "status": "proved",
   "theorems": [
    "C61_chain_error_reported_refuted",
    "C61_plain_chain_keeps_error",
    "C61_last_call_decides"
   ],
   "note": "FALSE of the code (refuted): a later SumBy/FuncHash/CRC16/FromHexString overwrites Error; true for chains of calls that do not assign Error."
  },
  {
   "property": "C62",
   "status": "proved",
   "theorems": [
    "C62_no_empty_chunk_refuted"
   ],
   "note": "FALSE of the code (refuted): (0, nil) is returned when the stream ends at a boundary and minBytes > window. The exact behaviour is C14_chunker."
  },
  {
   "property": "C63",
   "status": "proved",
   "theorems": [
    "C63_murmur_size",
    "C63_murmur64_size_refuted"
   ],
   "note": "True for 32 and 128 bit; FALSE for the 64 bit digest (refuted): Size() returns 16, Sum appends 8 bytes."
  },
  {
   "property": "C64",
   "status": "proved",
   "theorems": [
    "C64_pmac_sum_verify",
    "C64_pmac_new_error_iff",
    "C64_pmac_verify_bad_parameters",
    "C64_pmac_64bit_refuted"
   ],
   "note": "True for 128-bit ciphers; FALSE for 64-bit ciphers (refuted): the 128-bit constant 0x87 is used for every block size."
  },
  {
   "property": "C65",
   "status": "proved",
   "theorems": [
    "C65_pmac_panics_refuted"
   ],
   "note": "FALSE of the code: Sum panics exactly for messages longer than bs*2^(2bs-1) bytes (256 KiB for 64-bit ciphers)."
  },
  {
   "property": "C66",
   "status": "proved",
   "theorems": [
    "C66_zero_hash_after_write_or_reset",
    "C66_zero_hash_sum_refuted"
   ],
   "note": "FALSE of the code (refuted): Sum on the zero value before any Write or Reset uses zero rounds and an all-zero state. Proved: correct whenever the first call is Write or Reset."
  },
  {
   "property": "C67",
   "status": "proved",
   "theorems": [
    "C67_failed_open_releases_plaintext_refuted",
    "C67_open_always_returns_decryption"
   ],
   "note": "FALSE of the code (refuted): Open returns dst extended with the unauthenticated plaintext together with the error; proved to do so for every input of at least 16 bytes."
  },
  {
   "property": "C68",
   "status": "proved",
   "theorems": [
    "C68_ascon_mac_contract",
    "C68_ascon_mac_verify"
   ],
   "note": ""
  },
  {
   "property": "C69",
   "status": "proved",
   "theorems": [
    "C69_increment_no_carry",
    "C69_increment_carry_erases",
    "C69_increment_refuted"
   ],
   "note": "FALSE of the code (refuted) when the low tweak word wraps: the carry is not confined to the position field. Exact behaviour in both cases proved."
  },
  {
   "property": "C70",
   "status": "proved",
   "theorems": [
    "C70_gost34112012_256_contract",
    "C70_gost34112012_512_contract",
    "C70_gost34112012_sizes"
   ],
   "note": "Histories of fewer than 2^61 bytes (64-bit bit counter). The linear-map cache built by init() is proved equal to the matrix by exhaustion over 8*256 entries plus linearity."
  },
  {
   "property": "C71",
   "status": "proved",
   "theorems": [
    "C71_gost_marshal_roundtrip",
    "C71_gost_unmarshal_then_sum_refuted",
    "C71_gost_unmarshal_size_refuted"
   ],
   "note": "Round trip proved for every history. The second half is FALSE of the code (refuted): UnmarshalBinary accepts an over-long buffer (Sum then panics) and any size byte. Not modelled: the restored object keeps a reference to the caller's slice."
  },
  {
   "property": "C72",
   "status": "proved",
   "theorems": [
    "C72_streebog256_lossy_contract",
    "C72_streebog512_lossy_contract",
    "C72_streebog_no_lost_carry",
    "C72_streebog_short",
    "C72_streebog256_standard_refuted",
    "C72_streebog512_standard_refuted",
    "C72_streebog_sizes"
   ],
   "note": "FALSE of the code (refuted): addm computes the carry before adding the incoming carry, so a carry is lost when a word sum is 2^64-1. Proved: the exact function computed (standard construction with the lossy addition) for every history, its equality with the standard whenever no carry is lost, in particular below one block."
  },
  {
   "property": "C73",
   "status": "proved",
   "theorems": [
    "C73_generate_exact",
    "C73_generate_tail_unchanged_refuted",
    "C73_generate_state",
    "C73_reachable_lengths"
   ],
   "note": "FALSE of the code (refuted for every state): only the first 32 bytes of out are written. Proved: exact output and state update for every state, clock, entropy and additional input; V and C keep 55 bytes in every reachable state."
  },
  {
   "property": "C74",
   "status": "proved",
   "theorems": [
    "C74_reseed_iff",
    "C74_time_reseed_refuted",
    "C74_counter",
    "C74_counter_reseed"
   ],
   "note": "FALSE of the code (time half, refuted for all clock readings): Second() is the second of the minute, so the difference never exceeds 59. Proved: reseed happens exactly when the counter exceeds 2^20; counter and time along every request sequence."
  },
  {
   "property": "C75",
   "status": "proved",
   "theorems": [
    "C75_recover",
    "C75_recover_other_bit_lengths_refuted"
   ],
   "note": "Proved for moduli whose bit length is a multiple of 8 (inverse q mod p given by its contract); for other bit lengths refuted in general form (Hash/Recover disagree on the padding length). No concrete private key is exhibited (primality proofs of 640-bit primes)."
  },
  {
   "property": "C76",
   "status": "proved",
   "theorems": [
    "C76_unmarshal_panics_refuted",
    "C76_unmarshal_no_separator",
    "C76_unmarshal_no_panic"
   ],
   "note": "FALSE of the code (refuted): panics on the empty text and on every text with too few separators; proved: never panics with at least three separators."
  },
  {
   "property": "C77",
   "status": "proved",
   "theorems": [
    "C77_negative_work_factor_refuted"
   ],
   "note": "FALSE of the code (refuted for every hash function and password): only the low 32 bits are checked, 2-2^32 is accepted and the digest contains the password block unhashed."
  },
  {
   "property": "C78",
   "status": "proved",
   "theorems": [
    "C78_check_iff",
    "C78_check_accepts_hash",
    "C78_hash_error_iff"
   ],
   "note": "Hash function, modulus, salt and work factor universally quantified."
  },
  {
   "property": "C79",
   "status": "proved",
   "theorems": [
    "C79_positive_sizes",
    "C79_negative_refuted"
   ],
   "note": "FALSE of the code for negative sizes (refuted for every negative size); exact characterisation for positive sizes proved."
  },
  {
   "property": "C80",
   "status": "proved",
   "theorems": [
    "C80_any_permutation",
    "C80_permutation",
    "C80_permutation_24",
    "C80_kangarootwelve",
    "C80_one_shot"
   ],
   "note": "The portable keccakF1600 is proved equal to Keccak-p[1600,12]; the amd64 assembly is not modelled, but C80_any_permutation holds for whatever 25-word function it computes."
  },
  {
   "property": "C81",
   "status": "proved",
   "theorems": [
    "C81_jh2_histories",
    "C81_jh2_Sum"
   ],
   "note": "All four sizes; total written < 2^64 bytes. The bitsliced code is proved equal to the nibble-level specification (SpecJh.v) including round constants and initial values."
  },
  {
   "property": "C82",
   "status": "proved",
   "theorems": [
    "C82_md6_histories",
    "C82_md6_short_is_MD6",
    "C82_md6_one_block_refuted",
    "C82_md6_sequential_refuted"
   ],
   "note": "FALSE of the code in general (refuted: 512 zero bytes, and levels = 0). Proved: the exact function of the concatenation computed by every history (C82_md6_histories), and that it is MD6 (independent spec of the report, incl. tree mode) for messages of less than 512 bytes with levels >= 1 and a whole number of bytes of output (C82_md6_short_is_MD6)."
  },
  {
   "property": "C83",
   "status": "proved",
   "theorems": [
    "C83_md6_key_memory_exact",
    "C83_md6_key_memory_refuted",
    "C83_md6_key_memory_full"
   ],
   "note": "FALSE of the code (refuted): append on the caller's key slice writes zeros into its spare capacity. The exact effect is proved for every slice and capacity."
  },
  {
   "property": "C84",
   "status": "proved",
   "theorems": [
    "C84_md6_sum_panics_iff"
   ],
   "note": "Sizes as natural numbers (negative sizes not modelled)."
  },
  {
   "property": "C85",
   "status": "proved",
   "theorems": [
    "C85_lsh256_histories",
    "C85_lsh256_Sum"
   ],
   "note": "No bound on the message length. The step constants are proved to follow the generation rule and the initial values to be CF((w, n, 0, ...), 0)."
  },
  {
   "property": "C86",
   "status": "proved",
   "theorems": [
    "C86_lsh512_histories",
    "C86_lsh512_Sum"
   ],
   "note": "No bound on the message length."
  },
  {
   "property": "C87",
   "status": "proved",
   "theorems": [
    "C87_lsh512_truncated_Sums_actual",
    "C87_lsh512_truncated_Sums_refuted"
   ],
   "note": "FALSE of the code (refuted): all three call New() and return a prefix of the LSH-512-512 digest; the exact value is proved for every input."
  },
  {
   "property": "C88",
   "status": "proved",
   "theorems": [
    "C88_cubehash_histories",
    "C88_cubehash_constructors",
    "C88_cubehash_oneshots"
   ],
   "note": "No bound on the message length; the one-shot functions are covered too."
  },
  {
   "property": "C89",
   "status": "proved",
   "theorems": [
    "C89_cubehash_small_blocks_ignore_message",
    "C89_cubehash_hs512x_refuted"
   ],
   "note": "FALSE of the code (refuted): with a block size below 4 ingest reads bs/4 = 0 words, so any two messages of equal length have the same digest (proved for every message)."
  },
  {
   "property": "C90",
   "status": "proved",
   "theorems": [
    "C90_cubehash_marshal_roundtrip",
    "C90_cubehash_unmarshal_accepts_iff"
   ],
   "note": "Round trip for every history of bytes; acceptance condition exact."
  },
  {
   "property": "C91",
   "status": "proved",
   "theorems": [
    "C91_cubehash_sum_length",
    "C91_cubehash_size_refuted"
   ],
   "note": "FALSE of the code (refuted for hs = 40): Sum appends 4*(hs/32) bytes; proved to equal Size() exactly when hs mod 32 < 8."
  },
  {
   "property": "C92",
   "status": "proved",
   "theorems": [
    "C92_panama_histories",
    "C92_panama_oneshot"
   ],
   "note": "No bound on the message length; the one-shot Sum is covered. The circular buffer is proved to represent the 32-stage shift register."
  },
  {
   "property": "C93",
   "status": "proved",
   "theorems": [
    "C93_shabal_histories",
    "C93_shabal_valid_sizes",
    "C93_shabal_oneshots"
   ],
   "note": "All 16 accepted output sizes, no bound on the message length; the five stored IVs and getIV are proved to be the specified initial state; the one-shot functions are covered."
  },
  {
   "property": "C94",
   "status": "proved",
   "theorems": [
    "C94_gost341194_histories"
   ],
   "note": "Parametric in the block cipher (the package takes it as an argument). Histories whose writes total less than 2^61 bytes, where the 64-bit bit counter cannot wrap. big.Int is modelled as an N below 2^256."
  },
  {
   "property": "C95",
   "status": "proved",
   "theorems": [
    "C95_vmac_histories"
   ],
   "note": "Parametric in the block cipher on 16-byte blocks (AES itself is the standard library). Hypothesis: at least size/8 of the 256 candidate L3 keys are usable (otherwise the key search of the code would run past its one-byte counter or for ever). Checked against the published vector with a FIPS 197 AES-128."
  },
  {
   "property": "C96",
   "status": "proved",
   "theorems": [
    "C96_vmac_other_sizes_refuted",
    "C96_vmac_New_accepts"
   ],
   "note": "FALSE of the code (refuted): New accepts exactly the multiples of 8 (also 0 and negative ones) and nonces shorter than 16 bytes (also the empty one); for every size other than 8 and 16, and for the empty nonce (C95), every Sum panics."
  },
  {
   "property": "C97",
   "status": "proved",
   "theorems": [
    "C97_skeins_histories",
    "C97_skeins_all_histories",
    "C97_skeins_oneshot"
   ],
   "note": "All-history theorem: C97_skeins_all_histories (message processed with the block flushed as soon as it is full); C97_skeins_histories: equal to Skein-512-n where no Sum is at a nonempty multiple of 64 bytes."
  },
  {
   "property": "C98",
   "status": "proved",
   "theorems": [
    "C98_skeins_full_blocks_refuted"
   ],
   "note": "FALSE of the code (refuted): Write processes a full buffer at once, so the final flag is set on an extra all-zero block; a 64-byte message gives another digest than Skein-512."
  },
  {
   "property": "C99",
   "status": "proved",
   "theorems": [
    "C99_hs256_histories",
    "C99_hs256_skein",
    "C99_hs256_long_output_refuted"
   ],
   "note": "hs <= 32 proved; hs > 32 FALSE of the code (C99_hs256_long_output_refuted): the bytes after the 32nd are all zero for every message."
  },
  {
   "property": "C100",
   "status": "proved",
   "theorems": [
    "C100_bmw_histories",
    "C100_bmw_oneshot"
   ],
   "note": "All four sizes, every history, every message (the length field is taken modulo 2^64 as in the specification); one-shot functions included. The unrolled 32-bit compression function is translated expression by expression (tools/goexpr.py)."
  },
  {
   "property": "C101",
   "status": "proved",
   "theorems": [
    "C101_groestl_histories",
    "C101_groestl_oneshot",
    "C101_groestl_sizes"
   ],
   "note": "Every size of 8, 16, ..., 512 bits, every history of fewer than 2^61-256 bytes (where the 64-bit block counter of the code is exact); the T-tables are proved equal to SubBytes followed by MixBytes over the AES field. Size, BlockSize and the one-shot functions included."
  },
  {
   "property": "C102",
   "status": "proved",
   "theorems": [
    "C102_groestl_negative_refuted"
   ],
   "note": "FALSE of the code (refuted): every negative size is accepted (Go's % is not positive for negatives), and from -8 down every call of Sum panics."
  },
  {
   "property": "C103",
   "status": "proved",
   "theorems": [
    "C103_echo_histories",
    "C103_echo_oneshot",
    "C103_echo_sizes",
    "C103_echo_new_exact"
   ],
   "note": "Every size of 8, 16, ..., 512 bits, no salt or any 16-byte salt, every history of fewer than 2^64 bits; the table-driven AES rounds, the word-parallel field doubling and the block counter rules (0 for a block without message bits) are proved equal to the specification. Size, BlockSize and the one-shot functions included."
  },
  {
   "property": "C104",
   "status": "proved",
   "theorems": [
    "C104_echo_negative_refuted"
   ],
   "note": "FALSE of the code (refuted): every negative size is accepted, and from -8 down every call of Sum panics."
  },
  {
   "property": "C105",
   "status": "proved",
   "theorems": [
    "C105_whirlpool_histories",
    "C105_whirlpool_oneshot"
   ],
   "note": "All three variants, every history of fewer than 2^64 bits. The eight lookup tables of each variant and the round constants are proved equal, entry by entry, to S-box times circulant matrix; for Whirlpool and Whirlpool-T the S-box is computed from its 4-bit boxes, for Whirlpool-0 it is a table (as in its own specification), transcribed from the code. The bitwise Write of the code and its 256-bit byte-array counter are modelled."
  },
  {
   "property": "C106",
   "status": "proved",
   "theorems": [
    "C106_haraka",
    "C106_haraka_portable"
   ],
   "note": "Portable path and assembly path. The 48 + 151 instructions of haraka_amd64.s are transcribed one by one and run on a small machine (16-byte registers, Intel semantics of MOVUPS, AESENC, PUNPCKLDQ, PUNPCKHDQ, PXOR, MOVHLPS, MOVLHPS); alignment faults of memory operands are outside the model. Round constants are a table in the paper and in the code."
  },
  {
   "property": "C107",
   "status": "proved",
   "theorems": [
    "C107_radio_gatun_histories",
    "C107_radio_gatun_oneshot"
   ],
   "note": "Both word sizes, every history without any bound on its length. The unrolled mill is translated from the Go text; the rotating belt index, the blocks of 13 rounds whose zero padding counts as blank rounds and the number of remaining blank rounds are proved equal to the specification."
  },
  {
   "property": "C108",
   "status": "proved",
   "theorems": [
    "C108_haval_histories",
    "C108_haval_oneshot"
   ],
   "note": "messages below 2^61 bytes (the 64-bit bit counter of the format); the pass functions are translated from the Go text by script, the specification has the boolean functions in algebraic normal form and the constants as the binary expansion of pi (Machin's formula)"
  },
  {
   "property": "C109",
   "status": "proved",
   "theorems": [
    "C109_lyra2re2_lyra2",
    "C109_lyra2re2_lyra2_panics"
   ],
   "note": "lyra2re2.Lyra2 = lyra2_spec (SpecLyra.v, closed forms for the orders of rows), and the exact panic condition; nRows < 2^62"
  },
  {
   "property": "C110",
   "status": "proved",
   "theorems": [
    "C110_lyra2_timecost_refuted"
   ],
   "note": "FALSE of the code (refuted): timeCost >= 2 always panics, in both packages"
  },
  {
   "property": "C111",
   "status": "proved",
   "theorems": [
    "C111_lyra2re_lyra2",
    "C111_lyra2re_short",
    "C111_lyra2re_salt_refuted"
   ],
   "note": "FALSE of the code (refuted): lyra2re absorbs at a stride of 64 words (as deployed in Lyra2RE version 1); positive: what it absorbs, and agreement for one-block inputs"
  },
  {
   "property": "C112",
   "status": "proved",
   "theorems": [
    "C112_lyra2_tail_refuted",
    "C112_lyra2_short_passwords_refuted"
   ],
   "note": "FALSE of the code (refuted): the last len mod 8 bytes of password and salt are dropped"
  },
  {
   "property": "C113",
   "status": "proved",
   "theorems": [
    "C113_lyra2re_sum",
    "C113_C114_keccak256"
   ],
   "note": "for every 32-byte function in place of the dependency x/crypto sha3.NewLegacyKeccak256, and for Keccak-256 itself"
  },
  {
   "property": "C114",
   "status": "proved",
   "theorems": [
    "C114_lyra2re2_sum"
   ],
   "note": "as C113"
  },
  {
   "property": "C115",
   "status": "proved",
   "theorems": [
    "C115_fsb_history",
    "C115_fsb_oneshot",
    "C115_fsb_column_in_range"
   ],
   "note": "bit-level specification SpecFsb.v, with the Whirlpool of C105; the table (fsb/sbox.go) is universally quantified"
  },
  {
   "property": "C116",
   "status": "proved",
   "theorems": [
    "C116_fsb_write_2_29_refuted"
   ],
   "note": "FALSE of the code (refuted): uint32(8*len(data)) wraps"
  },
  {
   "property": "C117",
   "status": "proved",
   "theorems": [
    "C117_skn_history",
    "C117_skn_no_message"
   ],
   "note": "Holds for every outLen and every key except the empty non-nil one (C118)."
  },
  {
   "property": "C118",
   "status": "proved",
   "theorems": [
    "C118_skn_empty_key_refuted",
    "C118_skn_key_exact"
   ],
   "note": "FALSE of the code (refuted): the key stage also runs on an empty non-nil key, so the result differs from Skein with the empty key (C118_skn_empty_key_refuted); C118_skn_key_exact says exactly what is computed."
  },
  {
   "property": "C119",
   "status": "proved",
   "theorems": [
    "C119_skn_reader",
    "C119_skn_sum_is_prefix"
   ],
   "note": "Unbounded read sizes; the block counter wraps at 2^64 like the 64-bit counter of the specification's output stage."
  },
  {
   "property": "C120",
   "status": "proved",
   "theorems": [
    "C120_skn_stream_exact",
    "C120_skn_stream_length_refuted",
    "C120_skn_stream_roundtrip"
   ],
   "note": "FALSE of the code (refuted): the configuration string holds 2^64-8 bits, because (2^64-1)/8 bytes is multiplied by 8 again; the key stream differs from the one for 2^64-1 bits from the first byte. Proved: the key stream is the Skein output for 2^64-8 bits, and decryption recovers the plaintext for every splitting."
  },
  {
   "property": "C121",
   "status": "proved",
   "theorems": [
    "C121_luffa_history",
    "C121_luffa_Sum"
   ],
   "note": "All four sizes; step constants are proved to be those of the specification's generator."
  },
  {
   "property": "C122",
   "status": "proved",
   "theorems": [
    "C122_fugue_history",
    "C122_fugue_Sum"
   ],
   "note": "All four sizes; the tables of smix are proved to be the AES S-box followed by Super-Mix over GF(2^8)."
  },
  {
   "property": "C123",
   "status": "proved",
   "theorems": [
    "C123_hamsi_history",
    "C123_hamsi_Sum"
   ],
   "note": "All four sizes; the expansion tables are proved to be the linear code over F4, the bit-sliced S-box and the diffusion layer to be the ones of the Hamsi document."
  },
  {
   "property": "C124",
   "status": "proved",
   "theorems": [
    "C124_xxh3_oneshot_exact",
    "C124_xxh3_oneshot"
   ],
   "note": "All eight functions in one theorem; the exact form covers 0..3 bytes with the code's own final function."
  },
  {
   "property": "C125",
   "status": "proved",
   "theorems": [
    "C125_xxh3_short_refuted"
   ],
   "note": "FALSE of the code (refuted): for each length 0..3 there is an input with another hash; len_0to16 uses the XXH3 avalanche where XXH3 prescribes that of XXH64."
  },
  {
   "property": "C126",
   "status": "proved",
   "theorems": [
    "C126_xxh3_last_stripe_refuted"
   ],
   "note": "FALSE of the code (refuted): for every input of more than 240 bytes and a multiple of 64 the last 64 bytes are ignored (hashLong_internal_loop skips the last stripe), in all eight functions."
  },
  {
   "property": "C127",
   "status": "proved",
   "theorems": [
    "C127_xxh3_secret_histories",
    "C127_xxh3_seed_histories",
    "C127_xxh3_official",
    "C127_xxh3_checksums",
    "C127_xxh3_secret_size"
   ],
   "note": "Sequences with the panic of C128 are excluded by x3_safe, which is stated on lengths only; C128 shows that it is exactly the panic."
  },
  {
   "property": "C128",
   "status": "proved",
   "theorems": [
    "C128_xxh3_write_panics_exact",
    "C128_xxh3_write_panics_refuted"
   ],
   "note": "FALSE of the code (refuted): Write panics exactly when more than 192 bytes are buffered and buffered plus argument are 512 bytes, e.g. on the second of two writes of 256 bytes."
  },
  {
   "property": "C129",
   "status": "proved",
   "theorems": [
    "C129_simd_history",
    "C129_simd_Sum"
   ],
   "note": "All sequences and lengths; the length field is modulo 2^64 bits, as in the specification."
  },
  {
   "property": "C130",
   "status": "proved",
   "theorems": [
    "C130_simd_iv",
    "C130_simd_transform",
    "C130_simd_compress"
   ],
   "note": "The transform is written over an arithmetic and related to linear forms with bounds (parametricity), so the statement covers every block."
  },
  {
   "property": "C131",
   "status": "proved",
   "theorems": [
    "C131_deepcopy_copy",
    "C131_deepcopy_equal",
    "C131_deepcopy_nil"
   ],
   "note": "deepcopy.go over a memory of cells; types with a DeepCopy method and pointers into the inside of a variable are not modelled."
  },
  {
   "property": "C132",
   "status": "proved",
   "theorems": [
    "C132_deepcopy_isolated"
   ],
   "note": "From the isolation invariant of the same induction."
  },
  {
   "property": "C133",
   "status": "proved",
   "theorems": [
    "C133_deepcopy_array_refuted",
    "C133_deepcopy_array_write_refuted"
   ],
   "note": "FALSE of the code (refuted): the result of copying an array reaches every cell its source reaches; concrete write-through."
  },
  {
   "property": "C134",
   "status": "proved",
   "theorems": [
    "C134_deepcopy_cycle_refuted"
   ],
   "note": "FALSE of the code (refuted): no number of steps suffices on a ring of n nodes, any n."
  },
  {
   "property": "C135",
   "status": "proved",
   "theorems": [
    "C135_deepcopy_nan_key_refuted",
    "C135_deepcopy_nil_key_refuted"
   ],
   "note": "FALSE of the code (refuted): NaN key (any map whose iteration starts with it), nil interface key."
  },
  {
   "property": "C136",
   "status": "proved",
   "theorems": [
    "C136_deepcopy_unexported_refuted",
    "C136_deepcopy_map_keys_refuted"
   ],
   "note": "FALSE of the code (refuted): unexported fields; any number of keys collapse to one entry."
  },
  {
   "property": "C137",
   "status": "proved",
   "theorems": [
    "C137_fluent_programs",
    "C137_fluent_library",
    "C137_fluent_stream",
    "C137_fluent_oneshot",
    "C137_fluent_stream_is_oneshot",
    "C137_fluent_checksum",
    "C137_fluent_reader",
    "C137_fluent_bounded",
    "C137_fluent_murmur",
    "C137_fluent_xxhash",
    "C137_fluent_whirlpool",
    "C137_fluent_gost34112012",
    "C137_fluent_rabin",
    "C137_fluent_gost341194",
    "C137_fluent_echo",
    "C137_fluent_siphash"
   ],
   "note": "Heap of shared objects; byte slices are values (no aliasing of caller buffers). The library table has the methods whose contract has no side condition; C137_fluent_bounded and its instances (murmur, xxhash, whirlpool, gost34112012, gost341194, rabin, echo, siphash) cover methods whose contract needs bytes, a length bound or (siphash) no Reset."
  },
  {
   "property": "C138",
   "status": "proved",
   "theorems": [
    "C138_fluent_fork_actual",
    "C138_fluent_copies_refuted",
    "C138_fluent_own_objects",
    "C138_fluent_nil_panics"
   ],
   "note": "FALSE of the code (refuted): _fork_actual says what two continuations give, for every method and every data; C137 gives every program."
  },
  {
   "property": "C139",
   "status": "proved",
   "theorems": [
    "C139_usehash_panics_refuted",
    "C139_usehash_no_panic"
   ],
   "note": "FALSE of the code (refuted, for every registered name); _no_panic: true when no goroutine removes a name that some goroutine uses."
  },
  {
   "property": "C140",
   "status": "proved",
   "theorems": [
    "C140_generate_race_refuted",
    "C140_generate_alone"
   ],
   "note": "FALSE of the code (refuted for any number of goroutines, loads and stores sequentially consistent); _alone: an uninterrupted call."
  },
  {
   "property": "C141",
   "status": "proved",
   "theorems": [
    "C141_hmac_any",
    "C141_hmac_plain",
    "C141_hmac_histories",
    "C141_hmac_programs",
    "C141_hmac_oneshot",
    "C141_hmac_long_keys"
   ],
   "note": "crypto/hmac is modelled from the Go standard library (go 1.20), with its marshaling path. C141_hmac_any needs only a relation kept by New, Write, Sum, Reset and restored by UnmarshalBinary of MarshalBinary; C141_hmac_histories/_programs instantiate it for 15 constructors. C141_hmac_long_keys says what happens to keys longer than the block, also when BlockSize() < Size() (fugue, ascon, esch, luffa, murmur3)."
  },
  {
   "property": "C142",
   "status": "proved",
   "theorems": [
    "C142_value_keeps_its_bytes",
    "C142_value_made",
    "C142_careful_programs",
    "C142_oneshot_digest_stays"
   ],
   "note": "Slices are windows of arrays here (C137 treats them as values); the digest of a call is a parameter, which C137 determines."
  },
  {
   "property": "C143",
   "status": "proved",
   "theorems": [
    "C143_frombytes_alias_refuted",
    "C143_sum_alias_refuted"
   ],
   "note": "FALSE of the code (refuted): for every buffer, a store to byte i of buf changes byte i of FromBytes(buf); for every buf with room for a digest, after Sum(buf) on a second value the first one shows the second digest."
  }
 ]
}