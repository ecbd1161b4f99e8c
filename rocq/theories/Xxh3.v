(** Xxh3.v -- model of /repo/xxhash/xxh3 (utils.go, digest64.go, digest128.go, xxh3_64.go, xxh3_128.go, sbox.go).  A byte slice is a list;
    p[i:] is skipn i p.  A secret has at least 136 bytes (New64WithSecret checks it; the Hash_ functions are modelled for such secrets only),
    so that no access to a secret is out of range; accesses to the input are in range by the length tests. *)
From Coq Require Import String List NArith Arith.
From Verif Require Import Base HashAPI SpecXxh3.
Import ListNotations.
(** sbox.go:4-17 *)
Definition kSecret : list N := [
  0xb8; 0xfe; 0x6c; 0x39; 0x23; 0xa4; 0x4b; 0xbe; 0x7c; 0x01; 0x81; 0x2c; 0xf7; 0x21; 0xad; 0x1c;
  0xde; 0xd4; 0x6d; 0xe9; 0x83; 0x90; 0x97; 0xdb; 0x72; 0x40; 0xa4; 0xa4; 0xb7; 0xb3; 0x67; 0x1f;
  0xcb; 0x79; 0xe6; 0x4e; 0xcc; 0xc0; 0xe5; 0x78; 0x82; 0x5a; 0xd0; 0x7d; 0xcc; 0xff; 0x72; 0x21;
  0xb8; 0x08; 0x46; 0x74; 0xf7; 0x43; 0x24; 0x8e; 0xe0; 0x35; 0x90; 0xe6; 0x81; 0x3a; 0x26; 0x4c;
  0x3c; 0x28; 0x52; 0xbb; 0x91; 0xc3; 0x00; 0xcb; 0x88; 0xd0; 0x65; 0x8b; 0x1b; 0x53; 0x2e; 0xa3;
  0x71; 0x64; 0x48; 0x97; 0xa2; 0x0d; 0xf9; 0x4e; 0x38; 0x19; 0xef; 0x46; 0xa9; 0xde; 0xac; 0xd8;
  0xa8; 0xfa; 0x76; 0x3f; 0xe3; 0x9c; 0x34; 0x3f; 0xf9; 0xdc; 0xbb; 0xc7; 0xc7; 0x0b; 0x4f; 0x1d;
  0x8a; 0x51; 0xe0; 0x4b; 0xcd; 0xb4; 0x59; 0x31; 0xc8; 0x9f; 0x7e; 0xc9; 0xd9; 0x78; 0x73; 0x64;
  0xea; 0xc5; 0xac; 0x83; 0x34; 0xd3; 0xeb; 0xc3; 0xc5; 0x81; 0xa0; 0xff; 0xfa; 0x13; 0x63; 0xeb;
  0x17; 0x0d; 0xdd; 0x51; 0xb7; 0xf0; 0xda; 0x49; 0xd3; 0x16; 0x55; 0x26; 0x29; 0xd4; 0x68; 0x9e;
  0x2b; 0x16; 0xbe; 0x58; 0x7d; 0x47; 0xa1; 0xfc; 0x8f; 0xf8; 0xb8; 0xd1; 0x7a; 0xd0; 0x31; 0xce;
  0x45; 0xcb; 0x3a; 0x8f; 0x95; 0x16; 0x04; 0x28; 0xaf; 0xd7; 0xfb; 0xca; 0xbb; 0x4b; 0x40; 0x7e]%N.
(** utils.go:8-18: getu32(p[o:]), getu64(p[o:]) are [x3_rd4 p o], [x3_rd8 p o] *)
Definition getu32 := x3_rd4.
Definition getu64 := x3_rd8.
(** utils.go:70-86 *)
Definition swap32 (x : N) : N :=
  N.lor (N.lor (N.lor (N.land (shl32 x 24) 0xff000000) (N.land (shl32 x 8) 0x00ff0000)) (N.land (N.shiftr x 8) 0x0000ff00)) (N.land (N.shiftr x 24) 0x000000ff).
Definition swap64 (x : N) : N :=
  N.lor (N.lor (N.lor (N.lor (N.lor (N.lor (N.lor (N.land (shl64 x 56) 0xff00000000000000) (N.land (shl64 x 40) 0x00ff000000000000))
    (N.land (shl64 x 24) 0x0000ff0000000000)) (N.land (shl64 x 8) 0x000000ff00000000)) (N.land (N.shiftr x 8) 0x00000000ff000000))
    (N.land (N.shiftr x 24) 0x0000000000ff0000)) (N.land (N.shiftr x 40) 0x000000000000ff00)) (N.land (N.shiftr x 56) 0x00000000000000ff).
(** utils.go:90-107 *)
Definition xorshift64 (v n : N) : N := N.lxor v (N.shiftr v n).
Definition rrmxmx (h64 len : N) : N :=
  let h64 := N.lxor h64 (N.lxor (rotl64 h64 49) (rotl64 h64 24)) in
  let h64 := mul64 h64 X3MX2 in
  let h64 := N.lxor h64 (add64 (N.shiftr h64 35) len) in
  let h64 := mul64 h64 X3MX2 in
  xorshift64 h64 28.
Definition avalanche (h64 : N) : N :=
  let h64 := xorshift64 h64 37 in
  let h64 := mul64 h64 X3MX1 in
  xorshift64 h64 32.
(** utils.go:109-139; a Uint128 is (Low, High) *)
Definition mult32to64 (x y : N) : N := mul64 x y.
Definition mult64to128 (lhs rhs : N) : N * N :=
  let lo_lo := mult32to64 (w32 (N.land lhs 0xFFFFFFFF)) (w32 (N.land rhs 0xFFFFFFFF)) in
  let hi_lo := mult32to64 (w32 (N.shiftr lhs 32)) (w32 (N.land rhs 0xFFFFFFFF)) in
  let lo_hi := mult32to64 (w32 (N.land lhs 0xFFFFFFFF)) (w32 (N.shiftr rhs 32)) in
  let hi_hi := mult32to64 (w32 (N.shiftr lhs 32)) (w32 (N.shiftr rhs 32)) in
  let cross := add64 (add64 (N.shiftr lo_lo 32) (N.land hi_lo 0xFFFFFFFF)) lo_hi in
  let upper := add64 (add64 (N.shiftr hi_lo 32) (N.shiftr cross 32)) hi_hi in
  let lower := N.lor (shl64 cross 32) (N.land lo_lo 0xFFFFFFFF) in
  (lower, upper).
Definition mul128_fold64 (lhs rhs : N) : N := let p := mult64to128 lhs rhs in N.lxor (fst p) (snd p).
(** utils.go:143-160 *)
Definition scalarRound (input secret acc : list N) (lane : nat) : list N :=
  let data_val := getu64 input (lane * 8) in
  let data_key := N.lxor data_val (getu64 secret (lane * 8)) in
  let acc := upd acc (Nat.lxor lane 1) (add64 (at_ acc (Nat.lxor lane 1)) data_val) in
  upd acc lane (add64 (mult32to64 (w32 data_key) (w32 (N.shiftr data_key 32))) (at_ acc lane)).
Definition accumulate_512 (acc input secret : list N) : list N := fold_left (scalarRound input secret) (seq 0 8) acc.
(** utils.go:162-177 *)
Definition mix2Accs (acc secret : list N) : N :=
  mul128_fold64 (N.lxor (at_ acc 0) (getu64 secret 0)) (N.lxor (at_ acc 1) (getu64 secret 8)).
Definition mergeAccs (acc secret : list N) (start : N) : N :=
  avalanche (fold_left (fun r i => add64 r (mix2Accs (skipn (2 * i) acc) (skipn (16 * i) secret))) (seq 0 4) start).
(** utils.go:179-185 *)
Definition accumulate (acc input secret : list N) (nbStripes : nat) : list N :=
  fold_left (fun acc n => accumulate_512 acc (skipn (n * 64) input) (skipn (n * 8) secret)) (seq 0 nbStripes) acc.
(** utils.go:187-206 *)
Definition scalarScrambleRound (secret acc : list N) (lane : nat) : list N :=
  let key64 := getu64 secret (lane * 8) in
  let acc64 := at_ acc lane in
  let acc64 := xorshift64 acc64 47 in
  let acc64 := N.lxor acc64 key64 in
  let acc64 := mul64 acc64 X3P32_1 in
  upd acc lane acc64.
Definition scrambleAcc (acc secret : list N) : list N := fold_left (scalarScrambleRound secret) (seq 0 8) acc.
(** utils.go:210-269 *)
Definition combined (input : list N) : N :=
  let len := length input in
  let c1 := at_ input 0 in let c2 := at_ input (len / 2) in let c3 := at_ input (len - 1) in
  N.lor (N.lor (N.lor (shl32 c1 16) (shl32 c2 24)) (shl32 c3 0)) (shl32 (w32 (N.of_nat len)) 8).
Definition len_1to3_64b (input secret : list N) (seed : N) : N :=
  let bitflip := add64 (N.lxor (getu32 secret 0) (getu32 secret 4)) seed in
  let keyed := N.lxor (combined input) bitflip in
  avalanche keyed.
Definition len_4to8_64b (input secret : list N) (seed : N) : N :=
  let len := length input in
  let seed := N.lxor seed (shl64 (swap32 (w32 seed)) 32) in
  let input1 := getu32 input 0 in
  let input2 := getu32 input (len - 4) in
  let bitflip := sub64 (N.lxor (getu64 secret 8) (getu64 secret 16)) seed in
  let input64 := add64 input2 (shl64 input1 32) in
  let keyed := N.lxor input64 bitflip in
  rrmxmx keyed (w64 (N.of_nat len)).
Definition len_9to16_64b (input secret : list N) (seed : N) : N :=
  let len := length input in
  let bitflip1 := add64 (N.lxor (getu64 secret 24) (getu64 secret 32)) seed in
  let bitflip2 := sub64 (N.lxor (getu64 secret 40) (getu64 secret 48)) seed in
  let input_lo := N.lxor (getu64 input 0) bitflip1 in
  let input_hi := N.lxor (getu64 input (len - 8)) bitflip2 in
  let acc := add64 (add64 (add64 (w64 (N.of_nat len)) (swap64 input_lo)) input_hi) (mul128_fold64 input_lo input_hi) in
  avalanche acc.
Definition len_0to16_64b (input secret : list N) (seed : N) : N :=
  if 8 <? length input then len_9to16_64b input secret seed
  else if 4 <=? length input then len_4to8_64b input secret seed
  else if 0 <? length input then len_1to3_64b input secret seed
  else avalanche (N.lxor seed (N.lxor (getu64 secret 56) (getu64 secret 64))).
(** utils.go:271-279 *)
Definition mix16B (input secret : list N) (seed64 : N) : N :=
  let input_lo := getu64 input 0 in
  let input_hi := getu64 input 8 in
  mul128_fold64 (N.lxor input_lo (add64 (getu64 secret 0) seed64)) (N.lxor input_hi (sub64 (getu64 secret 8) seed64)).
(** utils.go:281-305 *)
Definition len_17to128_64b (input secret : list N) (seed : N) : N :=
  let len := length input in
  let acc := mul64 (w64 (N.of_nat len)) X3P64_1 in
  let acc := if 32 <? len then
      let acc := if 64 <? len then
          let acc := if 96 <? len then
              let acc := add64 acc (mix16B (skipn 48 input) (skipn 96 secret) seed) in
              add64 acc (mix16B (skipn (len - 64) input) (skipn 112 secret) seed)
            else acc in
          let acc := add64 acc (mix16B (skipn 32 input) (skipn 64 secret) seed) in
          add64 acc (mix16B (skipn (len - 48) input) (skipn 80 secret) seed)
        else acc in
      let acc := add64 acc (mix16B (skipn 16 input) (skipn 32 secret) seed) in
      add64 acc (mix16B (skipn (len - 32) input) (skipn 48 secret) seed)
    else acc in
  let acc := add64 acc (mix16B (skipn 0 input) (skipn 0 secret) seed) in
  let acc := add64 acc (mix16B (skipn (len - 16) input) (skipn 16 secret) seed) in
  avalanche acc.
(** utils.go:307-330; SECRET_SIZE_MIN - MIDSIZE_LASTOFFSET = 136 - 17, MIDSIZE_STARTOFFSET = 3 *)
Definition len_129to240_64b (input secret : list N) (seed : N) : N :=
  let len := length input in
  let acc := mul64 (w64 (N.of_nat len)) X3P64_1 in
  let nbRounds := len / 16 in
  let acc := fold_left (fun acc i => add64 acc (mix16B (skipn (16 * i) input) (skipn (16 * i) secret) seed)) (seq 0 8) acc in
  let acc_end := mix16B (skipn (len - 16) input) (skipn (136 - 17) secret) seed in
  let acc := avalanche acc in
  let acc_end := fold_left (fun a i => add64 a (mix16B (skipn (16 * i) input) (skipn (16 * (i - 8) + 3) secret) seed)) (seq 8 (nbRounds - 8)) acc_end in
  avalanche (add64 acc acc_end).
(** utils.go:334-435 *)
Definition len_1to3_128b (data secret : list N) (seed : N) : N * N :=
  let combinedl := combined data in
  let combinedh := rotl32 (swap32 combinedl) 13 in
  let bitflipl := add64 (N.lxor (getu32 secret 0) (getu32 secret 4)) seed in
  let bitfliph := sub64 (N.lxor (getu32 secret 8) (getu32 secret 12)) seed in
  let keyed_lo := N.lxor combinedl bitflipl in
  let keyed_hi := N.lxor combinedh bitfliph in
  (avalanche keyed_lo, avalanche keyed_hi).
Definition len_4to8_128b (input secret : list N) (seed : N) : N * N :=
  let seed := N.lxor seed (shl64 (swap32 (w32 seed)) 32) in
  let len := length input in
  let input_lo := getu32 input 0 in
  let input_hi := getu32 input (len - 4) in
  let input_64 := add64 input_lo (shl64 input_hi 32) in
  let bitflip := add64 (N.lxor (getu64 secret 16) (getu64 secret 24)) seed in
  let keyed := N.lxor input_64 bitflip in
  let m128 := mult64to128 keyed (add64 X3P64_1 (w64 (N.shiftl (N.of_nat len) 2))) in
  let high := add64 (snd m128) (shl64 (fst m128) 1) in
  let low := N.lxor (fst m128) (N.shiftr high 3) in
  let low := xorshift64 low 35 in
  let low := mul64 low X3MX2 in
  let low := xorshift64 low 28 in
  let high := avalanche high in
  (low, high).
Definition len_9to16_128b (input secret : list N) (seed : N) : N * N :=
  let len := length input in
  let bitflipl := sub64 (N.lxor (getu64 secret 32) (getu64 secret 40)) seed in
  let bitfliph := add64 (N.lxor (getu64 secret 48) (getu64 secret 56)) seed in
  let input_lo := getu64 input 0 in
  let input_hi := getu64 input (len - 8) in
  let m128 := mult64to128 (N.lxor (N.lxor input_lo input_hi) bitflipl) X3P64_1 in
  let low := add64 (fst m128) (shl64 (w64 (N.of_nat (len - 1))) 54) in
  let input_hi := N.lxor input_hi bitfliph in
  let high := add64 (snd m128) (add64 input_hi (mult32to64 (w32 input_hi) (X3P32_2 - 1))) in
  let low := N.lxor low (swap64 high) in
  let h128 := mult64to128 low X3P64_2 in
  let hh := add64 (snd h128) (mul64 high X3P64_2) in
  (avalanche (fst h128), avalanche hh).
Definition len_0to16_128b (input secret : list N) (seed : N) : N * N :=
  let len := length input in
  if 8 <? len then len_9to16_128b input secret seed
  else if 4 <=? len then len_4to8_128b input secret seed
  else if 0 <? len then len_1to3_128b input secret seed
  else
    let bitflipl := N.lxor (getu64 secret 64) (getu64 secret 72) in
    let bitfliph := N.lxor (getu64 secret 80) (getu64 secret 88) in
    (avalanche (N.lxor seed bitflipl), avalanche (N.lxor seed bitfliph)).
(** utils.go:437-449 *)
Definition mix32B (acc : N * N) (input_1 input_2 secret : list N) (seed : N) : N * N :=
  let low := add64 (fst acc) (mix16B input_1 (skipn 0 secret) seed) in
  let low := N.lxor low (add64 (getu64 input_2 0) (getu64 input_2 8)) in
  let high := add64 (snd acc) (mix16B input_2 (skipn 16 secret) seed) in
  let high := N.lxor high (add64 (getu64 input_1 0) (getu64 input_1 8)) in
  (low, high).
(** utils.go:471-479, 522-530: the last statements of len_17to128_128b and len_129to240_128b *)
Definition end128 (len : nat) (seed : N) (acc : N * N) : N * N :=
  let low := add64 (fst acc) (snd acc) in
  let high := add64 (add64 (mul64 (fst acc) X3P64_1) (mul64 (snd acc) X3P64_4)) (mul64 (sub64 (w64 (N.of_nat len)) seed) X3P64_2) in
  (avalanche low, sub64 0 (avalanche high)).
(** utils.go:451-480 *)
Definition len_17to128_128b (input secret : list N) (seed : N) : N * N :=
  let len := length input in
  let acc := (mul64 (w64 (N.of_nat len)) X3P64_1, 0%N) in
  let acc := if 32 <? len then
      let acc := if 64 <? len then
          let acc := if 96 <? len then mix32B acc (skipn 48 input) (skipn (len - 64) input) (skipn 96 secret) seed else acc in
          mix32B acc (skipn 32 input) (skipn (len - 48) input) (skipn 64 secret) seed
        else acc in
      mix32B acc (skipn 16 input) (skipn (len - 32) input) (skipn 32 secret) seed
    else acc in
  let acc := mix32B acc input (skipn (len - 16) input) secret seed in
  end128 len seed acc.
(** utils.go:482-531; the loop counter i is 32 k *)
Definition len_129to240_128b (input secret : list N) (seed : N) : N * N :=
  let len := length input in
  let acc := (mul64 (w64 (N.of_nat len)) X3P64_1, 0%N) in
  let acc := fold_left (fun acc k => let i := 32 * k in mix32B acc (skipn (i - 32) input) (skipn (i - 16) input) (skipn (i - 32) secret) seed) (seq 1 4) acc in
  let acc := (avalanche (fst acc), avalanche (snd acc)) in
  let acc := fold_left (fun acc k => let i := 32 * k in mix32B acc (skipn (i - 32) input) (skipn (i - 16) input) (skipn (3 + i - 160) secret) seed) (seq 5 (len / 32 - 4)) acc in
  let acc := mix32B acc (skipn (len - 16) input) (skipn (len - 32) input) (skipn (136 - 17 - 16) secret) (sub64 0 seed) in
  end128 len seed acc.
(** utils.go:533-550 *)
Definition mergeAccs_128b (acc secret : list N) (len : N) : N * N :=
  (mergeAccs acc (skipn 11 secret) (mul64 len X3P64_1),
   mergeAccs acc (skipn (length secret - length acc * 8 - 11) secret) (not64 (mul64 len X3P64_2))).
(** utils.go:554-566, GenCustomSecret *)
Definition GenCustomSecret (customSecret : list N) (seed64 : N) : list N :=
  fold_left (fun c i =>
    let lo := add64 (getu64 kSecret (16 * i)) seed64 in
    let hi := sub64 (getu64 kSecret (16 * i + 8)) seed64 in
    copy_at (copy_at c (16 * i) (le_bytes 8 lo)) (16 * i + 8) (le_bytes 8 hi)) (seq 0 (192 / 16)) customSecret.
(** utils.go:568-594, hashLong_internal_loop *)
Definition hashLong_internal_loop (acc input secret : list N) : list N :=
  let secretSize := length secret in
  let len := length input in
  let nbStripesPerBlock := (secretSize - 64) / 8 in
  let block_len := 64 * nbStripesPerBlock in
  let nb_blocks := (len - 1) / block_len in
  let acc := fold_left (fun acc n => scrambleAcc (accumulate acc (skipn (n * block_len) input) secret nbStripesPerBlock) (skipn (secretSize - 64) secret)) (seq 0 nb_blocks) acc in
  let nbStripes := ((len - 1) - block_len * nb_blocks) / 64 in
  let acc := accumulate acc (skipn (nb_blocks * block_len) input) secret nbStripes in
  if negb (Nat.land len 63 =? 0) then accumulate_512 acc (skipn (len - 64) input) (skipn (secretSize - 64 - 7) secret) else acc.
(** utils.go:596-620, consumeStripes: acc and *nbStripesSoFarPtr *)
Definition consumeStripes (acc : list N) (soFar perBlock : nat) (p : list N) (stripes : nat) (secret : list N) (secretLimit : nat) : list N * nat :=
  if perBlock - soFar <=? stripes then
    let toEnd := perBlock - soFar in
    let after := stripes - toEnd in
    let acc := accumulate acc p (skipn (soFar * 8) secret) toEnd in
    let acc := scrambleAcc acc (skipn secretLimit secret) in
    let acc := accumulate acc (skipn (toEnd * 64) p) secret after in
    (acc, after)
  else (accumulate acc p (skipn (soFar * 8) secret) stripes, soFar + stripes).
(** sbox.go:40-45 *)
Definition INIT_ACC : list N := [X3P32_3; X3P64_1; X3P64_2; X3P64_3; X3P64_4; X3P32_2; X3P64_5; X3P32_1].
(** utils.go:624-682 *)
Definition Hash_hashLong_64b_internal (acc input secret : list N) : N :=
  mergeAccs (hashLong_internal_loop acc input secret) (skipn 11 secret) (mul64 (w64 (N.of_nat (length input))) X3P64_1).
Definition Hash_hashLong_64b_withSecret (input : list N) (seed64 : N) (secret : list N) : N := Hash_hashLong_64b_internal INIT_ACC input secret.
Definition Hash_hashLong_64b_default (input : list N) (seed64 : N) (secret : list N) : N := Hash_hashLong_64b_internal INIT_ACC input kSecret.
Definition Hash_hashLong_64b_withSeed (input : list N) (seed : N) (secret : list N) : N :=
  if (seed =? 0)%N then Hash_hashLong_64b_internal INIT_ACC input kSecret
  else Hash_hashLong_64b_internal INIT_ACC input (GenCustomSecret (zeros 192) seed).
(** utils.go:686-732 *)
Definition Hash_64bits_internal (input : list N) (seed64 : N) (secret : list N) (f_hashLong : list N -> N -> list N -> N) : N :=
  let len := length input in
  if len <=? 16 then len_0to16_64b input secret seed64
  else if len <=? 128 then len_17to128_64b input secret seed64
  else if len <=? 240 then len_129to240_64b input secret seed64
  else f_hashLong input seed64 secret.
Definition Hash_64bits (input : list N) : N := Hash_64bits_internal input 0 kSecret Hash_hashLong_64b_default.
Definition Hash_64bits_withSecret (input secret : list N) : N := Hash_64bits_internal input 0 secret Hash_hashLong_64b_withSecret.
Definition Hash_64bits_withSeed (input : list N) (seed : N) : N := Hash_64bits_internal input seed kSecret Hash_hashLong_64b_withSeed.
(** (the nil function is never called) *)
Definition Hash_64bits_withSecretandSeed (input secret : list N) (seed : N) : N :=
  if length input <=? 240 then Hash_64bits_internal input seed kSecret (fun _ _ _ => 0%N) else Hash_hashLong_64b_withSecret input seed secret.
(** utils.go:736-840 *)
Definition Hash_hashLong_128b_internal (acc input secret : list N) : N * N :=
  mergeAccs_128b (hashLong_internal_loop acc input secret) secret (w64 (N.of_nat (length input))).
Definition Hash_hashLong_128b_default (input : list N) (seed64 : N) (secret : list N) : N * N := Hash_hashLong_128b_internal INIT_ACC input kSecret.
Definition Hash_hashLong_128b_withSecret (input : list N) (seed64 : N) (secret : list N) : N * N := Hash_hashLong_128b_internal INIT_ACC input secret.
Definition Hash_hashLong_128b_withSeed (input : list N) (seed64 : N) (secret : list N) : N * N :=
  if (seed64 =? 0)%N then Hash_hashLong_128b_internal INIT_ACC input kSecret
  else Hash_hashLong_128b_internal INIT_ACC input (GenCustomSecret (zeros 192) seed64).
Definition Hash_128bits_internal (input : list N) (seed64 : N) (secret : list N) (f_hl128 : list N -> N -> list N -> N * N) : N * N :=
  let len := length input in
  if len <=? 16 then len_0to16_128b input secret seed64
  else if len <=? 128 then len_17to128_128b input secret seed64
  else if len <=? 240 then len_129to240_128b input secret seed64
  else f_hl128 input seed64 secret.
Definition Hash_128bits (input : list N) : N * N := Hash_128bits_internal input 0 kSecret Hash_hashLong_128b_default.
Definition Hash_128bits_withSecret (input secret : list N) : N * N := Hash_128bits_internal input 0 secret Hash_hashLong_128b_withSecret.
Definition Hash_128bits_withSeed (input : list N) (seed : N) : N * N := Hash_128bits_internal input seed kSecret Hash_hashLong_128b_withSeed.
Definition Hash_128bits_withSecretandSeed (input secret : list N) (seed : N) : N * N :=
  if length input <=? 240 then Hash_128bits_internal input seed kSecret (fun _ _ _ => (0, 0)%N) else Hash_hashLong_128b_withSecret input seed secret.
(** ** The digests.  digest64.go:10-23, digest128.go:10-23: the fields that change; seed and secret are parameters, secretLimit and
    nbStripesPerBlock are computed from the secret by Reset. *)
Record xd : Type := mkxd { xd_s : list N; xd_x : list N; xd_nx : nat; xd_len : N; xd_so : nat }.
Definition secretLimit (secret : list N) : nat := length secret - 64.
Definition perBlock (secret : list N) : nat := secretLimit secret / 8.
(** digest64.go:37-49, Reset *)
Definition xd_reset : xd := mkxd INIT_ACC (zeros 256) 0 0 0.
(** digest64.go:100-112: for len(p) - BlockSize64 > 0 *)
Fixpoint xd_loop (fuel : nat) (secret : list N) (s : list N) (so : nat) (p : list N) : list N * nat * list N :=
  match fuel with
  | O => (s, so, p)
  | S n => if 256 <? length p then let '(s, so) := consumeStripes s so (perBlock secret) p 4 secret (secretLimit secret) in xd_loop n secret s so (skipn 256 p)
           else (s, so, p)
  end.
(** digest64.go:59-121, digest128.go:59-121, Write.  None: pp[offset-STRIPE_LEN:] with offset < 64, a panic. *)
Definition xd_write (secret : list N) (d : xd) (p : list N) : option xd :=
  let len := add64 (xd_len d) (N.of_nat (length p)) in
  if length p =? 0 then Some (mkxd (xd_s d) (xd_x d) (xd_nx d) len (xd_so d))
  else if length p <=? 256 - xd_nx d then
    Some (mkxd (xd_s d) (copy_at (xd_x d) (xd_nx d) p) (xd_nx d + length p) len (xd_so d))
  else
    let pp := p in
    let '(s, x, so, p) :=
      if 0 <? xd_nx d then
        let loadSize := 256 - xd_nx d in
        let x := copy_at (xd_x d) (xd_nx d) (firstn loadSize p) in
        let '(s, so) := consumeStripes (xd_s d) (xd_so d) (perBlock secret) x 4 secret (secretLimit secret) in
        (s, x, so, skipn loadSize p)
      else (xd_s d, xd_x d, xd_so d, p) in
    if 256 <=? length p then
      let '(s, so, p) := xd_loop (length p) secret s so p in
      let offset := length pp - length p in
      if offset <? 64 then None
      else
        let x := copy_at x (256 - 64) (skipn (offset - 64) pp) in
        Some (mkxd s (copy_at x 0 p) (Nat.min 256 (length p)) len so)
    else Some (mkxd s (copy_at x 0 p) (Nat.min 256 (length p)) len so).
(** digest64.go:158-195, hashLong *)
Definition xd_hashLong (secret : list N) (d : xd) : list N :=
  let '(acc, last) :=
    if 64 <=? xd_nx d then
      (fst (consumeStripes (xd_s d) (xd_so d) (perBlock secret) (firstn (xd_nx d) (xd_x d)) ((xd_nx d - 1) / 64) secret (secretLimit secret)),
       slice (xd_x d) (xd_nx d - 64) (xd_nx d))
    else
      let catchupSize := 64 - xd_nx d in
      (xd_s d, copy_at (copy_at (zeros 64) 0 (skipn (256 - catchupSize) (xd_x d))) catchupSize (firstn (xd_nx d) (xd_x d))) in
  accumulate_512 acc last (skipn (secretLimit secret - 7) secret).
(** digest64.go:137-156, Sum64 *)
Definition xd_Sum64 (seed : N) (secret : list N) (d : xd) : N :=
  if (240 <? xd_len d)%N then mergeAccs (xd_hashLong secret d) (skipn 11 secret) (mul64 (xd_len d) X3P64_1)
  else if negb (seed =? 0)%N then Hash_64bits_withSeed (firstn (xd_nx d) (xd_x d)) seed
  else Hash_64bits_withSecret (firstn (xd_nx d) (xd_x d)) (firstn (secretLimit secret + 64) secret).
(** digest128.go:138-153, Sum128 *)
Definition xd_Sum128 (seed : N) (secret : list N) (d : xd) : N * N :=
  if (240 <? xd_len d)%N then mergeAccs_128b (xd_hashLong secret d) secret (xd_len d)
  else if negb (seed =? 0)%N then Hash_128bits_withSeed (firstn (xd_nx d) (xd_x d)) seed
  else Hash_128bits_withSecret (firstn (xd_nx d) (xd_x d)) (firstn (secretLimit secret + 64) secret).
(** xxh3.go:12-17, digest64.go:130-135, digest128.go:130-136 *)
Definition xd_out64 (seed : N) (secret : list N) (d : xd) : list N := be_bytes 8 (xd_Sum64 seed secret d).
Definition xd_out128 (seed : N) (secret : list N) (d : xd) : list N := let u := xd_Sum128 seed secret d in be_bytes 8 (snd u) ++ be_bytes 8 (fst u).
(** The calls of a digest; a digest whose Write panicked is None, and every later call on it is recorded as an empty answer. *)
Definition xd_impl (out : xd -> list N) (secret : list N) : impl (option xd) :=
  mkimpl (fun o p => match o with Some d => match xd_write secret d p with Some d' => (Some d', length p) | None => (None, 0) end | None => (None, 0) end)
    (fun o i => match o with Some d => (Some d, i ++ out d) | None => (None, []) end)
    (fun o => match o with Some _ => Some xd_reset | None => None end).
(** xxh3_64.go:13-30, xxh3_128.go: New64WithSecret (None is the error) and New64WithSeed, New64: the seed, the secret and the object *)
Definition NewWithSecret (secret : list N) : option (N * list N * xd) := if length secret <? 136 then None else Some (0%N, secret, xd_reset).
Definition NewWithSeed (seed : N) : N * list N * xd := (seed, GenCustomSecret (zeros 192) seed, xd_reset).
(** xxh3_64.go:32-64, xxh3_128.go: Sum64WithSeed, Checksum64WithSeed, ... (Sum64, Checksum64: seed 0).  None is a panic of Write. *)
Definition SumWithSeed (size : nat) (out : N -> list N -> xd -> list N) (input : list N) (seed : N) : option (list N) :=
  let '(seed, secret, d) := NewWithSeed seed in
  match xd_write secret d input with Some d => Some (copy_at (zeros size) 0 (out seed secret d)) | None => None end.
Definition ChecksumWithSeed {A} (sum : N -> list N -> xd -> A) (input : list N) (seed : N) : option A :=
  let '(seed, secret, d) := NewWithSeed seed in
  match xd_write secret d input with Some d => Some (sum seed secret d) | None => None end.
