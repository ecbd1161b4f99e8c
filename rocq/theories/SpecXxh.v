(** SpecXxh.v -- XXH32 and XXH64 (Collet, "xxHash fast digest algorithm", version 0.1.1) on whole
    messages.  Bytes are read little-endian. *)
From Coq Require Import String List NArith Arith.
From Verif Require Import Base.
Import ListNotations.

(** ** XXH32 *)
Definition X32_1 : N := 0x9E3779B1. Definition X32_2 : N := 0x85EBCA77. Definition X32_3 : N := 0xC2B2AE3D.
Definition X32_4 : N := 0x27D4EB2F. Definition X32_5 : N := 0x165667B1.
(** step 1: four accumulators *)
Definition xxh32_init (seed : N) : list N := [add32 (add32 seed X32_1) X32_2; add32 seed X32_2; seed; sub32 seed X32_1].
Definition xxh32_round (acc lane : N) : N := mul32 (rotl32 (add32 acc (mul32 lane X32_2)) 13) X32_1.
(** step 2: each 16-byte stripe feeds one little-endian lane to each accumulator *)
Definition xxh32_stripe (acc : list N) (stripe : list N) : list N :=
  map (fun al => xxh32_round (fst al) (le_val (snd al))) (combine acc (chunks 4 stripe)).
(** step 5: the remaining 0..15 bytes *)
Definition xxh32_word (h : N) (w : list N) : N := mul32 (rotl32 (add32 h (mul32 (le_val w) X32_3)) 17) X32_4.
Definition xxh32_byte (h : N) (b : N) : N := mul32 (rotl32 (add32 h (mul32 b X32_5)) 11) X32_1.
Definition xxh32_final (h : N) : N :=
  let h := mul32 (N.lxor h (N.shiftr h 15)) X32_2 in
  let h := mul32 (N.lxor h (N.shiftr h 13)) X32_3 in
  N.lxor h (N.shiftr h 16).
Definition xxh32_spec (seed : N) (m : list N) : N :=
  let h := if length m <? 16 then add32 seed X32_5
           else let a := fold_left xxh32_stripe (chunks 16 m) (xxh32_init seed) in
                add32 (add32 (add32 (rotl32 (at_ a 0) 1) (rotl32 (at_ a 1) 7)) (rotl32 (at_ a 2) 12)) (rotl32 (at_ a 3) 18) in
  let h := add32 h (w32 (N.of_nat (length m))) in
  let t := rest 16 m in
  let h := fold_left xxh32_word (chunks 4 t) h in
  let h := fold_left xxh32_byte (rest 4 t) h in
  xxh32_final h.

(** ** XXH64 *)
Definition X64_1 : N := 0x9E3779B185EBCA87. Definition X64_2 : N := 0xC2B2AE3D27D4EB4F. Definition X64_3 : N := 0x165667B19E3779F9.
Definition X64_4 : N := 0x85EBCA77C2B2AE63. Definition X64_5 : N := 0x27D4EB2F165667C5.
Definition xxh64_init (seed : N) : list N := [add64 (add64 seed X64_1) X64_2; add64 seed X64_2; seed; sub64 seed X64_1].
Definition xxh64_round (acc lane : N) : N := mul64 (rotl64 (add64 acc (mul64 lane X64_2)) 31) X64_1.
Definition xxh64_stripe (acc : list N) (stripe : list N) : list N :=
  map (fun al => xxh64_round (fst al) (le_val (snd al))) (combine acc (chunks 8 stripe)).
Definition xxh64_merge (h a : N) : N := add64 (mul64 (N.lxor h (xxh64_round 0 a)) X64_1) X64_4.
Definition xxh64_word (h : N) (w : list N) : N := add64 (mul64 (rotl64 (N.lxor h (xxh64_round 0 (le_val w))) 27) X64_1) X64_4.
Definition xxh64_half (h : N) (w : list N) : N := add64 (mul64 (rotl64 (N.lxor h (mul64 (le_val w) X64_1)) 23) X64_2) X64_3.
Definition xxh64_byte (h : N) (b : N) : N := mul64 (rotl64 (N.lxor h (mul64 b X64_5)) 11) X64_1.
Definition xxh64_final (h : N) : N :=
  let h := mul64 (N.lxor h (N.shiftr h 33)) X64_2 in
  let h := mul64 (N.lxor h (N.shiftr h 29)) X64_3 in
  N.lxor h (N.shiftr h 32).
Definition xxh64_spec (seed : N) (m : list N) : N :=
  let h := if length m <? 32 then add64 seed X64_5
           else let a := fold_left xxh64_stripe (chunks 32 m) (xxh64_init seed) in
                let h := add64 (add64 (add64 (rotl64 (at_ a 0) 1) (rotl64 (at_ a 1) 7)) (rotl64 (at_ a 2) 12)) (rotl64 (at_ a 3) 18) in
                fold_left xxh64_merge a h in
  let h := add64 h (w64 (N.of_nat (length m))) in
  let t := rest 32 m in
  let h := fold_left xxh64_word (chunks 8 t) h in
  let h := fold_left xxh64_half (chunks 4 (rest 8 t)) h in
  let h := fold_left xxh64_byte (rest 4 (rest 8 t)) h in
  xxh64_final h.

(** Published vectors (xxhash32_test.go, xxhash64_test.go). *)
Example xxh_vectors :
  xxh32_spec 0 [] = 0x02cc5d05%N /\ xxh32_spec 0 (bytes_of_string "abcdefghij") = 0x8b988cfe%N /\
  xxh32_spec 0 (bytes_of_string "abcdefghijklmnopqrstuvwxyz0123456789") = 0x42ae804d%N /\
  xxh64_spec 0 [] = 0xef46db3751d8e999%N /\ xxh64_spec 0 (bytes_of_string "abcdefghij") = 0xd6287a1de5498bb2%N /\
  xxh64_spec 0 (bytes_of_string "abcdefghijklmnopqrstuvwxyz0123456789") = 0x64f23ecf1609b766%N /\
  xxh64_spec 0 (bytes_of_string "Call me Ishmael. Some years ago--never mind how long precisely-") = 0x02a2e85470d6fd96%N.
Proof. vm_compute. repeat split. Qed.
