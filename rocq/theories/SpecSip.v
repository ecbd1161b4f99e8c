(** SpecSip.v -- SipHash-c-d (Aumasson, Bernstein 2012), 64- and 128-bit output, on whole messages. *)
From Coq Require Import List NArith Arith.
From Verif Require Import Base.
Import ListNotations.

Definition sstate := (N * N * N * N)%type.
(** SipRound, section 2.1: v0 += v1, v2 += v3; v1 <<<= 13, v3 <<<= 16; v1 ^= v0, v3 ^= v2; v0 <<<= 32;
    v2 += v1, v0 += v3; v1 <<<= 17, v3 <<<= 21; v1 ^= v2, v3 ^= v0; v2 <<<= 32. *)
Definition sip_round_spec (v : sstate) : sstate :=
  let '(v0, v1, v2, v3) := v in
  let '(v0, v2) := (add64 v0 v1, add64 v2 v3) in
  let '(v1, v3) := (rotl64 v1 13, rotl64 v3 16) in
  let '(v1, v3) := (N.lxor v1 v0, N.lxor v3 v2) in
  let v0 := rotl64 v0 32 in
  let '(v2, v0) := (add64 v2 v1, add64 v0 v3) in
  let '(v1, v3) := (rotl64 v1 17, rotl64 v3 21) in
  let '(v1, v3) := (N.lxor v1 v2, N.lxor v3 v0) in
  let v2 := rotl64 v2 32 in
  (v0, v1, v2, v3).
Definition sip_compress (c : nat) (v : sstate) (m : N) : sstate :=
  let '(v0, v1, v2, v3) := v in
  let '(v0, v1, v2, v3) := Nat.iter c sip_round_spec (v0, v1, v2, N.lxor v3 m) in
  (N.lxor v0 m, v1, v2, v3).
(** Parsing: 8-byte little-endian words; the last one holds the remaining bytes, zeros and the
    message length modulo 256 in its top byte. *)
Definition sip_words (m : list N) : list N :=
  map le_val (chunks 8 m ++ [rest 8 m ++ zeros (7 - length (rest 8 m)) ++ [(N.of_nat (length m) mod 256)%N]]).
Definition xor_all (v : sstate) : N := let '(v0, v1, v2, v3) := v in N.lxor (N.lxor (N.lxor v0 v1) v2) v3.
Definition sip_init (wide : bool) (key : list N) : sstate :=
  let k0 := le_val (firstn 8 key) in
  let k1 := le_val (skipn 8 key) in
  (N.lxor k0 0x736f6d6570736575,
   N.lxor (N.lxor k1 0x646f72616e646f6d) (if wide then 0xee else 0),
   N.lxor k0 0x6c7967656e657261,
   N.lxor k1 0x7465646279746573)%N.
(** SipHash-c-d with 16-byte output when [wide], else 8 bytes; [sip_from] starts from given words. *)
Definition sip_from (c d : nat) (wide : bool) (v : sstate) (m : list N) : list N :=
  let '(v0, v1, v2, v3) := fold_left (sip_compress c) (sip_words m) v in
  let '(v0, v1, v2, v3) := Nat.iter d sip_round_spec (v0, v1, N.lxor v2 (if wide then 0xee else 0xff), v3) in
  let first := le_bytes 8 (xor_all (v0, v1, v2, v3)) in
  if wide then
    first ++ le_bytes 8 (xor_all (Nat.iter d sip_round_spec (v0, N.lxor v1 0xdd, v2, v3)))
  else first.
Definition sip_spec (c d : nat) (wide : bool) (key m : list N) : list N := sip_from c d wide (sip_init wide key) m.

(** The test vector of the SipHash paper (appendix A), and the 128-bit vector of the package tests. *)
Example sip_paper_vector :
  sip_spec 2 4 false (map N.of_nat (seq 0 16)) (map N.of_nat (seq 0 15)) = le_bytes 8 0xa129ca6149be45e5.
Proof. vm_compute. reflexivity. Qed.
Example sip_128_vector :
  sip_spec 2 4 true (map N.of_nat (seq 0 16)) (map N.of_nat (seq 0 20)) =
  [0x9e; 0x25; 0xfc; 0x83; 0x3f; 0x22; 0x90; 0x73; 0x3e; 0x93; 0x44; 0xa5; 0xe8; 0x38; 0x39; 0xeb]%N.
Proof. vm_compute. reflexivity. Qed.
