(** SpecAes.v -- one (keyless) AES round, from FIPS 197: SubBytes, ShiftRows, MixColumns.
    Written from the standard, independently of /repo.  A state is the list of its 16 bytes in the order of
    FIPS 197 section 3.4: byte number r + 4c is in row r, column c. *)
From Coq Require Import List NArith Arith.
From Verif Require Import Base.
Import ListNotations.
Local Open Scope N_scope.

(** Multiplication by x in GF(2^8) = GF(2)[x]/(x^8+x^4+x^3+x+1) (FIPS 197, 4.2.1). *)
Definition xtime (a : N) : N := if N.testbit a 7 then N.lxor (N.land (2 * a) 0xff) 0x1b else 2 * a.
(** Product in GF(2^8): shift and add. *)
Fixpoint gf_mul_aux (k : nat) (a b : N) : N :=
  match k with
  | O => 0
  | S k' => N.lxor (if N.odd b then a else 0) (gf_mul_aux k' (xtime a) (N.div2 b))
  end.
Definition gf_mul (a b : N) : N := gf_mul_aux 8 a b.
(** Multiplicative inverse (0 for 0): a^254. *)
Definition gf_inv (a : N) : N :=
  let a2 := gf_mul a a in let a4 := gf_mul a2 a2 in let a8 := gf_mul a4 a4 in let a16 := gf_mul a8 a8 in
  let a32 := gf_mul a16 a16 in let a64 := gf_mul a32 a32 in let a128 := gf_mul a64 a64 in
  gf_mul a128 (gf_mul a64 (gf_mul a32 (gf_mul a16 (gf_mul a8 (gf_mul a4 a2))))).
Definition rotl8 (a n : N) : N := N.land (N.lor (N.shiftl a n) (N.shiftr a (8 - n))) 0xff.
(** The S-box (FIPS 197, 5.1.1): inverse, then the affine map. *)
Definition aes_sbox (a : N) : N :=
  let b := gf_inv a in
  N.lxor (N.lxor (N.lxor b (rotl8 b 1)) (N.lxor (rotl8 b 2) (rotl8 b 3))) (N.lxor (rotl8 b 4) 0x63).

Definition sub_bytes (s : list N) : list N := map aes_sbox s.
(** Row r is rotated left by r columns. *)
Definition shift_rows (s : list N) : list N :=
  map (fun i => at_ s (i mod 4 + 4 * ((i / 4 + i mod 4) mod 4))) (seq 0 16).
(** Each column is multiplied by the circulant matrix (2 3 1 1). *)
Definition mix_columns (s : list N) : list N :=
  map (fun i => let c := (4 * (i / 4))%nat in let r := (i mod 4)%nat in
        N.lxor (N.lxor (gf_mul 2 (at_ s (c + r))) (gf_mul 3 (at_ s (c + (r + 1) mod 4))))
               (N.lxor (at_ s (c + (r + 2) mod 4)) (at_ s (c + (r + 3) mod 4)))) (seq 0 16).
Definition aes_round (s : list N) : list N := mix_columns (shift_rows (sub_bytes s)).

(** FIPS 197 Appendix B, round 1: start of round after AddRoundKey -> after MixColumns. *)
Example aes_round_fips197 :
  aes_round (be_bytes 16 0x193de3bea0f4e22b9ac68d2ae9f84808) = be_bytes 16 0x046681e5e0cb199a48f8d37a2806264c.
Proof. vm_compute. reflexivity. Qed.
