(** SpecJh.v -- JH-224/256/384/512, our transcription of "The Hash Function JH" (Hongjun Wu, 16 January 2011),
    in the unsliced form of sections 4 to 6: 256 four-bit elements, S-boxes, L over GF(2^4), the permutation P_8,
    round constants generated by R_6 from the fractional part of the square root of two. *)
From Coq Require Import List NArith Arith Bool.
From Verif Require Import Base.
Import ListNotations.

(** Bit strings: bytes, most significant bit first. *)
Definition bits_of_bytes (l : list N) : list bool := flat_map (fun b => map (fun j => N.testbit b (N.of_nat (7 - j))) (seq 0 8)) l.
Definition byte_of_bits (l : list bool) : N := fold_left (fun v (b : bool) => (2 * v + if b then 1 else 0)%N) l 0%N.
Definition bytes_of_bits (l : list bool) : list N := map byte_of_bits (chunks 8 l).
Definition bit_at (l : list bool) (i : nat) : bool := nth i l false.

(** 4.1: the two S-boxes *)
Definition jh_S0 : list N := [9; 0; 4; 11; 13; 12; 3; 15; 1; 10; 2; 6; 7; 5; 8; 14]%N.
Definition jh_S1 : list N := [3; 12; 6; 13; 5; 7; 1; 9; 15; 2; 0; 4; 11; 10; 14; 8]%N.
(** 4.2: multiplication by 2 in GF(2^4) with x^4 + x + 1, and (C, D) = L(A, B): D = B + 2 A, C = A + 2 D *)
Definition jh_mul2 (a : N) : N := if (a <? 8)%N then (2 * a)%N else N.lxor (2 * a) 19.
Definition jh_L (a b : N) : N * N := let d := N.lxor b (jh_mul2 a) in (N.lxor a (jh_mul2 d), d).
(** 4.3: P_d = phi_d o P'_d o pi_d on n = 2^d elements: element i of the result is element [jh_perm n i] of the argument *)
Definition jh_flip (i : nat) : nat := if Nat.even i then i + 1 else i - 1.
Definition jh_phi (n i : nat) : nat := if i <? n / 2 then i else jh_flip i.
Definition jh_P' (n i : nat) : nat := if i <? n / 2 then 2 * i else 2 * (i - n / 2) + 1.
Definition jh_pi (i : nat) : nat := if i mod 4 <? 2 then i else jh_flip i.
Definition jh_perm (n i : nat) : nat := jh_pi (jh_P' n (jh_phi n i)).
(** 4.4: the round function R_d: S-boxes selected by the constant bits, L on neighbours, the permutation *)
Definition jh_R (n : nat) (sel : nat -> bool) (q : list N) : list N :=
  let s := map (fun i => nth (N.to_nat (at_ q i)) (if sel i then jh_S1 else jh_S0) 0%N) (seq 0 n) in
  let l := flat_map (fun j => let '(c, d) := jh_L (at_ s (2 * j)) (at_ s (2 * j + 1)) in [c; d]) (seq 0 (n / 2)) in
  map (fun i => at_ l (jh_perm n i)) (seq 0 n).
(** 4.6: the round constants; C_0 is the 256-bit fractional part of the square root of two ([jh_C0_sqrt2] below) *)
Definition jh_C0_val : N := 0x6a09e667f3bcc908b2fb1366ea957d3e3adec17512775099da2f590b0667322a.
Lemma jh_C0_sqrt2 : (let x := 2 ^ 256 + jh_C0_val in x * x <= 2 * 2 ^ 512 < (x + 1) * (x + 1))%N.
Proof. split; [now vm_compute|now vm_compute]. Qed.
Definition jh_C0 : list N := map (fun i => (N.shiftr jh_C0_val (N.of_nat (4 * (63 - i))) mod 16)%N) (seq 0 64).
Fixpoint jh_C (r : nat) : list N := match r with O => jh_C0 | S r => jh_R 64 (fun _ => false) (jh_C r) end.
Definition jh_Cbit (C : list N) (i : nat) : bool := N.testbit (at_ C (i / 4)) (N.of_nat (3 - i mod 4)).
(** 4.7: E_8: grouping, 42 rounds, de-grouping *)
Definition jh_nib (a b c d : bool) : N := ((if a then 8 else 0) + (if b then 4 else 0) + (if c then 2 else 0) + (if d then 1 else 0))%N.
Definition jh_group (H : list bool) : list N :=
  map (fun e => let i := e / 2 + 128 * (e mod 2) in jh_nib (bit_at H i) (bit_at H (i + 256)) (bit_at H (i + 512)) (bit_at H (i + 768))) (seq 0 256).
Definition jh_degroup (q : list N) : list bool :=
  map (fun t => let k := t / 256 in let u := t mod 256 in
                N.testbit (at_ q (if u <? 128 then 2 * u else 2 * (u - 128) + 1)) (N.of_nat (3 - k))) (seq 0 1024).
Definition jh_E8 (H : list bool) : list bool :=
  jh_degroup (fold_left (fun q r => jh_R 256 (jh_Cbit (jh_C r)) q) (seq 0 42) (jh_group H)).
(** 5: the compression function: the message is xored into the first half before and into the second half after E_8 *)
Definition jh_F8 (H M : list bool) : list bool :=
  let A := map (fun t => xorb (bit_at H t) ((t <? 512) && bit_at M t)) (seq 0 1024) in
  let B := jh_E8 A in
  map (fun t => xorb (bit_at B t) (negb (t <? 512) && bit_at M (t - 512))) (seq 0 1024).
(** 6: padding (1 bit, 383 + (-l mod 512) zero bits, 128-bit length), initial value, truncation *)
Definition jh_pad (m : list N) : list N :=
  m ++ 0x80%N :: zeros (47 + (64 - length m mod 64) mod 64) ++ be_bytes 16 (8 * N.of_nat (length m)).
Definition jh_iv (hs : nat) : list bool := jh_F8 (bits_of_bytes (be_bytes 2 (8 * N.of_nat hs) ++ zeros 126)) (repeat false 512).
(** JH with hs = 28, 32, 48 or 64 bytes of output: the last hs bytes of the final 128-byte value. *)
Definition jh_hash (hs : nat) (m : list N) : list N :=
  skipn (128 - hs) (bytes_of_bits (fold_left jh_F8 (map bits_of_bytes (chunks 64 (jh_pad m))) (jh_iv hs))).
