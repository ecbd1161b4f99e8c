(** SpecGost94.v -- GOST R 34.11-94 (RFC 5831).  A 256-bit vector is a list of 32 bytes, least significant byte first, so the standard's
    concatenation a || b (a more significant) is b ++ a here; the 64-bit parts of X = x4||x3||x2||x1 are x_i = part i. *)
From Coq Require Import List NArith Arith.
From Verif Require Import Base.
Import ListNotations.

Definition xorb (a b : list N) : list N := map (fun i => N.lxor (at_ a i) (at_ b i)) (seq 0 (length a)).
Definition part64 (X : list N) (i : nat) : list N := slice X (8 * (i - 1)) (8 * i).
Definition part16 (X : list N) (i : nat) : list N := slice X (2 * (i - 1)) (2 * i).
(** A(X) = (x1 + x2) || x4 || x3 || x2 *)
Definition g94_A (X : list N) : list N := part64 X 2 ++ part64 X 3 ++ part64 X 4 ++ xorb (part64 X 1) (part64 X 2).
(** P: byte phi(j) of the argument becomes byte j, phi(i + 1 + 4(k-1)) = 8i + k for i = 0..3, k = 1..8 (bytes numbered from 1) *)
Definition g94_P (X : list N) : list N := map (fun j => let i := j mod 4 in let k := j / 4 + 1 in at_ X (8 * i + k - 1)) (seq 0 32).
(** psi(g16||...||g1) = (g1+g2+g3+g4+g13+g16) || g16 || ... || g2 *)
Definition g94_psi (X : list N) : list N :=
  flat_map (part16 X) (seq 2 15) ++ xorb (xorb (xorb (xorb (xorb (part16 X 1) (part16 X 2)) (part16 X 3)) (part16 X 4)) (part16 X 13)) (part16 X 16).
(** The constants C2 = C4 = 0 and C3, most significant byte first in the standard. *)
Definition g94_C3 : list N := le_bytes 32 0xff00ffff000000ffff0000ff00ffff0000ff00ff00ff00ffff00ff00ff00ff00.
Definition g94_C (i : nat) : list N := if i =? 3 then g94_C3 else zeros 32.
Section S.
(** The block cipher E: key (32 bytes, least significant first), block (8 bytes, least significant first). *)
Variable E : list N -> list N -> list N.
(** The four keys: U = H, V = M; K_i = P(U + V); then U = A(U) + C_i, V = A(A(V)). *)
Fixpoint g94_UV (i : nat) (H M : list N) : list N * list N :=
  match i with
  | O | 1 => (H, M)
  | S i' => let '(U, V) := g94_UV i' H M in (xorb (g94_A U) (g94_C i), g94_A (g94_A V))
  end.
Definition g94_key (i : nat) (H M : list N) : list N := let '(U, V) := g94_UV i H M in g94_P (xorb U V).
(** The step hash function chi(M, H). *)
Definition g94_chi (H M : list N) : list N :=
  let S := flat_map (fun i => E (g94_key i H M) (part64 H i)) [1; 2; 3; 4] in
  Nat.iter 61 g94_psi (xorb (g94_psi (xorb (Nat.iter 12 g94_psi S) M)) H).
(** The whole function: all blocks, the last one filled with zeros at the most significant end; then the bit length and the sum of all blocks mod 2^256. *)
Definition g94_blocks (m : list N) : list (list N) :=
  chunks 32 m ++ (if length m mod 32 =? 0 then [] else [rest 32 m ++ zeros (32 - length m mod 32)]).
Definition gost94 (m : list N) : list N :=
  let H := fold_left g94_chi (g94_blocks m) (zeros 32) in
  let L := le_bytes 32 (8 * N.of_nat (length m)) in
  let Sigma := le_bytes 32 (fold_left (fun s b => (s + le_val b) mod 2 ^ 256)%N (g94_blocks m) 0%N) in
  g94_chi (g94_chi H L) Sigma.
End S.
