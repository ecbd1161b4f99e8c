(** SpecSkeins.v -- what the package /repo/skeins computes for every message, in the terms of SpecSkein.v: every full block is processed as a
    non-final one and a final block with the remaining 0 .. N_b - 1 bytes always follows. *)
From Coq Require Import List NArith Arith.
From Verif Require Import Base SpecSkein.
Import ListNotations.

Definition eager_ubi (v : variant) (G m : list N) (typ : N) : list N :=
  let full := chunks (nb v) m in
  let last := rest (nb v) m in
  let G := fold_left (fun G i => ubi_block v G (tweak_of (N.of_nat ((i + 1) * nb v)) typ (i =? 0) false) (nth i full [])) (seq 0 (length full)) G in
  ubi_block v G (tweak_of (N.of_nat (length m)) typ (length full =? 0) true) (last ++ zeros (nb v - length last)).
(** The digest for chaining value G: at most one output block, filled up with zero bytes. *)
Definition eager_skein (v : variant) (G : list N) (hs : nat) (m : list N) : list N :=
  let out := to_bytes (ubi v (eager_ubi v G m 48) (zeros 8) 63) in firstn hs out ++ zeros (hs - length out).
