(** HashComp.v -- model of package hash_composition over two digest objects of any kind. *)
From Coq Require Import List NArith Arith Lia Bool.
From Verif Require Import Base HashAPI.
Import ListNotations.

Section Comp.
Context {D1 D2 : Type}.
Variable I1 : impl D1.
Variable I2 : impl D2.
(** /repo/hash_composition/digest.go:23-26 *)
Definition comp_reset (d : D1 * D2) : D1 * D2 := (i_reset I1 (fst d), i_reset I2 (snd d)).
(** /repo/hash_composition/digest.go:14-21 *)
Definition comp_new (d1 : D1) (d2 : D2) : D1 * D2 := comp_reset (d1, d2).
(** /repo/hash_composition/digest.go:36-38 *)
Definition comp_write (d : D1 * D2) (p : list N) : (D1 * D2) * nat :=
  let '(d2, n) := i_write I2 (snd d) p in ((fst d, d2), n).
(** /repo/hash_composition/digest.go:40-52: d0 := *d copies the two interface values, so the Write to d0.h1 acts on
    the object shared with d *)
Definition comp_sum (d : D1 * D2) (inp : list N) : (D1 * D2) * list N :=
  let '(d2, h2) := i_sum I2 (snd d) [] in
  let '(d1, _) := i_write I1 (fst d) h2 in
  let '(d1, h) := i_sum I1 d1 [] in
  ((d1, d2), inp ++ h).
Definition comp_impl : impl (D1 * D2) := mkimpl comp_write comp_sum comp_reset.
(** /repo/hash_composition/hash_composition.go:13-19 *)
Definition comp_Sum (d1 : D1) (d2 : D2) (data : list N) : list N :=
  snd (comp_sum (fst (comp_write (comp_new d1 d2) data)) []).
End Comp.
