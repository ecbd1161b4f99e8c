(** LyraSum.v -- model of lyra2re/sum.go and lyra2re2/sum.go.  [keccak] stands for golang.org/x/crypto/sha3's
    NewLegacyKeccak256 (a dependency, not code of this repository). *)
From Coq Require Import List NArith Arith.
Require Import Verif.Base Verif.Lyra Verif.Blake256 Verif.Skein Verif.Groestl Verif.Cube Verif.Bmw Verif.BmwTab Verif.HashAPI Verif.MD.
Import ListNotations.
Definition of_opt {A} (x : option A) : outcome A := match x with Some a => Ok a | None => Panic end.
Section Sum.
Variable keccak : list N -> list N.
(** lyra2re/sum.go:12-34, Sum *)
Definition lre_Sum (data : list N) : outcome (list N) :=
  let resultBlake := b256_Sum data in
  let resultKeccak := keccak resultBlake in
  obind (lm_Lyra2 64 (zeros 32) resultKeccak resultKeccak 1 8 8) (fun lyra2Result =>
  obind (of_opt (Sum256 lyra2Result [])) (fun skeinResult =>
  of_opt (gro_Sum 32 skeinResult))).
(** lyra2re2/sum.go:40-44, cubehash256 *)
Definition lre_cubehash256 (data : list N) : list N := snd (ch_sum SH256 (fst (ch_write SH256 (ch_new SH256) data)) []).
(** lyra2re2/sum.go:13-38, Sum *)
Definition lre2_Sum (data : list N) : outcome (list N) :=
  let resultBlake := b256_Sum data in
  let resultkeccak := keccak resultBlake in
  let resultcube := lre_cubehash256 resultkeccak in
  obind (lm_Lyra2 8 (zeros 32) resultcube resultcube 1 4 4) (fun lyra2result =>
  obind (of_opt (Sum256 lyra2result [])) (fun skeinresult =>
  let resultcube2 := lre_cubehash256 skeinresult in
  Ok (bmw_Sum T256 bmw_initVal256 32 resultcube2))).
End Sum.
