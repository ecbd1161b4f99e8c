(** SpecSha0.v -- SHA-0: FIPS 180 (1993), i.e. SHA-1 without the rotation in the
    message schedule.  Written from the standard, independent of the model. *)
From Coq Require Import List NArith Arith.
From Verif Require Import Base Buf.
Import ListNotations.

Definition fips_iv : list N := [0x67452301; 0xefcdab89; 0x98badcfe; 0x10325476; 0xc3d2e1f0]%N.
Definition fips_f (t : nat) (b c d : N) : N :=
  if t <? 20 then N.lor (N.land b c) (N.land (not32 b) d)
  else if t <? 40 then N.lxor (N.lxor b c) d
  else if t <? 60 then N.lor (N.lor (N.land b c) (N.land b d)) (N.land c d)
  else N.lxor (N.lxor b c) d.
Definition fips_K (t : nat) : N :=
  if t <? 20 then 0x5a827999%N else if t <? 40 then 0x6ed9eba1%N
  else if t <? 60 then 0x8f1bbcdc%N else 0xca62c1d6%N.

(** W_t, 0 <= t < 80 *)
Definition fips_next (w : list N) : N :=
  let t := length w in
  N.lxor (N.lxor (N.lxor (at_ w (t - 3)) (at_ w (t - 8))) (at_ w (t - 14))) (at_ w (t - 16)).
Fixpoint fips_expand (n : nat) (w : list N) : list N :=
  match n with O => w | S n' => fips_expand n' (w ++ [fips_next w]) end.
Definition fips_W (b : list N) : list N := fips_expand 64 (map be_val (chunks 4 b)).

Definition fips_round (W : list N) (v : list N) (t : nat) : list N :=
  let a := at_ v 0 in let b := at_ v 1 in let c := at_ v 2 in let d := at_ v 3 in let e := at_ v 4 in
  [add32 (add32 (add32 (add32 (rotl32 a 5) (fips_f t b c d)) e) (at_ W t)) (fips_K t);
   a; rotl32 b 30; c; d].
Definition fips_compress (h : list N) (b : list N) : list N :=
  map (fun '(x, y) => add32 x y) (combine h (fold_left (fips_round (fips_W b)) (seq 0 80) h)).

Definition sha0_spec (m : list N) : list N :=
  concat (map (be_bytes 4)
    (fold_left fips_compress (chunks 64 (md_pad 64 0x80 (be_bytes 8 (8 * N.of_nat (length m))) m)) fips_iv)).
