(** SpecHas160.v -- HAS-160 (TTAS.KO-12.0011/R2), written from the standard,
    independent of the model. *)
From Coq Require Import List NArith Arith.
From Verif Require Import Base Buf.
Import ListNotations.

(** Order in which round r (0..3) takes the 16 message words. *)
Definition has_word (r i : nat) : nat :=
  let '(start, step) := nth r [(0, 1); (3, 3); (12, 9); (7, 11)] (0, 0) in (start + step * i) mod 16.

(** Round r: the words in that order in four groups of four; the exclusive or of
    group 2, 3, 0, 1 is used before group 0, 1, 2, 3. *)
Definition has_group (X : list N) (r g : nat) : list N :=
  map (fun i => at_ X (has_word r (4 * g + i))) (seq 0 4).
Definition has_schedule (X : list N) (r : nat) : list N :=
  concat (map (fun g => fold_left N.lxor (has_group X r ((g + 2) mod 4)) 0%N :: has_group X r g) (seq 0 4)).

Definition has_s1 : list N := [5; 11; 7; 15; 6; 13; 8; 14; 7; 12; 9; 11; 8; 15; 6; 12; 9; 14; 5; 13]%N.
Definition has_s2 (r : nat) : N := nth r [10; 17; 25; 30]%N 0%N.
Definition has_K (r : nat) : N := nth r [0; 0x5a827999; 0x6ed9eba1; 0x8f1bbcdc]%N 0%N.
Definition has_f (r : nat) (x y z : N) : N :=
  match r with
  | 0 => N.lor (N.land x y) (N.ldiff z x)
  | 2 => N.lxor y (N.lor x (not32 z))
  | _ => N.lxor (N.lxor x y) z
  end.

Definition has_step (r : nat) (v : list N) (w_s : N * N) : list N :=
  let '(w, s) := w_s in
  let '(A, B, C, D, E) := (at_ v 0, at_ v 1, at_ v 2, at_ v 3, at_ v 4) in
  [add32 (add32 (add32 (add32 (rotl32 A s) (has_f r B C D)) E) w) (has_K r); A; rotl32 B (has_s2 r); C; D].
Definition has_round (X : list N) (v : list N) (r : nat) : list N :=
  fold_left (has_step r) (combine (has_schedule X r) has_s1) v.
Definition has_compress (h : list N) (b : list N) : list N :=
  let X := map le_val (chunks 4 b) in
  map (fun '(x, y) => add32 x y) (combine h (fold_left (has_round X) [0; 1; 2; 3] h)).

Definition has_iv : list N := [0x67452301; 0xefcdab89; 0x98badcfe; 0x10325476; 0xc3d2e1f0]%N.
Definition has160_spec (m : list N) : list N :=
  concat (map (le_bytes 4)
    (fold_left has_compress (chunks 64 (md_pad 64 0x80 (le_bytes 8 (8 * N.of_nat (length m))) m)) has_iv)).
