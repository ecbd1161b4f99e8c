(** SpecRipemd.v -- RIPEMD-128/160/256/320 as specified by Dobbertin, Bosselaers and
    Preneel ("RIPEMD-160: A Strengthened Version of RIPEMD" and the appendix for
    the 256/320-bit extensions).  Written from the paper, independent of the model. *)
From Coq Require Import List NArith Arith.
From Verif Require Import Base Buf.
Import ListNotations.

(** Nonlinear functions f1..f5 (Table 1). *)
Definition rmd_f (i : nat) (x y z : N) : N :=
  match i with
  | 1 => N.lxor (N.lxor x y) z
  | 2 => N.lor (N.land x y) (N.ldiff z x)
  | 3 => N.lxor (N.lor x (not32 y)) z
  | 4 => N.lor (N.land x z) (N.ldiff y z)
  | _ => N.lxor x (N.lor y (not32 z))
  end.

(** Message word selection: rho and pi(i) = 9 i + 5 mod 16. *)
Definition rmd_rho (i : nat) : nat := nth i [7; 4; 13; 1; 10; 6; 15; 3; 12; 0; 9; 5; 2; 14; 11; 8] 0.
Definition rmd_pi (i : nat) : nat := (9 * i + 5) mod 16.
Fixpoint rmd_iter (n : nat) (i : nat) : nat := match n with O => i | S n' => rmd_rho (rmd_iter n' i) end.
Definition rmd_r (j : nat) : nat := rmd_iter (j / 16) (j mod 16).
Definition rmd_r' (j : nat) : nat := rmd_iter (j / 16) (rmd_pi (j mod 16)).

(** Shifts: the paper gives them per round and per message word. *)
Definition rmd_shift (round word : nat) : N :=
  nth word (nth round
   [[11; 14; 15; 12; 5; 8; 7; 9; 11; 13; 14; 15; 6; 7; 9; 8];
    [12; 13; 11; 15; 6; 9; 9; 7; 12; 15; 11; 13; 7; 8; 7; 7];
    [13; 15; 14; 11; 7; 7; 6; 8; 13; 14; 13; 12; 5; 5; 6; 9];
    [14; 11; 12; 14; 8; 6; 5; 5; 15; 12; 15; 14; 9; 9; 8; 6];
    [15; 12; 13; 13; 9; 5; 8; 6; 14; 11; 12; 11; 8; 6; 5; 5]]%N []) 0%N.
Definition rmd_s (j : nat) : N := rmd_shift (j / 16) (rmd_r j).
Definition rmd_s' (j : nat) : N := rmd_shift (j / 16) (rmd_r' j).

Definition rmd_K (round : nat) : N := nth round [0; 0x5a827999; 0x6ed9eba1; 0x8f1bbcdc; 0xa953fd4e]%N 0%N.
Definition rmd_K160' (round : nat) : N := nth round [0x50a28be6; 0x5c4dd124; 0x6d703ef3; 0x7a6d76e9; 0]%N 0%N.
Definition rmd_K128' (round : nat) : N := nth round [0x50a28be6; 0x5c4dd124; 0x6d703ef3; 0]%N 0%N.

Definition rmd_words (b : list N) : list N := map le_val (chunks 4 b).

(** One step of a five-register line (RIPEMD-160/320) and of a four-register line. *)
Definition rmd_step5 (f : N -> N -> N -> N) (k : N) (s : N) (w : N) (v : N * N * N * N * N) :=
  let '(A, B, C, D, E) := v in
  (E, add32 (rotl32 (add32 (add32 (add32 A (f B C D)) w) k) s) E, B, rotl32 C 10, D).
Definition rmd_step4 (f : N -> N -> N -> N) (k : N) (s : N) (w : N) (v : N * N * N * N) :=
  let '(A, B, C, D) := v in
  (D, rotl32 (add32 (add32 (add32 A (f B C D)) w) k) s, B, C).

(** Both lines in parallel, step j. *)
Definition rmd_both5 (X : list N) (vv : (N * N * N * N * N) * (N * N * N * N * N)) (j : nat) :=
  (rmd_step5 (rmd_f (j / 16 + 1)) (rmd_K (j / 16)) (rmd_s j) (at_ X (rmd_r j)) (fst vv),
   rmd_step5 (rmd_f (5 - j / 16)) (rmd_K160' (j / 16)) (rmd_s' j) (at_ X (rmd_r' j)) (snd vv)).
Definition rmd_both4 (X : list N) (vv : (N * N * N * N) * (N * N * N * N)) (j : nat) :=
  (rmd_step4 (rmd_f (j / 16 + 1)) (rmd_K (j / 16)) (rmd_s j) (at_ X (rmd_r j)) (fst vv),
   rmd_step4 (rmd_f (4 - j / 16)) (rmd_K128' (j / 16)) (rmd_s' j) (at_ X (rmd_r' j)) (snd vv)).
Definition rmd_round5 (X : list N) (i : nat) vv := fold_left (rmd_both5 X) (seq (16 * i) 16) vv.
Definition rmd_round4 (X : list N) (i : nat) vv := fold_left (rmd_both4 X) (seq (16 * i) 16) vv.

Definition rmd160_compress (h : list N) (b : list N) : list N :=
  let X := rmd_words b in
  let v := (at_ h 0, at_ h 1, at_ h 2, at_ h 3, at_ h 4) in
  let '((A, B, C, D, E), (A', B', C', D', E')) := fold_left (rmd_both5 X) (seq 0 80) (v, v) in
  [add32 (add32 (at_ h 1) C) D'; add32 (add32 (at_ h 2) D) E'; add32 (add32 (at_ h 3) E) A';
   add32 (add32 (at_ h 4) A) B'; add32 (add32 (at_ h 0) B) C'].
Definition rmd128_compress (h : list N) (b : list N) : list N :=
  let X := rmd_words b in
  let v := (at_ h 0, at_ h 1, at_ h 2, at_ h 3) in
  let '((A, B, C, D), (A', B', C', D')) := fold_left (rmd_both4 X) (seq 0 64) (v, v) in
  [add32 (add32 (at_ h 1) C) D'; add32 (add32 (at_ h 2) D) A'; add32 (add32 (at_ h 3) A) B';
   add32 (add32 (at_ h 0) B) C'].

(** The double-width variants: separate chaining words for the two lines, and after
    each round one register is exchanged between the lines. *)
Definition swap4 (i : nat) (vv : (N * N * N * N) * (N * N * N * N)) :=
  let '((A, B, C, D), (A', B', C', D')) := vv in
  match i with
  | 0 => ((A', B, C, D), (A, B', C', D'))
  | 1 => ((A, B', C, D), (A', B, C', D'))
  | 2 => ((A, B, C', D), (A', B', C, D'))
  | _ => ((A, B, C, D'), (A', B', C', D))
  end.
Definition swap5 (i : nat) (vv : (N * N * N * N * N) * (N * N * N * N * N)) :=
  let '((A, B, C, D, E), (A', B', C', D', E')) := vv in
  match i with
  | 0 => ((A, B', C, D, E), (A', B, C', D', E'))
  | 1 => ((A, B, C, D', E), (A', B', C', D, E'))
  | 2 => ((A', B, C, D, E), (A, B', C', D', E'))
  | 3 => ((A, B, C', D, E), (A', B', C, D', E'))
  | _ => ((A, B, C, D, E'), (A', B', C', D', E))
  end.
Definition rmd256_compress (h : list N) (b : list N) : list N :=
  let X := rmd_words b in
  let v := ((at_ h 0, at_ h 1, at_ h 2, at_ h 3), (at_ h 4, at_ h 5, at_ h 6, at_ h 7)) in
  let '((A, B, C, D), (A', B', C', D')) :=
    fold_left (fun v i => swap4 i (rmd_round4 X i v)) (seq 0 4) v in
  map (fun '(x, y) => add32 x y) (combine h [A; B; C; D; A'; B'; C'; D']).
Definition rmd320_compress (h : list N) (b : list N) : list N :=
  let X := rmd_words b in
  let v := ((at_ h 0, at_ h 1, at_ h 2, at_ h 3, at_ h 4), (at_ h 5, at_ h 6, at_ h 7, at_ h 8, at_ h 9)) in
  let '((A, B, C, D, E), (A', B', C', D', E')) :=
    fold_left (fun v i => swap5 i (rmd_round5 X i v)) (seq 0 5) v in
  map (fun '(x, y) => add32 x y) (combine h [A; B; C; D; E; A'; B'; C'; D'; E']).

Definition rmd_iv : list N := [0x67452301; 0xefcdab89; 0x98badcfe; 0x10325476; 0xc3d2e1f0]%N.
Definition rmd_iv2 : list N := [0x76543210; 0xfedcba98; 0x89abcdef; 0x01234567; 0x3c2d1e0f]%N.

(** MD4-style padding: 0x80, zeros, 64-bit little-endian bit length; little-endian output. *)
Definition rmd_hash (compress : list N -> list N -> list N) (iv m : list N) : list N :=
  concat (map (le_bytes 4)
    (fold_left compress (chunks 64 (md_pad 64 0x80 (le_bytes 8 (8 * N.of_nat (length m))) m)) iv)).
Definition ripemd128_spec := rmd_hash rmd128_compress (firstn 4 rmd_iv).
Definition ripemd160_spec := rmd_hash rmd160_compress rmd_iv.
Definition ripemd256_spec := rmd_hash rmd256_compress (firstn 4 rmd_iv ++ firstn 4 rmd_iv2).
Definition ripemd320_spec := rmd_hash rmd320_compress (rmd_iv ++ rmd_iv2).
