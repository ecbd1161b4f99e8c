(** SpecBash.v -- the bash hash functions, written from STB 34.101.77 / eprint 2016/587, independently of the code:
    64-bit words are little-endian, the rotation numbers and the round constants are generated as in the standard. *)
From Coq Require Import List NArith Arith Bool.
From Verif Require Import Base.
Import ListNotations.

(** Algorithm bash-s on three words. *)
Definition bash_s (m1 n1 m2 n2 : N) (w : N * N * N) : N * N * N :=
  let '(w0, w1, w2) := w in
  let t0 := rotl64 w0 m1 in
  let w0 := N.lxor (N.lxor w0 w1) w2 in
  let t1 := N.lxor w1 (rotl64 w0 n1) in
  let w1 := N.lxor t0 t1 in
  let w2 := N.lxor (N.lxor w2 (rotl64 w2 m2)) (rotl64 t1 n2) in
  (N.lxor w0 (N.lor (not64 w2) w1), N.lxor w1 (N.lor w0 w2), N.lxor w2 (N.land w0 w1)).

(** The rotation numbers of column j: (8, 53, 14, 1) times 7^j modulo 64. *)
Definition bash_rots (j : nat) : list N := map (fun x => x * 7 ^ N.of_nat j mod 64)%N [8; 53; 14; 1]%N.

(** The round constants: a linear recurrence started from the octets B194BAC80A08F53B. *)
Definition bash_next (c : N) : N := if N.testbit c 0 then N.lxor (N.shiftr c 1) 0xDC2BE1997FE0D8AE else N.shiftr c 1.
Definition bash_const (i : nat) : N := Nat.iter i bash_next 0x3BF5080AC8BA94B1%N.

(** Word k of the permuted state is word [bash_pi k] of the old one. *)
Definition bash_pi : list nat := [15; 10; 9; 12; 11; 14; 13; 8; 17; 16; 19; 18; 21; 20; 23; 22; 6; 3; 0; 5; 2; 7; 4; 1].

Definition bash_column (S : list N) (j : nat) : list N :=
  let r := bash_rots j in
  let '(a, b, c) := bash_s (at_ r 0) (at_ r 1) (at_ r 2) (at_ r 3) (at_ S j, at_ S (8 + j), at_ S (16 + j)) in
  upd (upd (upd S j a) (8 + j) b) (16 + j) c.
Definition bash_round (S : list N) (i : nat) : list N :=
  let S := fold_left bash_column (seq 0 8) S in
  let S := map (at_ S) bash_pi in
  upd S 23 (N.lxor (at_ S 23) (bash_const i)).
Definition bash_f (S : list N) : list N := fold_left bash_round (seq 0 24) S.

Definition bash_words (b : list N) : list N := map le_val (chunks 8 b).
Definition bash_bytes (S : list N) : list N := concat (map (le_bytes 8) S).

(** Hash size hs bytes; a block has 192 - 2 hs bytes. *)
Definition bash_rate (hs : nat) : nat := 192 - 2 * hs.
Definition bash_init (hs : nat) : list N := zeros 23 ++ [N.of_nat hs].
(** The message followed by 0x40 and zeros, up to a whole number of blocks. *)
Definition bash_pad (hs : nat) (m : list N) : list N :=
  m ++ [64%N] ++ zeros (bash_rate hs - 1 - length m mod bash_rate hs).

(** Overwriting (STB 34.101.77): the block replaces the first 1536 - 4l bits of the state. *)
Definition bash_over (hs : nat) (S X : list N) : list N :=
  bash_f (bash_words (X ++ skipn (bash_rate hs) (bash_bytes S))).
Definition bash_std (hs : nat) (m : list N) : list N :=
  firstn hs (bash_bytes (fold_left (bash_over hs) (chunks (bash_rate hs) (bash_pad hs m)) (bash_init hs))).

(** The same with xor instead of overwriting (the usual sponge). *)
Definition bash_xor (hs : nat) (S X : list N) : list N :=
  bash_f (map (fun i => N.lxor (at_ S i) (at_ (bash_words (X ++ zeros (2 * hs))) i)) (seq 0 24)).
Definition bash_sponge (hs : nat) (m : list N) : list N :=
  firstn hs (bash_bytes (fold_left (bash_xor hs) (chunks (bash_rate hs) (bash_pad hs m)) (bash_init hs))).
