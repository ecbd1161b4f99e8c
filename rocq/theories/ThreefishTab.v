(** ThreefishTab.v -- generated by tools/tf.py from /repo/skein/threefish/threefish{256,512,1024}_ref.go.
    A triple (i, j, r) stands for the two statements  b_i += b_j;  b_j = rotl(b_j, r) ^ b_i  of the Encrypt functions
    and for  tmp = b_j ^ b_i;  b_j = rotr(tmp, r);  b_i -= b_j  of the Decrypt functions.  The key-injection statements at the
    start of each half of the loop body were checked by the generator to have the form modelled by [tf_inj] in
    Threefish.v; the _fin tables are the injections after the loop: word w gets keys[k] plus nothing, tweak[t] or a constant. *)
From Coq Require Import List NArith.
Import ListNotations.
Inductive extra := X0 | Xt (t : nat) | Xc (c : N).
(** skein/threefish/threefish256_ref.go:47-110 Encrypt256; loop header: forr:=0;r<17;r++{; second half after r++ *)
Definition tf256_enc_a : list (nat * nat * N) := [
  (0, 1, 14%N); (2, 3, 16%N);
  (0, 3, 52%N); (2, 1, 57%N);
  (0, 1, 23%N); (2, 3, 40%N);
  (0, 3, 5%N); (2, 1, 37%N)].
Definition tf256_enc_b : list (nat * nat * N) := [
  (0, 1, 25%N); (2, 3, 33%N);
  (0, 3, 46%N); (2, 1, 12%N);
  (0, 1, 58%N); (2, 3, 22%N);
  (0, 3, 32%N); (2, 1, 32%N)].
Definition tf256_enc_fin : list (nat * extra) := [
  (3, X0); (4, Xt 0); (0, Xt 1); (1, Xc 18)].
(** skein/threefish/threefish256_ref.go:115-195 Decrypt256; loop header: forr:=18;r>1;r--{; second half after r-- *)
Definition tf256_dec_a : list (nat * nat * N) := [
  (2, 1, 32%N); (0, 3, 32%N);
  (2, 3, 22%N); (0, 1, 58%N);
  (2, 1, 12%N); (0, 3, 46%N);
  (2, 3, 33%N); (0, 1, 25%N)].
Definition tf256_dec_b : list (nat * nat * N) := [
  (2, 1, 37%N); (0, 3, 5%N);
  (2, 3, 40%N); (0, 1, 23%N);
  (2, 1, 57%N); (0, 3, 52%N);
  (2, 3, 16%N); (0, 1, 14%N)].
Definition tf256_dec_fin : list (nat * extra) := [
  (0, X0); (1, Xt 0); (2, Xt 1); (3, X0)].
(** skein/threefish/threefish512_ref.go:47-156 Encrypt512; loop header: forr:=0;r<17;r++{; second half after r++ *)
Definition tf512_enc_a : list (nat * nat * N) := [
  (0, 1, 46%N); (2, 3, 36%N); (4, 5, 19%N); (6, 7, 37%N);
  (2, 1, 33%N); (4, 7, 27%N); (6, 5, 14%N); (0, 3, 42%N);
  (4, 1, 17%N); (6, 3, 49%N); (0, 5, 36%N); (2, 7, 39%N);
  (6, 1, 44%N); (0, 7, 9%N); (2, 5, 54%N); (4, 3, 56%N)].
Definition tf512_enc_b : list (nat * nat * N) := [
  (0, 1, 39%N); (2, 3, 30%N); (4, 5, 34%N); (6, 7, 24%N);
  (2, 1, 13%N); (4, 7, 50%N); (6, 5, 10%N); (0, 3, 17%N);
  (4, 1, 25%N); (6, 3, 29%N); (0, 5, 39%N); (2, 7, 43%N);
  (6, 1, 8%N); (0, 7, 35%N); (2, 5, 56%N); (4, 3, 22%N)].
Definition tf512_enc_fin : list (nat * extra) := [
  (0, X0); (1, X0); (2, X0); (3, X0); (4, X0); (5, Xt 0); (6, Xt 1); (7, Xc 18)].
(** skein/threefish/threefish512_ref.go:161-303 Decrypt512; loop header: forr:=18;r>1;r--{; second half after r-- *)
Definition tf512_dec_a : list (nat * nat * N) := [
  (4, 3, 22%N); (2, 5, 56%N); (0, 7, 35%N); (6, 1, 8%N);
  (2, 7, 43%N); (0, 5, 39%N); (6, 3, 29%N); (4, 1, 25%N);
  (0, 3, 17%N); (6, 5, 10%N); (4, 7, 50%N); (2, 1, 13%N);
  (6, 7, 24%N); (4, 5, 34%N); (2, 3, 30%N); (0, 1, 39%N)].
Definition tf512_dec_b : list (nat * nat * N) := [
  (4, 3, 56%N); (2, 5, 54%N); (0, 7, 9%N); (6, 1, 44%N);
  (2, 7, 39%N); (0, 5, 36%N); (6, 3, 49%N); (4, 1, 17%N);
  (0, 3, 42%N); (6, 5, 14%N); (4, 7, 27%N); (2, 1, 33%N);
  (6, 7, 37%N); (4, 5, 19%N); (2, 3, 36%N); (0, 1, 46%N)].
Definition tf512_dec_fin : list (nat * extra) := [
  (0, X0); (1, X0); (2, X0); (3, X0); (4, X0); (5, Xt 0); (6, Xt 1); (7, X0)].
(** skein/threefish/threefish1024_ref.go:48-249 Encrypt1024; loop header: forr:=0;r<19;r++{; second half after r++ *)
Definition tf1024_enc_a : list (nat * nat * N) := [
  (0, 1, 24%N); (2, 3, 13%N); (4, 5, 8%N); (6, 7, 47%N); (8, 9, 8%N); (10, 11, 17%N); (12, 13, 22%N); (14, 15, 37%N);
  (0, 9, 38%N); (2, 13, 19%N); (6, 11, 10%N); (4, 15, 55%N); (10, 7, 49%N); (12, 3, 18%N); (14, 5, 23%N); (8, 1, 52%N);
  (0, 7, 33%N); (2, 5, 4%N); (4, 3, 51%N); (6, 1, 13%N); (12, 15, 34%N); (14, 13, 41%N); (8, 11, 59%N); (10, 9, 17%N);
  (0, 15, 5%N); (2, 11, 20%N); (6, 13, 48%N); (4, 9, 41%N); (14, 1, 47%N); (8, 5, 28%N); (10, 3, 16%N); (12, 7, 25%N)].
Definition tf1024_enc_b : list (nat * nat * N) := [
  (0, 1, 41%N); (2, 3, 9%N); (4, 5, 37%N); (6, 7, 31%N); (8, 9, 12%N); (10, 11, 47%N); (12, 13, 44%N); (14, 15, 30%N);
  (0, 9, 16%N); (2, 13, 34%N); (6, 11, 56%N); (4, 15, 51%N); (10, 7, 4%N); (12, 3, 53%N); (14, 5, 42%N); (8, 1, 41%N);
  (0, 7, 31%N); (2, 5, 44%N); (4, 3, 47%N); (6, 1, 46%N); (12, 15, 19%N); (14, 13, 42%N); (8, 11, 44%N); (10, 9, 25%N);
  (0, 15, 9%N); (2, 11, 48%N); (6, 13, 35%N); (4, 9, 52%N); (14, 1, 23%N); (8, 5, 31%N); (10, 3, 37%N); (12, 7, 20%N)].
Definition tf1024_enc_fin : list (nat * extra) := [
  (3, X0); (4, X0); (5, X0); (6, X0); (7, X0); (8, X0); (9, X0); (10, X0); (11, X0); (12, X0); (13, X0); (14, X0); (15, X0); (16, Xt 2); (0, Xt 0); (1, Xc 20)].
(** skein/threefish/threefish1024_ref.go:254-520 Decrypt1024; loop header: forr:=20;r>1;r--{; second half after r-- *)
Definition tf1024_dec_a : list (nat * nat * N) := [
  (12, 7, 20%N); (10, 3, 37%N); (8, 5, 31%N); (14, 1, 23%N); (4, 9, 52%N); (6, 13, 35%N); (2, 11, 48%N); (0, 15, 9%N);
  (10, 9, 25%N); (8, 11, 44%N); (14, 13, 42%N); (12, 15, 19%N); (6, 1, 46%N); (4, 3, 47%N); (2, 5, 44%N); (0, 7, 31%N);
  (8, 1, 41%N); (14, 5, 42%N); (12, 3, 53%N); (10, 7, 4%N); (4, 15, 51%N); (6, 11, 56%N); (2, 13, 34%N); (0, 9, 16%N);
  (14, 15, 30%N); (12, 13, 44%N); (10, 11, 47%N); (8, 9, 12%N); (6, 7, 31%N); (4, 5, 37%N); (2, 3, 9%N); (0, 1, 41%N)].
Definition tf1024_dec_b : list (nat * nat * N) := [
  (12, 7, 25%N); (10, 3, 16%N); (8, 5, 28%N); (14, 1, 47%N); (4, 9, 41%N); (6, 13, 48%N); (2, 11, 20%N); (0, 15, 5%N);
  (10, 9, 17%N); (8, 11, 59%N); (14, 13, 41%N); (12, 15, 34%N); (6, 1, 13%N); (4, 3, 51%N); (2, 5, 4%N); (0, 7, 33%N);
  (8, 1, 52%N); (14, 5, 23%N); (12, 3, 18%N); (10, 7, 49%N); (4, 15, 55%N); (6, 11, 10%N); (2, 13, 19%N); (0, 9, 38%N);
  (14, 15, 37%N); (12, 13, 22%N); (10, 11, 17%N); (8, 9, 8%N); (6, 7, 47%N); (4, 5, 8%N); (2, 3, 13%N); (0, 1, 24%N)].
Definition tf1024_dec_fin : list (nat * extra) := [
  (0, X0); (1, X0); (2, X0); (3, X0); (4, X0); (5, X0); (6, X0); (7, X0); (8, X0); (9, X0); (10, X0); (11, X0); (12, X0); (13, Xt 0); (14, Xt 1); (15, X0)].
