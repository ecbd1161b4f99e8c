(** SknTab.v -- generated by tools/skn.py from /repo/skein512/block.go:12-829.  [skn_inj]: the 19 key injections, word w gets
    k[i] (8 stands for k8) plus nothing, t[j] (2 stands for t2) or a constant.  [skn_mix]: the 18 groups of statements
    x_i += x_j; x_j = (x_j<<r | x_j>>(64-r)) ^ x_i  between them, as triples (i, j, r). *)
From Coq Require Import List NArith.
Require Import Verif.ThreefishTab.
Import ListNotations.
Definition skn_inj : list (list (nat * extra)) := [
  [(0, X0); (1, X0); (2, X0); (3, X0); (4, X0); (5, Xt 0); (6, Xt 1); (7, X0)];
  [(1, X0); (2, X0); (3, X0); (4, X0); (5, X0); (6, Xt 1); (7, Xt 2); (8, Xc 1)];
  [(2, X0); (3, X0); (4, X0); (5, X0); (6, X0); (7, Xt 2); (8, Xt 0); (0, Xc 2)];
  [(3, X0); (4, X0); (5, X0); (6, X0); (7, X0); (8, Xt 0); (0, Xt 1); (1, Xc 3)];
  [(4, X0); (5, X0); (6, X0); (7, X0); (8, X0); (0, Xt 1); (1, Xt 2); (2, Xc 4)];
  [(5, X0); (6, X0); (7, X0); (8, X0); (0, X0); (1, Xt 2); (2, Xt 0); (3, Xc 5)];
  [(6, X0); (7, X0); (8, X0); (0, X0); (1, X0); (2, Xt 0); (3, Xt 1); (4, Xc 6)];
  [(7, X0); (8, X0); (0, X0); (1, X0); (2, X0); (3, Xt 1); (4, Xt 2); (5, Xc 7)];
  [(8, X0); (0, X0); (1, X0); (2, X0); (3, X0); (4, Xt 2); (5, Xt 0); (6, Xc 8)];
  [(0, X0); (1, X0); (2, X0); (3, X0); (4, X0); (5, Xt 0); (6, Xt 1); (7, Xc 9)];
  [(1, X0); (2, X0); (3, X0); (4, X0); (5, X0); (6, Xt 1); (7, Xt 2); (8, Xc 10)];
  [(2, X0); (3, X0); (4, X0); (5, X0); (6, X0); (7, Xt 2); (8, Xt 0); (0, Xc 11)];
  [(3, X0); (4, X0); (5, X0); (6, X0); (7, X0); (8, Xt 0); (0, Xt 1); (1, Xc 12)];
  [(4, X0); (5, X0); (6, X0); (7, X0); (8, X0); (0, Xt 1); (1, Xt 2); (2, Xc 13)];
  [(5, X0); (6, X0); (7, X0); (8, X0); (0, X0); (1, Xt 2); (2, Xt 0); (3, Xc 14)];
  [(6, X0); (7, X0); (8, X0); (0, X0); (1, X0); (2, Xt 0); (3, Xt 1); (4, Xc 15)];
  [(7, X0); (8, X0); (0, X0); (1, X0); (2, X0); (3, Xt 1); (4, Xt 2); (5, Xc 16)];
  [(8, X0); (0, X0); (1, X0); (2, X0); (3, X0); (4, Xt 2); (5, Xt 0); (6, Xc 17)];
  [(0, X0); (1, X0); (2, X0); (3, X0); (4, X0); (5, Xt 0); (6, Xt 1); (7, Xc 18)]].
Definition skn_mix : list (list (nat * nat * N)) := [
  [(0, 1, 46%N); (2, 3, 36%N); (4, 5, 19%N); (6, 7, 37%N); (2, 1, 33%N); (4, 7, 27%N); (6, 5, 14%N); (0, 3, 42%N); (4, 1, 17%N); (6, 3, 49%N); (0, 5, 36%N); (2, 7, 39%N); (6, 1, 44%N); (0, 7, 9%N); (2, 5, 54%N); (4, 3, 56%N)];
  [(0, 1, 39%N); (2, 3, 30%N); (4, 5, 34%N); (6, 7, 24%N); (2, 1, 13%N); (4, 7, 50%N); (6, 5, 10%N); (0, 3, 17%N); (4, 1, 25%N); (6, 3, 29%N); (0, 5, 39%N); (2, 7, 43%N); (6, 1, 8%N); (0, 7, 35%N); (2, 5, 56%N); (4, 3, 22%N)];
  [(0, 1, 46%N); (2, 3, 36%N); (4, 5, 19%N); (6, 7, 37%N); (2, 1, 33%N); (4, 7, 27%N); (6, 5, 14%N); (0, 3, 42%N); (4, 1, 17%N); (6, 3, 49%N); (0, 5, 36%N); (2, 7, 39%N); (6, 1, 44%N); (0, 7, 9%N); (2, 5, 54%N); (4, 3, 56%N)];
  [(0, 1, 39%N); (2, 3, 30%N); (4, 5, 34%N); (6, 7, 24%N); (2, 1, 13%N); (4, 7, 50%N); (6, 5, 10%N); (0, 3, 17%N); (4, 1, 25%N); (6, 3, 29%N); (0, 5, 39%N); (2, 7, 43%N); (6, 1, 8%N); (0, 7, 35%N); (2, 5, 56%N); (4, 3, 22%N)];
  [(0, 1, 46%N); (2, 3, 36%N); (4, 5, 19%N); (6, 7, 37%N); (2, 1, 33%N); (4, 7, 27%N); (6, 5, 14%N); (0, 3, 42%N); (4, 1, 17%N); (6, 3, 49%N); (0, 5, 36%N); (2, 7, 39%N); (6, 1, 44%N); (0, 7, 9%N); (2, 5, 54%N); (4, 3, 56%N)];
  [(0, 1, 39%N); (2, 3, 30%N); (4, 5, 34%N); (6, 7, 24%N); (2, 1, 13%N); (4, 7, 50%N); (6, 5, 10%N); (0, 3, 17%N); (4, 1, 25%N); (6, 3, 29%N); (0, 5, 39%N); (2, 7, 43%N); (6, 1, 8%N); (0, 7, 35%N); (2, 5, 56%N); (4, 3, 22%N)];
  [(0, 1, 46%N); (2, 3, 36%N); (4, 5, 19%N); (6, 7, 37%N); (2, 1, 33%N); (4, 7, 27%N); (6, 5, 14%N); (0, 3, 42%N); (4, 1, 17%N); (6, 3, 49%N); (0, 5, 36%N); (2, 7, 39%N); (6, 1, 44%N); (0, 7, 9%N); (2, 5, 54%N); (4, 3, 56%N)];
  [(0, 1, 39%N); (2, 3, 30%N); (4, 5, 34%N); (6, 7, 24%N); (2, 1, 13%N); (4, 7, 50%N); (6, 5, 10%N); (0, 3, 17%N); (4, 1, 25%N); (6, 3, 29%N); (0, 5, 39%N); (2, 7, 43%N); (6, 1, 8%N); (0, 7, 35%N); (2, 5, 56%N); (4, 3, 22%N)];
  [(0, 1, 46%N); (2, 3, 36%N); (4, 5, 19%N); (6, 7, 37%N); (2, 1, 33%N); (4, 7, 27%N); (6, 5, 14%N); (0, 3, 42%N); (4, 1, 17%N); (6, 3, 49%N); (0, 5, 36%N); (2, 7, 39%N); (6, 1, 44%N); (0, 7, 9%N); (2, 5, 54%N); (4, 3, 56%N)];
  [(0, 1, 39%N); (2, 3, 30%N); (4, 5, 34%N); (6, 7, 24%N); (2, 1, 13%N); (4, 7, 50%N); (6, 5, 10%N); (0, 3, 17%N); (4, 1, 25%N); (6, 3, 29%N); (0, 5, 39%N); (2, 7, 43%N); (6, 1, 8%N); (0, 7, 35%N); (2, 5, 56%N); (4, 3, 22%N)];
  [(0, 1, 46%N); (2, 3, 36%N); (4, 5, 19%N); (6, 7, 37%N); (2, 1, 33%N); (4, 7, 27%N); (6, 5, 14%N); (0, 3, 42%N); (4, 1, 17%N); (6, 3, 49%N); (0, 5, 36%N); (2, 7, 39%N); (6, 1, 44%N); (0, 7, 9%N); (2, 5, 54%N); (4, 3, 56%N)];
  [(0, 1, 39%N); (2, 3, 30%N); (4, 5, 34%N); (6, 7, 24%N); (2, 1, 13%N); (4, 7, 50%N); (6, 5, 10%N); (0, 3, 17%N); (4, 1, 25%N); (6, 3, 29%N); (0, 5, 39%N); (2, 7, 43%N); (6, 1, 8%N); (0, 7, 35%N); (2, 5, 56%N); (4, 3, 22%N)];
  [(0, 1, 46%N); (2, 3, 36%N); (4, 5, 19%N); (6, 7, 37%N); (2, 1, 33%N); (4, 7, 27%N); (6, 5, 14%N); (0, 3, 42%N); (4, 1, 17%N); (6, 3, 49%N); (0, 5, 36%N); (2, 7, 39%N); (6, 1, 44%N); (0, 7, 9%N); (2, 5, 54%N); (4, 3, 56%N)];
  [(0, 1, 39%N); (2, 3, 30%N); (4, 5, 34%N); (6, 7, 24%N); (2, 1, 13%N); (4, 7, 50%N); (6, 5, 10%N); (0, 3, 17%N); (4, 1, 25%N); (6, 3, 29%N); (0, 5, 39%N); (2, 7, 43%N); (6, 1, 8%N); (0, 7, 35%N); (2, 5, 56%N); (4, 3, 22%N)];
  [(0, 1, 46%N); (2, 3, 36%N); (4, 5, 19%N); (6, 7, 37%N); (2, 1, 33%N); (4, 7, 27%N); (6, 5, 14%N); (0, 3, 42%N); (4, 1, 17%N); (6, 3, 49%N); (0, 5, 36%N); (2, 7, 39%N); (6, 1, 44%N); (0, 7, 9%N); (2, 5, 54%N); (4, 3, 56%N)];
  [(0, 1, 39%N); (2, 3, 30%N); (4, 5, 34%N); (6, 7, 24%N); (2, 1, 13%N); (4, 7, 50%N); (6, 5, 10%N); (0, 3, 17%N); (4, 1, 25%N); (6, 3, 29%N); (0, 5, 39%N); (2, 7, 43%N); (6, 1, 8%N); (0, 7, 35%N); (2, 5, 56%N); (4, 3, 22%N)];
  [(0, 1, 46%N); (2, 3, 36%N); (4, 5, 19%N); (6, 7, 37%N); (2, 1, 33%N); (4, 7, 27%N); (6, 5, 14%N); (0, 3, 42%N); (4, 1, 17%N); (6, 3, 49%N); (0, 5, 36%N); (2, 7, 39%N); (6, 1, 44%N); (0, 7, 9%N); (2, 5, 54%N); (4, 3, 56%N)];
  [(0, 1, 39%N); (2, 3, 30%N); (4, 5, 34%N); (6, 7, 24%N); (2, 1, 13%N); (4, 7, 50%N); (6, 5, 10%N); (0, 3, 17%N); (4, 1, 25%N); (6, 3, 29%N); (0, 5, 39%N); (2, 7, 43%N); (6, 1, 8%N); (0, 7, 35%N); (2, 5, 56%N); (4, 3, 22%N)]].
