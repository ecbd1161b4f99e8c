(** SkeinsTab.v -- generated from /repo/skeins/digest256.go:143-526 and digest512.go:158-238: the statements of the two ubi methods, in order.
    [SInj j h e]: p_j += h_h (+ e); [SMix a b r]: p_a += p_b; p_b = (p_b << r) ^ (p_b >> (64 - r)) ^ p_a. *)
From Coq Require Import List NArith.
Import ListNotations.
Inductive ext := S0 | St (i : nat) | Sc (c : N).
Inductive ins := SInj (j h : nat) (e : ext) | SMix (a b : nat) (r : N).
Definition prog256 : list ins := [
  SInj 0 0 (S0); SInj 1 1 (St 0); SInj 2 2 (St 1); SInj 3 3 (Sc 0); SMix 0 1 14; SMix 2 3 16;
  SMix 0 3 52; SMix 2 1 57; SMix 0 1 23; SMix 2 3 40; SMix 0 3 5; SMix 2 1 37;
  SInj 0 1 (S0); SInj 1 2 (St 1); SInj 2 3 (St 2); SInj 3 4 (Sc 1); SMix 0 1 25; SMix 2 3 33;
  SMix 0 3 46; SMix 2 1 12; SMix 0 1 58; SMix 2 3 22; SMix 0 3 32; SMix 2 1 32;
  SInj 0 2 (S0); SInj 1 3 (St 2); SInj 2 4 (St 0); SInj 3 0 (Sc 2); SMix 0 1 14; SMix 2 3 16;
  SMix 0 3 52; SMix 2 1 57; SMix 0 1 23; SMix 2 3 40; SMix 0 3 5; SMix 2 1 37;
  SInj 0 3 (S0); SInj 1 4 (St 0); SInj 2 0 (St 1); SInj 3 1 (Sc 3); SMix 0 1 25; SMix 2 3 33;
  SMix 0 3 46; SMix 2 1 12; SMix 0 1 58; SMix 2 3 22; SMix 0 3 32; SMix 2 1 32;
  SInj 0 4 (S0); SInj 1 0 (St 1); SInj 2 1 (St 2); SInj 3 2 (Sc 4); SMix 0 1 14; SMix 2 3 16;
  SMix 0 3 52; SMix 2 1 57; SMix 0 1 23; SMix 2 3 40; SMix 0 3 5; SMix 2 1 37;
  SInj 0 0 (S0); SInj 1 1 (St 2); SInj 2 2 (St 0); SInj 3 3 (Sc 5); SMix 0 1 25; SMix 2 3 33;
  SMix 0 3 46; SMix 2 1 12; SMix 0 1 58; SMix 2 3 22; SMix 0 3 32; SMix 2 1 32;
  SInj 0 1 (S0); SInj 1 2 (St 0); SInj 2 3 (St 1); SInj 3 4 (Sc 6); SMix 0 1 14; SMix 2 3 16;
  SMix 0 3 52; SMix 2 1 57; SMix 0 1 23; SMix 2 3 40; SMix 0 3 5; SMix 2 1 37;
  SInj 0 2 (S0); SInj 1 3 (St 1); SInj 2 4 (St 2); SInj 3 0 (Sc 7); SMix 0 1 25; SMix 2 3 33;
  SMix 0 3 46; SMix 2 1 12; SMix 0 1 58; SMix 2 3 22; SMix 0 3 32; SMix 2 1 32;
  SInj 0 3 (S0); SInj 1 4 (St 2); SInj 2 0 (St 0); SInj 3 1 (Sc 8); SMix 0 1 14; SMix 2 3 16;
  SMix 0 3 52; SMix 2 1 57; SMix 0 1 23; SMix 2 3 40; SMix 0 3 5; SMix 2 1 37;
  SInj 0 4 (S0); SInj 1 0 (St 0); SInj 2 1 (St 1); SInj 3 2 (Sc 9); SMix 0 1 25; SMix 2 3 33;
  SMix 0 3 46; SMix 2 1 12; SMix 0 1 58; SMix 2 3 22; SMix 0 3 32; SMix 2 1 32;
  SInj 0 0 (S0); SInj 1 1 (St 1); SInj 2 2 (St 2); SInj 3 3 (Sc 10); SMix 0 1 14; SMix 2 3 16;
  SMix 0 3 52; SMix 2 1 57; SMix 0 1 23; SMix 2 3 40; SMix 0 3 5; SMix 2 1 37;
  SInj 0 1 (S0); SInj 1 2 (St 2); SInj 2 3 (St 0); SInj 3 4 (Sc 11); SMix 0 1 25; SMix 2 3 33;
  SMix 0 3 46; SMix 2 1 12; SMix 0 1 58; SMix 2 3 22; SMix 0 3 32; SMix 2 1 32;
  SInj 0 2 (S0); SInj 1 3 (St 0); SInj 2 4 (St 1); SInj 3 0 (Sc 12); SMix 0 1 14; SMix 2 3 16;
  SMix 0 3 52; SMix 2 1 57; SMix 0 1 23; SMix 2 3 40; SMix 0 3 5; SMix 2 1 37;
  SInj 0 3 (S0); SInj 1 4 (St 1); SInj 2 0 (St 2); SInj 3 1 (Sc 13); SMix 0 1 25; SMix 2 3 33;
  SMix 0 3 46; SMix 2 1 12; SMix 0 1 58; SMix 2 3 22; SMix 0 3 32; SMix 2 1 32;
  SInj 0 4 (S0); SInj 1 0 (St 2); SInj 2 1 (St 0); SInj 3 2 (Sc 14); SMix 0 1 14; SMix 2 3 16;
  SMix 0 3 52; SMix 2 1 57; SMix 0 1 23; SMix 2 3 40; SMix 0 3 5; SMix 2 1 37;
  SInj 0 0 (S0); SInj 1 1 (St 0); SInj 2 2 (St 1); SInj 3 3 (Sc 15); SMix 0 1 25; SMix 2 3 33;
  SMix 0 3 46; SMix 2 1 12; SMix 0 1 58; SMix 2 3 22; SMix 0 3 32; SMix 2 1 32;
  SInj 0 1 (S0); SInj 1 2 (St 1); SInj 2 3 (St 2); SInj 3 4 (Sc 16); SMix 0 1 14; SMix 2 3 16;
  SMix 0 3 52; SMix 2 1 57; SMix 0 1 23; SMix 2 3 40; SMix 0 3 5; SMix 2 1 37;
  SInj 0 2 (S0); SInj 1 3 (St 2); SInj 2 4 (St 0); SInj 3 0 (Sc 17); SMix 0 1 25; SMix 2 3 33;
  SMix 0 3 46; SMix 2 1 12; SMix 0 1 58; SMix 2 3 22; SMix 0 3 32; SMix 2 1 32;
  SInj 0 3 (S0); SInj 1 4 (St 0); SInj 2 0 (St 1); SInj 3 1 (Sc 18)].
(** the body of the loop of digest512.go; [SInj j i e] is p_j += h[s+i] + e, where [Sc c] stands for uint64(s) + c *)
Definition prog512 : list ins := [
  SInj 0 0 (S0); SInj 1 1 (S0); SInj 2 2 (S0); SInj 3 3 (S0); SInj 4 4 (S0); SInj 5 5 (St 0);
  SInj 6 6 (St 1); SInj 7 7 (Sc 0); SMix 0 1 46; SMix 2 3 36; SMix 4 5 19; SMix 6 7 37;
  SMix 2 1 33; SMix 4 7 27; SMix 6 5 14; SMix 0 3 42; SMix 4 1 17; SMix 6 3 49;
  SMix 0 5 36; SMix 2 7 39; SMix 6 1 44; SMix 0 7 9; SMix 2 5 54; SMix 4 3 56;
  SInj 0 1 (S0); SInj 1 2 (S0); SInj 2 3 (S0); SInj 3 4 (S0); SInj 4 5 (S0); SInj 5 6 (St 1);
  SInj 6 7 (St 2); SInj 7 8 (Sc 1); SMix 0 1 39; SMix 2 3 30; SMix 4 5 34; SMix 6 7 24;
  SMix 2 1 13; SMix 4 7 50; SMix 6 5 10; SMix 0 3 17; SMix 4 1 25; SMix 6 3 29;
  SMix 0 5 39; SMix 2 7 43; SMix 6 1 8; SMix 0 7 35; SMix 2 5 56; SMix 4 3 22].
