(** Generated by tools/goexpr.py from the assignments of the unrolled compression function bmw/digest256.go:128-184: bmw_q i m h q is the right-hand side assigned to q[i], bmw_xl, bmw_xh and bmw_h i those of xl, xh and h[i] (the right-hand sides of h[8..15] read the new h[0..7]). *)
From Coq Require Import List NArith.
Require Import Verif.Base.
Import ListNotations.

(** bmw/digest256.go:132 *)
Definition bmw_q0 (m h q : list N) : N := (add32 (N.lxor (N.lxor (N.lxor (N.shiftr (add32 (add32 (add32 (sub32 (N.lxor (at_ m 5) (at_ h 5)) (N.lxor (at_ m 7) (at_ h 7))) (N.lxor (at_ m 10) (at_ h 10))) (N.lxor (at_ m 13) (at_ h 13))) (N.lxor (at_ m 14) (at_ h 14))) 1%N) (shl32 (add32 (add32 (add32 (sub32 (N.lxor (at_ m 5) (at_ h 5)) (N.lxor (at_ m 7) (at_ h 7))) (N.lxor (at_ m 10) (at_ h 10))) (N.lxor (at_ m 13) (at_ h 13))) (N.lxor (at_ m 14) (at_ h 14))) 3%N)) (rotl32 (add32 (add32 (add32 (sub32 (N.lxor (at_ m 5) (at_ h 5)) (N.lxor (at_ m 7) (at_ h 7))) (N.lxor (at_ m 10) (at_ h 10))) (N.lxor (at_ m 13) (at_ h 13))) (N.lxor (at_ m 14) (at_ h 14))) 4%N)) (rotl32 (add32 (add32 (add32 (sub32 (N.lxor (at_ m 5) (at_ h 5)) (N.lxor (at_ m 7) (at_ h 7))) (N.lxor (at_ m 10) (at_ h 10))) (N.lxor (at_ m 13) (at_ h 13))) (N.lxor (at_ m 14) (at_ h 14))) 19%N)) (at_ h 1)).
(** bmw/digest256.go:133 *)
Definition bmw_q1 (m h q : list N) : N := (add32 (N.lxor (N.lxor (N.lxor (N.shiftr (sub32 (add32 (add32 (sub32 (N.lxor (at_ m 6) (at_ h 6)) (N.lxor (at_ m 8) (at_ h 8))) (N.lxor (at_ m 11) (at_ h 11))) (N.lxor (at_ m 14) (at_ h 14))) (N.lxor (at_ m 15) (at_ h 15))) 1%N) (shl32 (sub32 (add32 (add32 (sub32 (N.lxor (at_ m 6) (at_ h 6)) (N.lxor (at_ m 8) (at_ h 8))) (N.lxor (at_ m 11) (at_ h 11))) (N.lxor (at_ m 14) (at_ h 14))) (N.lxor (at_ m 15) (at_ h 15))) 2%N)) (rotl32 (sub32 (add32 (add32 (sub32 (N.lxor (at_ m 6) (at_ h 6)) (N.lxor (at_ m 8) (at_ h 8))) (N.lxor (at_ m 11) (at_ h 11))) (N.lxor (at_ m 14) (at_ h 14))) (N.lxor (at_ m 15) (at_ h 15))) 8%N)) (rotl32 (sub32 (add32 (add32 (sub32 (N.lxor (at_ m 6) (at_ h 6)) (N.lxor (at_ m 8) (at_ h 8))) (N.lxor (at_ m 11) (at_ h 11))) (N.lxor (at_ m 14) (at_ h 14))) (N.lxor (at_ m 15) (at_ h 15))) 23%N)) (at_ h 2)).
(** bmw/digest256.go:134 *)
Definition bmw_q2 (m h q : list N) : N := (add32 (N.lxor (N.lxor (N.lxor (N.shiftr (add32 (sub32 (add32 (add32 (N.lxor (at_ m 0) (at_ h 0)) (N.lxor (at_ m 7) (at_ h 7))) (N.lxor (at_ m 9) (at_ h 9))) (N.lxor (at_ m 12) (at_ h 12))) (N.lxor (at_ m 15) (at_ h 15))) 2%N) (shl32 (add32 (sub32 (add32 (add32 (N.lxor (at_ m 0) (at_ h 0)) (N.lxor (at_ m 7) (at_ h 7))) (N.lxor (at_ m 9) (at_ h 9))) (N.lxor (at_ m 12) (at_ h 12))) (N.lxor (at_ m 15) (at_ h 15))) 1%N)) (rotl32 (add32 (sub32 (add32 (add32 (N.lxor (at_ m 0) (at_ h 0)) (N.lxor (at_ m 7) (at_ h 7))) (N.lxor (at_ m 9) (at_ h 9))) (N.lxor (at_ m 12) (at_ h 12))) (N.lxor (at_ m 15) (at_ h 15))) 12%N)) (rotl32 (add32 (sub32 (add32 (add32 (N.lxor (at_ m 0) (at_ h 0)) (N.lxor (at_ m 7) (at_ h 7))) (N.lxor (at_ m 9) (at_ h 9))) (N.lxor (at_ m 12) (at_ h 12))) (N.lxor (at_ m 15) (at_ h 15))) 25%N)) (at_ h 3)).
(** bmw/digest256.go:135 *)
Definition bmw_q3 (m h q : list N) : N := (add32 (N.lxor (N.lxor (N.lxor (N.shiftr (add32 (sub32 (add32 (sub32 (N.lxor (at_ m 0) (at_ h 0)) (N.lxor (at_ m 1) (at_ h 1))) (N.lxor (at_ m 8) (at_ h 8))) (N.lxor (at_ m 10) (at_ h 10))) (N.lxor (at_ m 13) (at_ h 13))) 2%N) (shl32 (add32 (sub32 (add32 (sub32 (N.lxor (at_ m 0) (at_ h 0)) (N.lxor (at_ m 1) (at_ h 1))) (N.lxor (at_ m 8) (at_ h 8))) (N.lxor (at_ m 10) (at_ h 10))) (N.lxor (at_ m 13) (at_ h 13))) 2%N)) (rotl32 (add32 (sub32 (add32 (sub32 (N.lxor (at_ m 0) (at_ h 0)) (N.lxor (at_ m 1) (at_ h 1))) (N.lxor (at_ m 8) (at_ h 8))) (N.lxor (at_ m 10) (at_ h 10))) (N.lxor (at_ m 13) (at_ h 13))) 15%N)) (rotl32 (add32 (sub32 (add32 (sub32 (N.lxor (at_ m 0) (at_ h 0)) (N.lxor (at_ m 1) (at_ h 1))) (N.lxor (at_ m 8) (at_ h 8))) (N.lxor (at_ m 10) (at_ h 10))) (N.lxor (at_ m 13) (at_ h 13))) 29%N)) (at_ h 4)).
(** bmw/digest256.go:136 *)
Definition bmw_q4 (m h q : list N) : N := (add32 (N.lxor (N.shiftr (sub32 (sub32 (add32 (add32 (N.lxor (at_ m 1) (at_ h 1)) (N.lxor (at_ m 2) (at_ h 2))) (N.lxor (at_ m 9) (at_ h 9))) (N.lxor (at_ m 11) (at_ h 11))) (N.lxor (at_ m 14) (at_ h 14))) 1%N) (sub32 (sub32 (add32 (add32 (N.lxor (at_ m 1) (at_ h 1)) (N.lxor (at_ m 2) (at_ h 2))) (N.lxor (at_ m 9) (at_ h 9))) (N.lxor (at_ m 11) (at_ h 11))) (N.lxor (at_ m 14) (at_ h 14)))) (at_ h 5)).
(** bmw/digest256.go:137 *)
Definition bmw_q5 (m h q : list N) : N := (add32 (N.lxor (N.lxor (N.lxor (N.shiftr (add32 (sub32 (add32 (sub32 (N.lxor (at_ m 3) (at_ h 3)) (N.lxor (at_ m 2) (at_ h 2))) (N.lxor (at_ m 10) (at_ h 10))) (N.lxor (at_ m 12) (at_ h 12))) (N.lxor (at_ m 15) (at_ h 15))) 1%N) (shl32 (add32 (sub32 (add32 (sub32 (N.lxor (at_ m 3) (at_ h 3)) (N.lxor (at_ m 2) (at_ h 2))) (N.lxor (at_ m 10) (at_ h 10))) (N.lxor (at_ m 12) (at_ h 12))) (N.lxor (at_ m 15) (at_ h 15))) 3%N)) (rotl32 (add32 (sub32 (add32 (sub32 (N.lxor (at_ m 3) (at_ h 3)) (N.lxor (at_ m 2) (at_ h 2))) (N.lxor (at_ m 10) (at_ h 10))) (N.lxor (at_ m 12) (at_ h 12))) (N.lxor (at_ m 15) (at_ h 15))) 4%N)) (rotl32 (add32 (sub32 (add32 (sub32 (N.lxor (at_ m 3) (at_ h 3)) (N.lxor (at_ m 2) (at_ h 2))) (N.lxor (at_ m 10) (at_ h 10))) (N.lxor (at_ m 12) (at_ h 12))) (N.lxor (at_ m 15) (at_ h 15))) 19%N)) (at_ h 6)).
(** bmw/digest256.go:138 *)
Definition bmw_q6 (m h q : list N) : N := (add32 (N.lxor (N.lxor (N.lxor (N.shiftr (add32 (sub32 (sub32 (sub32 (N.lxor (at_ m 4) (at_ h 4)) (N.lxor (at_ m 0) (at_ h 0))) (N.lxor (at_ m 3) (at_ h 3))) (N.lxor (at_ m 11) (at_ h 11))) (N.lxor (at_ m 13) (at_ h 13))) 1%N) (shl32 (add32 (sub32 (sub32 (sub32 (N.lxor (at_ m 4) (at_ h 4)) (N.lxor (at_ m 0) (at_ h 0))) (N.lxor (at_ m 3) (at_ h 3))) (N.lxor (at_ m 11) (at_ h 11))) (N.lxor (at_ m 13) (at_ h 13))) 2%N)) (rotl32 (add32 (sub32 (sub32 (sub32 (N.lxor (at_ m 4) (at_ h 4)) (N.lxor (at_ m 0) (at_ h 0))) (N.lxor (at_ m 3) (at_ h 3))) (N.lxor (at_ m 11) (at_ h 11))) (N.lxor (at_ m 13) (at_ h 13))) 8%N)) (rotl32 (add32 (sub32 (sub32 (sub32 (N.lxor (at_ m 4) (at_ h 4)) (N.lxor (at_ m 0) (at_ h 0))) (N.lxor (at_ m 3) (at_ h 3))) (N.lxor (at_ m 11) (at_ h 11))) (N.lxor (at_ m 13) (at_ h 13))) 23%N)) (at_ h 7)).
(** bmw/digest256.go:139 *)
Definition bmw_q7 (m h q : list N) : N := (add32 (N.lxor (N.lxor (N.lxor (N.shiftr (sub32 (sub32 (sub32 (sub32 (N.lxor (at_ m 1) (at_ h 1)) (N.lxor (at_ m 4) (at_ h 4))) (N.lxor (at_ m 5) (at_ h 5))) (N.lxor (at_ m 12) (at_ h 12))) (N.lxor (at_ m 14) (at_ h 14))) 2%N) (shl32 (sub32 (sub32 (sub32 (sub32 (N.lxor (at_ m 1) (at_ h 1)) (N.lxor (at_ m 4) (at_ h 4))) (N.lxor (at_ m 5) (at_ h 5))) (N.lxor (at_ m 12) (at_ h 12))) (N.lxor (at_ m 14) (at_ h 14))) 1%N)) (rotl32 (sub32 (sub32 (sub32 (sub32 (N.lxor (at_ m 1) (at_ h 1)) (N.lxor (at_ m 4) (at_ h 4))) (N.lxor (at_ m 5) (at_ h 5))) (N.lxor (at_ m 12) (at_ h 12))) (N.lxor (at_ m 14) (at_ h 14))) 12%N)) (rotl32 (sub32 (sub32 (sub32 (sub32 (N.lxor (at_ m 1) (at_ h 1)) (N.lxor (at_ m 4) (at_ h 4))) (N.lxor (at_ m 5) (at_ h 5))) (N.lxor (at_ m 12) (at_ h 12))) (N.lxor (at_ m 14) (at_ h 14))) 25%N)) (at_ h 8)).
(** bmw/digest256.go:140 *)
Definition bmw_q8 (m h q : list N) : N := (add32 (N.lxor (N.lxor (N.lxor (N.shiftr (sub32 (add32 (sub32 (sub32 (N.lxor (at_ m 2) (at_ h 2)) (N.lxor (at_ m 5) (at_ h 5))) (N.lxor (at_ m 6) (at_ h 6))) (N.lxor (at_ m 13) (at_ h 13))) (N.lxor (at_ m 15) (at_ h 15))) 2%N) (shl32 (sub32 (add32 (sub32 (sub32 (N.lxor (at_ m 2) (at_ h 2)) (N.lxor (at_ m 5) (at_ h 5))) (N.lxor (at_ m 6) (at_ h 6))) (N.lxor (at_ m 13) (at_ h 13))) (N.lxor (at_ m 15) (at_ h 15))) 2%N)) (rotl32 (sub32 (add32 (sub32 (sub32 (N.lxor (at_ m 2) (at_ h 2)) (N.lxor (at_ m 5) (at_ h 5))) (N.lxor (at_ m 6) (at_ h 6))) (N.lxor (at_ m 13) (at_ h 13))) (N.lxor (at_ m 15) (at_ h 15))) 15%N)) (rotl32 (sub32 (add32 (sub32 (sub32 (N.lxor (at_ m 2) (at_ h 2)) (N.lxor (at_ m 5) (at_ h 5))) (N.lxor (at_ m 6) (at_ h 6))) (N.lxor (at_ m 13) (at_ h 13))) (N.lxor (at_ m 15) (at_ h 15))) 29%N)) (at_ h 9)).
(** bmw/digest256.go:141 *)
Definition bmw_q9 (m h q : list N) : N := (add32 (N.lxor (N.shiftr (add32 (sub32 (add32 (sub32 (N.lxor (at_ m 0) (at_ h 0)) (N.lxor (at_ m 3) (at_ h 3))) (N.lxor (at_ m 6) (at_ h 6))) (N.lxor (at_ m 7) (at_ h 7))) (N.lxor (at_ m 14) (at_ h 14))) 1%N) (add32 (sub32 (add32 (sub32 (N.lxor (at_ m 0) (at_ h 0)) (N.lxor (at_ m 3) (at_ h 3))) (N.lxor (at_ m 6) (at_ h 6))) (N.lxor (at_ m 7) (at_ h 7))) (N.lxor (at_ m 14) (at_ h 14)))) (at_ h 10)).
(** bmw/digest256.go:142 *)
Definition bmw_q10 (m h q : list N) : N := (add32 (N.lxor (N.lxor (N.lxor (N.shiftr (add32 (sub32 (sub32 (sub32 (N.lxor (at_ m 8) (at_ h 8)) (N.lxor (at_ m 1) (at_ h 1))) (N.lxor (at_ m 4) (at_ h 4))) (N.lxor (at_ m 7) (at_ h 7))) (N.lxor (at_ m 15) (at_ h 15))) 1%N) (shl32 (add32 (sub32 (sub32 (sub32 (N.lxor (at_ m 8) (at_ h 8)) (N.lxor (at_ m 1) (at_ h 1))) (N.lxor (at_ m 4) (at_ h 4))) (N.lxor (at_ m 7) (at_ h 7))) (N.lxor (at_ m 15) (at_ h 15))) 3%N)) (rotl32 (add32 (sub32 (sub32 (sub32 (N.lxor (at_ m 8) (at_ h 8)) (N.lxor (at_ m 1) (at_ h 1))) (N.lxor (at_ m 4) (at_ h 4))) (N.lxor (at_ m 7) (at_ h 7))) (N.lxor (at_ m 15) (at_ h 15))) 4%N)) (rotl32 (add32 (sub32 (sub32 (sub32 (N.lxor (at_ m 8) (at_ h 8)) (N.lxor (at_ m 1) (at_ h 1))) (N.lxor (at_ m 4) (at_ h 4))) (N.lxor (at_ m 7) (at_ h 7))) (N.lxor (at_ m 15) (at_ h 15))) 19%N)) (at_ h 11)).
(** bmw/digest256.go:143 *)
Definition bmw_q11 (m h q : list N) : N := (add32 (N.lxor (N.lxor (N.lxor (N.shiftr (add32 (sub32 (sub32 (sub32 (N.lxor (at_ m 8) (at_ h 8)) (N.lxor (at_ m 0) (at_ h 0))) (N.lxor (at_ m 2) (at_ h 2))) (N.lxor (at_ m 5) (at_ h 5))) (N.lxor (at_ m 9) (at_ h 9))) 1%N) (shl32 (add32 (sub32 (sub32 (sub32 (N.lxor (at_ m 8) (at_ h 8)) (N.lxor (at_ m 0) (at_ h 0))) (N.lxor (at_ m 2) (at_ h 2))) (N.lxor (at_ m 5) (at_ h 5))) (N.lxor (at_ m 9) (at_ h 9))) 2%N)) (rotl32 (add32 (sub32 (sub32 (sub32 (N.lxor (at_ m 8) (at_ h 8)) (N.lxor (at_ m 0) (at_ h 0))) (N.lxor (at_ m 2) (at_ h 2))) (N.lxor (at_ m 5) (at_ h 5))) (N.lxor (at_ m 9) (at_ h 9))) 8%N)) (rotl32 (add32 (sub32 (sub32 (sub32 (N.lxor (at_ m 8) (at_ h 8)) (N.lxor (at_ m 0) (at_ h 0))) (N.lxor (at_ m 2) (at_ h 2))) (N.lxor (at_ m 5) (at_ h 5))) (N.lxor (at_ m 9) (at_ h 9))) 23%N)) (at_ h 12)).
(** bmw/digest256.go:144 *)
Definition bmw_q12 (m h q : list N) : N := (add32 (N.lxor (N.lxor (N.lxor (N.shiftr (add32 (sub32 (sub32 (add32 (N.lxor (at_ m 1) (at_ h 1)) (N.lxor (at_ m 3) (at_ h 3))) (N.lxor (at_ m 6) (at_ h 6))) (N.lxor (at_ m 9) (at_ h 9))) (N.lxor (at_ m 10) (at_ h 10))) 2%N) (shl32 (add32 (sub32 (sub32 (add32 (N.lxor (at_ m 1) (at_ h 1)) (N.lxor (at_ m 3) (at_ h 3))) (N.lxor (at_ m 6) (at_ h 6))) (N.lxor (at_ m 9) (at_ h 9))) (N.lxor (at_ m 10) (at_ h 10))) 1%N)) (rotl32 (add32 (sub32 (sub32 (add32 (N.lxor (at_ m 1) (at_ h 1)) (N.lxor (at_ m 3) (at_ h 3))) (N.lxor (at_ m 6) (at_ h 6))) (N.lxor (at_ m 9) (at_ h 9))) (N.lxor (at_ m 10) (at_ h 10))) 12%N)) (rotl32 (add32 (sub32 (sub32 (add32 (N.lxor (at_ m 1) (at_ h 1)) (N.lxor (at_ m 3) (at_ h 3))) (N.lxor (at_ m 6) (at_ h 6))) (N.lxor (at_ m 9) (at_ h 9))) (N.lxor (at_ m 10) (at_ h 10))) 25%N)) (at_ h 13)).
(** bmw/digest256.go:145 *)
Definition bmw_q13 (m h q : list N) : N := (add32 (N.lxor (N.lxor (N.lxor (N.shiftr (add32 (add32 (add32 (add32 (N.lxor (at_ m 2) (at_ h 2)) (N.lxor (at_ m 4) (at_ h 4))) (N.lxor (at_ m 7) (at_ h 7))) (N.lxor (at_ m 10) (at_ h 10))) (N.lxor (at_ m 11) (at_ h 11))) 2%N) (shl32 (add32 (add32 (add32 (add32 (N.lxor (at_ m 2) (at_ h 2)) (N.lxor (at_ m 4) (at_ h 4))) (N.lxor (at_ m 7) (at_ h 7))) (N.lxor (at_ m 10) (at_ h 10))) (N.lxor (at_ m 11) (at_ h 11))) 2%N)) (rotl32 (add32 (add32 (add32 (add32 (N.lxor (at_ m 2) (at_ h 2)) (N.lxor (at_ m 4) (at_ h 4))) (N.lxor (at_ m 7) (at_ h 7))) (N.lxor (at_ m 10) (at_ h 10))) (N.lxor (at_ m 11) (at_ h 11))) 15%N)) (rotl32 (add32 (add32 (add32 (add32 (N.lxor (at_ m 2) (at_ h 2)) (N.lxor (at_ m 4) (at_ h 4))) (N.lxor (at_ m 7) (at_ h 7))) (N.lxor (at_ m 10) (at_ h 10))) (N.lxor (at_ m 11) (at_ h 11))) 29%N)) (at_ h 14)).
(** bmw/digest256.go:146 *)
Definition bmw_q14 (m h q : list N) : N := (add32 (N.lxor (N.shiftr (sub32 (sub32 (add32 (sub32 (N.lxor (at_ m 3) (at_ h 3)) (N.lxor (at_ m 5) (at_ h 5))) (N.lxor (at_ m 8) (at_ h 8))) (N.lxor (at_ m 11) (at_ h 11))) (N.lxor (at_ m 12) (at_ h 12))) 1%N) (sub32 (sub32 (add32 (sub32 (N.lxor (at_ m 3) (at_ h 3)) (N.lxor (at_ m 5) (at_ h 5))) (N.lxor (at_ m 8) (at_ h 8))) (N.lxor (at_ m 11) (at_ h 11))) (N.lxor (at_ m 12) (at_ h 12)))) (at_ h 15)).
(** bmw/digest256.go:147 *)
Definition bmw_q15 (m h q : list N) : N := (add32 (N.lxor (N.lxor (N.lxor (N.shiftr (add32 (sub32 (sub32 (sub32 (N.lxor (at_ m 12) (at_ h 12)) (N.lxor (at_ m 4) (at_ h 4))) (N.lxor (at_ m 6) (at_ h 6))) (N.lxor (at_ m 9) (at_ h 9))) (N.lxor (at_ m 13) (at_ h 13))) 1%N) (shl32 (add32 (sub32 (sub32 (sub32 (N.lxor (at_ m 12) (at_ h 12)) (N.lxor (at_ m 4) (at_ h 4))) (N.lxor (at_ m 6) (at_ h 6))) (N.lxor (at_ m 9) (at_ h 9))) (N.lxor (at_ m 13) (at_ h 13))) 3%N)) (rotl32 (add32 (sub32 (sub32 (sub32 (N.lxor (at_ m 12) (at_ h 12)) (N.lxor (at_ m 4) (at_ h 4))) (N.lxor (at_ m 6) (at_ h 6))) (N.lxor (at_ m 9) (at_ h 9))) (N.lxor (at_ m 13) (at_ h 13))) 4%N)) (rotl32 (add32 (sub32 (sub32 (sub32 (N.lxor (at_ m 12) (at_ h 12)) (N.lxor (at_ m 4) (at_ h 4))) (N.lxor (at_ m 6) (at_ h 6))) (N.lxor (at_ m 9) (at_ h 9))) (N.lxor (at_ m 13) (at_ h 13))) 19%N)) (at_ h 0)).
(** bmw/digest256.go:148 *)
Definition bmw_q16 (m h q : list N) : N := (add32 (add32 (add32 (add32 (add32 (add32 (add32 (add32 (add32 (add32 (add32 (add32 (add32 (add32 (add32 (add32 (N.lxor (N.lxor (N.lxor (N.shiftr (at_ q 0) 1%N) (shl32 (at_ q 0) 2%N)) (rotl32 (at_ q 0) 8%N)) (rotl32 (at_ q 0) 23%N)) (N.lxor (N.lxor (N.lxor (N.shiftr (at_ q 1) 2%N) (shl32 (at_ q 1) 1%N)) (rotl32 (at_ q 1) 12%N)) (rotl32 (at_ q 1) 25%N))) (N.lxor (N.lxor (N.lxor (N.shiftr (at_ q 2) 2%N) (shl32 (at_ q 2) 2%N)) (rotl32 (at_ q 2) 15%N)) (rotl32 (at_ q 2) 29%N))) (N.lxor (N.lxor (N.lxor (N.shiftr (at_ q 3) 1%N) (shl32 (at_ q 3) 3%N)) (rotl32 (at_ q 3) 4%N)) (rotl32 (at_ q 3) 19%N))) (N.lxor (N.lxor (N.lxor (N.shiftr (at_ q 4) 1%N) (shl32 (at_ q 4) 2%N)) (rotl32 (at_ q 4) 8%N)) (rotl32 (at_ q 4) 23%N))) (N.lxor (N.lxor (N.lxor (N.shiftr (at_ q 5) 2%N) (shl32 (at_ q 5) 1%N)) (rotl32 (at_ q 5) 12%N)) (rotl32 (at_ q 5) 25%N))) (N.lxor (N.lxor (N.lxor (N.shiftr (at_ q 6) 2%N) (shl32 (at_ q 6) 2%N)) (rotl32 (at_ q 6) 15%N)) (rotl32 (at_ q 6) 29%N))) (N.lxor (N.lxor (N.lxor (N.shiftr (at_ q 7) 1%N) (shl32 (at_ q 7) 3%N)) (rotl32 (at_ q 7) 4%N)) (rotl32 (at_ q 7) 19%N))) (N.lxor (N.lxor (N.lxor (N.shiftr (at_ q 8) 1%N) (shl32 (at_ q 8) 2%N)) (rotl32 (at_ q 8) 8%N)) (rotl32 (at_ q 8) 23%N))) (N.lxor (N.lxor (N.lxor (N.shiftr (at_ q 9) 2%N) (shl32 (at_ q 9) 1%N)) (rotl32 (at_ q 9) 12%N)) (rotl32 (at_ q 9) 25%N))) (N.lxor (N.lxor (N.lxor (N.shiftr (at_ q 10) 2%N) (shl32 (at_ q 10) 2%N)) (rotl32 (at_ q 10) 15%N)) (rotl32 (at_ q 10) 29%N))) (N.lxor (N.lxor (N.lxor (N.shiftr (at_ q 11) 1%N) (shl32 (at_ q 11) 3%N)) (rotl32 (at_ q 11) 4%N)) (rotl32 (at_ q 11) 19%N))) (N.lxor (N.lxor (N.lxor (N.shiftr (at_ q 12) 1%N) (shl32 (at_ q 12) 2%N)) (rotl32 (at_ q 12) 8%N)) (rotl32 (at_ q 12) 23%N))) (N.lxor (N.lxor (N.lxor (N.shiftr (at_ q 13) 2%N) (shl32 (at_ q 13) 1%N)) (rotl32 (at_ q 13) 12%N)) (rotl32 (at_ q 13) 25%N))) (N.lxor (N.lxor (N.lxor (N.shiftr (at_ q 14) 2%N) (shl32 (at_ q 14) 2%N)) (rotl32 (at_ q 14) 15%N)) (rotl32 (at_ q 14) 29%N))) (N.lxor (N.lxor (N.lxor (N.shiftr (at_ q 15) 1%N) (shl32 (at_ q 15) 3%N)) (rotl32 (at_ q 15) 4%N)) (rotl32 (at_ q 15) 19%N))) (N.lxor (add32 (sub32 (add32 (rotl32 (at_ m 0) 1%N) (rotl32 (at_ m 3) 4%N)) (rotl32 (at_ m 10) 11%N)) (16 * 89478485)%N) (at_ h 7))).
(** bmw/digest256.go:149 *)
Definition bmw_q17 (m h q : list N) : N := (add32 (add32 (add32 (add32 (add32 (add32 (add32 (add32 (add32 (add32 (add32 (add32 (add32 (add32 (add32 (add32 (N.lxor (N.lxor (N.lxor (N.shiftr (at_ q 1) 1%N) (shl32 (at_ q 1) 2%N)) (rotl32 (at_ q 1) 8%N)) (rotl32 (at_ q 1) 23%N)) (N.lxor (N.lxor (N.lxor (N.shiftr (at_ q 2) 2%N) (shl32 (at_ q 2) 1%N)) (rotl32 (at_ q 2) 12%N)) (rotl32 (at_ q 2) 25%N))) (N.lxor (N.lxor (N.lxor (N.shiftr (at_ q 3) 2%N) (shl32 (at_ q 3) 2%N)) (rotl32 (at_ q 3) 15%N)) (rotl32 (at_ q 3) 29%N))) (N.lxor (N.lxor (N.lxor (N.shiftr (at_ q 4) 1%N) (shl32 (at_ q 4) 3%N)) (rotl32 (at_ q 4) 4%N)) (rotl32 (at_ q 4) 19%N))) (N.lxor (N.lxor (N.lxor (N.shiftr (at_ q 5) 1%N) (shl32 (at_ q 5) 2%N)) (rotl32 (at_ q 5) 8%N)) (rotl32 (at_ q 5) 23%N))) (N.lxor (N.lxor (N.lxor (N.shiftr (at_ q 6) 2%N) (shl32 (at_ q 6) 1%N)) (rotl32 (at_ q 6) 12%N)) (rotl32 (at_ q 6) 25%N))) (N.lxor (N.lxor (N.lxor (N.shiftr (at_ q 7) 2%N) (shl32 (at_ q 7) 2%N)) (rotl32 (at_ q 7) 15%N)) (rotl32 (at_ q 7) 29%N))) (N.lxor (N.lxor (N.lxor (N.shiftr (at_ q 8) 1%N) (shl32 (at_ q 8) 3%N)) (rotl32 (at_ q 8) 4%N)) (rotl32 (at_ q 8) 19%N))) (N.lxor (N.lxor (N.lxor (N.shiftr (at_ q 9) 1%N) (shl32 (at_ q 9) 2%N)) (rotl32 (at_ q 9) 8%N)) (rotl32 (at_ q 9) 23%N))) (N.lxor (N.lxor (N.lxor (N.shiftr (at_ q 10) 2%N) (shl32 (at_ q 10) 1%N)) (rotl32 (at_ q 10) 12%N)) (rotl32 (at_ q 10) 25%N))) (N.lxor (N.lxor (N.lxor (N.shiftr (at_ q 11) 2%N) (shl32 (at_ q 11) 2%N)) (rotl32 (at_ q 11) 15%N)) (rotl32 (at_ q 11) 29%N))) (N.lxor (N.lxor (N.lxor (N.shiftr (at_ q 12) 1%N) (shl32 (at_ q 12) 3%N)) (rotl32 (at_ q 12) 4%N)) (rotl32 (at_ q 12) 19%N))) (N.lxor (N.lxor (N.lxor (N.shiftr (at_ q 13) 1%N) (shl32 (at_ q 13) 2%N)) (rotl32 (at_ q 13) 8%N)) (rotl32 (at_ q 13) 23%N))) (N.lxor (N.lxor (N.lxor (N.shiftr (at_ q 14) 2%N) (shl32 (at_ q 14) 1%N)) (rotl32 (at_ q 14) 12%N)) (rotl32 (at_ q 14) 25%N))) (N.lxor (N.lxor (N.lxor (N.shiftr (at_ q 15) 2%N) (shl32 (at_ q 15) 2%N)) (rotl32 (at_ q 15) 15%N)) (rotl32 (at_ q 15) 29%N))) (N.lxor (N.lxor (N.lxor (N.shiftr (at_ q 16) 1%N) (shl32 (at_ q 16) 3%N)) (rotl32 (at_ q 16) 4%N)) (rotl32 (at_ q 16) 19%N))) (N.lxor (add32 (sub32 (add32 (rotl32 (at_ m 1) 2%N) (rotl32 (at_ m 4) 5%N)) (rotl32 (at_ m 11) 12%N)) (17 * 89478485)%N) (at_ h 8))).
(** bmw/digest256.go:150 *)
Definition bmw_q18 (m h q : list N) : N := (add32 (add32 (add32 (add32 (add32 (add32 (add32 (add32 (add32 (add32 (add32 (add32 (add32 (add32 (add32 (add32 (at_ q 2) (rotl32 (at_ q 3) 3%N)) (at_ q 4)) (rotl32 (at_ q 5) 7%N)) (at_ q 6)) (rotl32 (at_ q 7) 13%N)) (at_ q 8)) (rotl32 (at_ q 9) 16%N)) (at_ q 10)) (rotl32 (at_ q 11) 19%N)) (at_ q 12)) (rotl32 (at_ q 13) 23%N)) (at_ q 14)) (rotl32 (at_ q 15) 27%N)) (N.lxor (N.shiftr (at_ q 16) 1%N) (at_ q 16))) (N.lxor (N.shiftr (at_ q 17) 2%N) (at_ q 17))) (N.lxor (add32 (sub32 (add32 (rotl32 (at_ m 2) 3%N) (rotl32 (at_ m 5) 6%N)) (rotl32 (at_ m 12) 13%N)) (18 * 89478485)%N) (at_ h 9))).
(** bmw/digest256.go:151 *)
Definition bmw_q19 (m h q : list N) : N := (add32 (add32 (add32 (add32 (add32 (add32 (add32 (add32 (add32 (add32 (add32 (add32 (add32 (add32 (add32 (add32 (at_ q 3) (rotl32 (at_ q 4) 3%N)) (at_ q 5)) (rotl32 (at_ q 6) 7%N)) (at_ q 7)) (rotl32 (at_ q 8) 13%N)) (at_ q 9)) (rotl32 (at_ q 10) 16%N)) (at_ q 11)) (rotl32 (at_ q 12) 19%N)) (at_ q 13)) (rotl32 (at_ q 14) 23%N)) (at_ q 15)) (rotl32 (at_ q 16) 27%N)) (N.lxor (N.shiftr (at_ q 17) 1%N) (at_ q 17))) (N.lxor (N.shiftr (at_ q 18) 2%N) (at_ q 18))) (N.lxor (add32 (sub32 (add32 (rotl32 (at_ m 3) 4%N) (rotl32 (at_ m 6) 7%N)) (rotl32 (at_ m 13) 14%N)) (19 * 89478485)%N) (at_ h 10))).
(** bmw/digest256.go:152 *)
Definition bmw_q20 (m h q : list N) : N := (add32 (add32 (add32 (add32 (add32 (add32 (add32 (add32 (add32 (add32 (add32 (add32 (add32 (add32 (add32 (add32 (at_ q 4) (rotl32 (at_ q 5) 3%N)) (at_ q 6)) (rotl32 (at_ q 7) 7%N)) (at_ q 8)) (rotl32 (at_ q 9) 13%N)) (at_ q 10)) (rotl32 (at_ q 11) 16%N)) (at_ q 12)) (rotl32 (at_ q 13) 19%N)) (at_ q 14)) (rotl32 (at_ q 15) 23%N)) (at_ q 16)) (rotl32 (at_ q 17) 27%N)) (N.lxor (N.shiftr (at_ q 18) 1%N) (at_ q 18))) (N.lxor (N.shiftr (at_ q 19) 2%N) (at_ q 19))) (N.lxor (add32 (sub32 (add32 (rotl32 (at_ m 4) 5%N) (rotl32 (at_ m 7) 8%N)) (rotl32 (at_ m 14) 15%N)) (20 * 89478485)%N) (at_ h 11))).
(** bmw/digest256.go:153 *)
Definition bmw_q21 (m h q : list N) : N := (add32 (add32 (add32 (add32 (add32 (add32 (add32 (add32 (add32 (add32 (add32 (add32 (add32 (add32 (add32 (add32 (at_ q 5) (rotl32 (at_ q 6) 3%N)) (at_ q 7)) (rotl32 (at_ q 8) 7%N)) (at_ q 9)) (rotl32 (at_ q 10) 13%N)) (at_ q 11)) (rotl32 (at_ q 12) 16%N)) (at_ q 13)) (rotl32 (at_ q 14) 19%N)) (at_ q 15)) (rotl32 (at_ q 16) 23%N)) (at_ q 17)) (rotl32 (at_ q 18) 27%N)) (N.lxor (N.shiftr (at_ q 19) 1%N) (at_ q 19))) (N.lxor (N.shiftr (at_ q 20) 2%N) (at_ q 20))) (N.lxor (add32 (sub32 (add32 (rotl32 (at_ m 5) 6%N) (rotl32 (at_ m 8) 9%N)) (rotl32 (at_ m 15) 16%N)) (21 * 89478485)%N) (at_ h 12))).
(** bmw/digest256.go:154 *)
Definition bmw_q22 (m h q : list N) : N := (add32 (add32 (add32 (add32 (add32 (add32 (add32 (add32 (add32 (add32 (add32 (add32 (add32 (add32 (add32 (add32 (at_ q 6) (rotl32 (at_ q 7) 3%N)) (at_ q 8)) (rotl32 (at_ q 9) 7%N)) (at_ q 10)) (rotl32 (at_ q 11) 13%N)) (at_ q 12)) (rotl32 (at_ q 13) 16%N)) (at_ q 14)) (rotl32 (at_ q 15) 19%N)) (at_ q 16)) (rotl32 (at_ q 17) 23%N)) (at_ q 18)) (rotl32 (at_ q 19) 27%N)) (N.lxor (N.shiftr (at_ q 20) 1%N) (at_ q 20))) (N.lxor (N.shiftr (at_ q 21) 2%N) (at_ q 21))) (N.lxor (add32 (sub32 (add32 (rotl32 (at_ m 6) 7%N) (rotl32 (at_ m 9) 10%N)) (rotl32 (at_ m 0) 1%N)) (22 * 89478485)%N) (at_ h 13))).
(** bmw/digest256.go:155 *)
Definition bmw_q23 (m h q : list N) : N := (add32 (add32 (add32 (add32 (add32 (add32 (add32 (add32 (add32 (add32 (add32 (add32 (add32 (add32 (add32 (add32 (at_ q 7) (rotl32 (at_ q 8) 3%N)) (at_ q 9)) (rotl32 (at_ q 10) 7%N)) (at_ q 11)) (rotl32 (at_ q 12) 13%N)) (at_ q 13)) (rotl32 (at_ q 14) 16%N)) (at_ q 15)) (rotl32 (at_ q 16) 19%N)) (at_ q 17)) (rotl32 (at_ q 18) 23%N)) (at_ q 19)) (rotl32 (at_ q 20) 27%N)) (N.lxor (N.shiftr (at_ q 21) 1%N) (at_ q 21))) (N.lxor (N.shiftr (at_ q 22) 2%N) (at_ q 22))) (N.lxor (add32 (sub32 (add32 (rotl32 (at_ m 7) 8%N) (rotl32 (at_ m 10) 11%N)) (rotl32 (at_ m 1) 2%N)) (23 * 89478485)%N) (at_ h 14))).
(** bmw/digest256.go:156 *)
Definition bmw_q24 (m h q : list N) : N := (add32 (add32 (add32 (add32 (add32 (add32 (add32 (add32 (add32 (add32 (add32 (add32 (add32 (add32 (add32 (add32 (at_ q 8) (rotl32 (at_ q 9) 3%N)) (at_ q 10)) (rotl32 (at_ q 11) 7%N)) (at_ q 12)) (rotl32 (at_ q 13) 13%N)) (at_ q 14)) (rotl32 (at_ q 15) 16%N)) (at_ q 16)) (rotl32 (at_ q 17) 19%N)) (at_ q 18)) (rotl32 (at_ q 19) 23%N)) (at_ q 20)) (rotl32 (at_ q 21) 27%N)) (N.lxor (N.shiftr (at_ q 22) 1%N) (at_ q 22))) (N.lxor (N.shiftr (at_ q 23) 2%N) (at_ q 23))) (N.lxor (add32 (sub32 (add32 (rotl32 (at_ m 8) 9%N) (rotl32 (at_ m 11) 12%N)) (rotl32 (at_ m 2) 3%N)) (24 * 89478485)%N) (at_ h 15))).
(** bmw/digest256.go:157 *)
Definition bmw_q25 (m h q : list N) : N := (add32 (add32 (add32 (add32 (add32 (add32 (add32 (add32 (add32 (add32 (add32 (add32 (add32 (add32 (add32 (add32 (at_ q 9) (rotl32 (at_ q 10) 3%N)) (at_ q 11)) (rotl32 (at_ q 12) 7%N)) (at_ q 13)) (rotl32 (at_ q 14) 13%N)) (at_ q 15)) (rotl32 (at_ q 16) 16%N)) (at_ q 17)) (rotl32 (at_ q 18) 19%N)) (at_ q 19)) (rotl32 (at_ q 20) 23%N)) (at_ q 21)) (rotl32 (at_ q 22) 27%N)) (N.lxor (N.shiftr (at_ q 23) 1%N) (at_ q 23))) (N.lxor (N.shiftr (at_ q 24) 2%N) (at_ q 24))) (N.lxor (add32 (sub32 (add32 (rotl32 (at_ m 9) 10%N) (rotl32 (at_ m 12) 13%N)) (rotl32 (at_ m 3) 4%N)) (25 * 89478485)%N) (at_ h 0))).
(** bmw/digest256.go:158 *)
Definition bmw_q26 (m h q : list N) : N := (add32 (add32 (add32 (add32 (add32 (add32 (add32 (add32 (add32 (add32 (add32 (add32 (add32 (add32 (add32 (add32 (at_ q 10) (rotl32 (at_ q 11) 3%N)) (at_ q 12)) (rotl32 (at_ q 13) 7%N)) (at_ q 14)) (rotl32 (at_ q 15) 13%N)) (at_ q 16)) (rotl32 (at_ q 17) 16%N)) (at_ q 18)) (rotl32 (at_ q 19) 19%N)) (at_ q 20)) (rotl32 (at_ q 21) 23%N)) (at_ q 22)) (rotl32 (at_ q 23) 27%N)) (N.lxor (N.shiftr (at_ q 24) 1%N) (at_ q 24))) (N.lxor (N.shiftr (at_ q 25) 2%N) (at_ q 25))) (N.lxor (add32 (sub32 (add32 (rotl32 (at_ m 10) 11%N) (rotl32 (at_ m 13) 14%N)) (rotl32 (at_ m 4) 5%N)) (26 * 89478485)%N) (at_ h 1))).
(** bmw/digest256.go:159 *)
Definition bmw_q27 (m h q : list N) : N := (add32 (add32 (add32 (add32 (add32 (add32 (add32 (add32 (add32 (add32 (add32 (add32 (add32 (add32 (add32 (add32 (at_ q 11) (rotl32 (at_ q 12) 3%N)) (at_ q 13)) (rotl32 (at_ q 14) 7%N)) (at_ q 15)) (rotl32 (at_ q 16) 13%N)) (at_ q 17)) (rotl32 (at_ q 18) 16%N)) (at_ q 19)) (rotl32 (at_ q 20) 19%N)) (at_ q 21)) (rotl32 (at_ q 22) 23%N)) (at_ q 23)) (rotl32 (at_ q 24) 27%N)) (N.lxor (N.shiftr (at_ q 25) 1%N) (at_ q 25))) (N.lxor (N.shiftr (at_ q 26) 2%N) (at_ q 26))) (N.lxor (add32 (sub32 (add32 (rotl32 (at_ m 11) 12%N) (rotl32 (at_ m 14) 15%N)) (rotl32 (at_ m 5) 6%N)) (27 * 89478485)%N) (at_ h 2))).
(** bmw/digest256.go:160 *)
Definition bmw_q28 (m h q : list N) : N := (add32 (add32 (add32 (add32 (add32 (add32 (add32 (add32 (add32 (add32 (add32 (add32 (add32 (add32 (add32 (add32 (at_ q 12) (rotl32 (at_ q 13) 3%N)) (at_ q 14)) (rotl32 (at_ q 15) 7%N)) (at_ q 16)) (rotl32 (at_ q 17) 13%N)) (at_ q 18)) (rotl32 (at_ q 19) 16%N)) (at_ q 20)) (rotl32 (at_ q 21) 19%N)) (at_ q 22)) (rotl32 (at_ q 23) 23%N)) (at_ q 24)) (rotl32 (at_ q 25) 27%N)) (N.lxor (N.shiftr (at_ q 26) 1%N) (at_ q 26))) (N.lxor (N.shiftr (at_ q 27) 2%N) (at_ q 27))) (N.lxor (add32 (sub32 (add32 (rotl32 (at_ m 12) 13%N) (rotl32 (at_ m 15) 16%N)) (rotl32 (at_ m 6) 7%N)) (28 * 89478485)%N) (at_ h 3))).
(** bmw/digest256.go:161 *)
Definition bmw_q29 (m h q : list N) : N := (add32 (add32 (add32 (add32 (add32 (add32 (add32 (add32 (add32 (add32 (add32 (add32 (add32 (add32 (add32 (add32 (at_ q 13) (rotl32 (at_ q 14) 3%N)) (at_ q 15)) (rotl32 (at_ q 16) 7%N)) (at_ q 17)) (rotl32 (at_ q 18) 13%N)) (at_ q 19)) (rotl32 (at_ q 20) 16%N)) (at_ q 21)) (rotl32 (at_ q 22) 19%N)) (at_ q 23)) (rotl32 (at_ q 24) 23%N)) (at_ q 25)) (rotl32 (at_ q 26) 27%N)) (N.lxor (N.shiftr (at_ q 27) 1%N) (at_ q 27))) (N.lxor (N.shiftr (at_ q 28) 2%N) (at_ q 28))) (N.lxor (add32 (sub32 (add32 (rotl32 (at_ m 13) 14%N) (rotl32 (at_ m 0) 1%N)) (rotl32 (at_ m 7) 8%N)) (29 * 89478485)%N) (at_ h 4))).
(** bmw/digest256.go:162 *)
Definition bmw_q30 (m h q : list N) : N := (add32 (add32 (add32 (add32 (add32 (add32 (add32 (add32 (add32 (add32 (add32 (add32 (add32 (add32 (add32 (add32 (at_ q 14) (rotl32 (at_ q 15) 3%N)) (at_ q 16)) (rotl32 (at_ q 17) 7%N)) (at_ q 18)) (rotl32 (at_ q 19) 13%N)) (at_ q 20)) (rotl32 (at_ q 21) 16%N)) (at_ q 22)) (rotl32 (at_ q 23) 19%N)) (at_ q 24)) (rotl32 (at_ q 25) 23%N)) (at_ q 26)) (rotl32 (at_ q 27) 27%N)) (N.lxor (N.shiftr (at_ q 28) 1%N) (at_ q 28))) (N.lxor (N.shiftr (at_ q 29) 2%N) (at_ q 29))) (N.lxor (add32 (sub32 (add32 (rotl32 (at_ m 14) 15%N) (rotl32 (at_ m 1) 2%N)) (rotl32 (at_ m 8) 9%N)) (30 * 89478485)%N) (at_ h 5))).
(** bmw/digest256.go:163 *)
Definition bmw_q31 (m h q : list N) : N := (add32 (add32 (add32 (add32 (add32 (add32 (add32 (add32 (add32 (add32 (add32 (add32 (add32 (add32 (add32 (add32 (at_ q 15) (rotl32 (at_ q 16) 3%N)) (at_ q 17)) (rotl32 (at_ q 18) 7%N)) (at_ q 19)) (rotl32 (at_ q 20) 13%N)) (at_ q 21)) (rotl32 (at_ q 22) 16%N)) (at_ q 23)) (rotl32 (at_ q 24) 19%N)) (at_ q 25)) (rotl32 (at_ q 26) 23%N)) (at_ q 27)) (rotl32 (at_ q 28) 27%N)) (N.lxor (N.shiftr (at_ q 29) 1%N) (at_ q 29))) (N.lxor (N.shiftr (at_ q 30) 2%N) (at_ q 30))) (N.lxor (add32 (sub32 (add32 (rotl32 (at_ m 15) 16%N) (rotl32 (at_ m 2) 3%N)) (rotl32 (at_ m 9) 10%N)) (31 * 89478485)%N) (at_ h 6))).
(** bmw/digest256.go:165 *)
Definition bmw_xl (q : list N) : N := (N.lxor (N.lxor (N.lxor (N.lxor (N.lxor (N.lxor (N.lxor (at_ q 16) (at_ q 17)) (at_ q 18)) (at_ q 19)) (at_ q 20)) (at_ q 21)) (at_ q 22)) (at_ q 23)).
(** bmw/digest256.go:166 *)
Definition bmw_xh (q : list N) (xl : N) : N := (N.lxor (N.lxor (N.lxor (N.lxor (N.lxor (N.lxor (N.lxor (N.lxor xl (at_ q 24)) (at_ q 25)) (at_ q 26)) (at_ q 27)) (at_ q 28)) (at_ q 29)) (at_ q 30)) (at_ q 31)).
(** bmw/digest256.go:168 *)
Definition bmw_h0 (m h q : list N) (xl xh : N) : N := (add32 (N.lxor (N.lxor (shl32 xh 5%N) (N.shiftr (at_ q 16) 5%N)) (at_ m 0)) (N.lxor (N.lxor xl (at_ q 24)) (at_ q 0))).
(** bmw/digest256.go:169 *)
Definition bmw_h1 (m h q : list N) (xl xh : N) : N := (add32 (N.lxor (N.lxor (N.shiftr xh 7%N) (shl32 (at_ q 17) 8%N)) (at_ m 1)) (N.lxor (N.lxor xl (at_ q 25)) (at_ q 1))).
(** bmw/digest256.go:170 *)
Definition bmw_h2 (m h q : list N) (xl xh : N) : N := (add32 (N.lxor (N.lxor (N.shiftr xh 5%N) (shl32 (at_ q 18) 5%N)) (at_ m 2)) (N.lxor (N.lxor xl (at_ q 26)) (at_ q 2))).
(** bmw/digest256.go:171 *)
Definition bmw_h3 (m h q : list N) (xl xh : N) : N := (add32 (N.lxor (N.lxor (N.shiftr xh 1%N) (shl32 (at_ q 19) 5%N)) (at_ m 3)) (N.lxor (N.lxor xl (at_ q 27)) (at_ q 3))).
(** bmw/digest256.go:172 *)
Definition bmw_h4 (m h q : list N) (xl xh : N) : N := (add32 (N.lxor (N.lxor (N.shiftr xh 3%N) (shl32 (at_ q 20) 0%N)) (at_ m 4)) (N.lxor (N.lxor xl (at_ q 28)) (at_ q 4))).
(** bmw/digest256.go:173 *)
Definition bmw_h5 (m h q : list N) (xl xh : N) : N := (add32 (N.lxor (N.lxor (shl32 xh 6%N) (N.shiftr (at_ q 21) 6%N)) (at_ m 5)) (N.lxor (N.lxor xl (at_ q 29)) (at_ q 5))).
(** bmw/digest256.go:174 *)
Definition bmw_h6 (m h q : list N) (xl xh : N) : N := (add32 (N.lxor (N.lxor (N.shiftr xh 4%N) (shl32 (at_ q 22) 6%N)) (at_ m 6)) (N.lxor (N.lxor xl (at_ q 30)) (at_ q 6))).
(** bmw/digest256.go:175 *)
Definition bmw_h7 (m h q : list N) (xl xh : N) : N := (add32 (N.lxor (N.lxor (N.shiftr xh 11%N) (shl32 (at_ q 23) 2%N)) (at_ m 7)) (N.lxor (N.lxor xl (at_ q 31)) (at_ q 7))).
(** bmw/digest256.go:176 *)
Definition bmw_h8 (m h q : list N) (xl xh : N) : N := (add32 (add32 (rotl32 (at_ h 4) 9%N) (N.lxor (N.lxor xh (at_ q 24)) (at_ m 8))) (N.lxor (N.lxor (shl32 xl 8%N) (at_ q 23)) (at_ q 8))).
(** bmw/digest256.go:177 *)
Definition bmw_h9 (m h q : list N) (xl xh : N) : N := (add32 (add32 (rotl32 (at_ h 5) 10%N) (N.lxor (N.lxor xh (at_ q 25)) (at_ m 9))) (N.lxor (N.lxor (N.shiftr xl 6%N) (at_ q 16)) (at_ q 9))).
(** bmw/digest256.go:178 *)
Definition bmw_h10 (m h q : list N) (xl xh : N) : N := (add32 (add32 (rotl32 (at_ h 6) 11%N) (N.lxor (N.lxor xh (at_ q 26)) (at_ m 10))) (N.lxor (N.lxor (shl32 xl 6%N) (at_ q 17)) (at_ q 10))).
(** bmw/digest256.go:179 *)
Definition bmw_h11 (m h q : list N) (xl xh : N) : N := (add32 (add32 (rotl32 (at_ h 7) 12%N) (N.lxor (N.lxor xh (at_ q 27)) (at_ m 11))) (N.lxor (N.lxor (shl32 xl 4%N) (at_ q 18)) (at_ q 11))).
(** bmw/digest256.go:180 *)
Definition bmw_h12 (m h q : list N) (xl xh : N) : N := (add32 (add32 (rotl32 (at_ h 0) 13%N) (N.lxor (N.lxor xh (at_ q 28)) (at_ m 12))) (N.lxor (N.lxor (N.shiftr xl 3%N) (at_ q 19)) (at_ q 12))).
(** bmw/digest256.go:181 *)
Definition bmw_h13 (m h q : list N) (xl xh : N) : N := (add32 (add32 (rotl32 (at_ h 1) 14%N) (N.lxor (N.lxor xh (at_ q 29)) (at_ m 13))) (N.lxor (N.lxor (N.shiftr xl 4%N) (at_ q 20)) (at_ q 13))).
(** bmw/digest256.go:182 *)
Definition bmw_h14 (m h q : list N) (xl xh : N) : N := (add32 (add32 (rotl32 (at_ h 2) 15%N) (N.lxor (N.lxor xh (at_ q 30)) (at_ m 14))) (N.lxor (N.lxor (N.shiftr xl 7%N) (at_ q 21)) (at_ q 14))).
(** bmw/digest256.go:183 *)
Definition bmw_h15 (m h q : list N) (xl xh : N) : N := (add32 (add32 (rotl32 (at_ h 3) 16%N) (N.lxor (N.lxor xh (at_ q 31)) (at_ m 15))) (N.lxor (N.lxor (N.shiftr xl 2%N) (at_ q 22)) (at_ q 15))).
Definition bmw_qs : list (list N -> list N -> list N -> N) := [bmw_q0; bmw_q1; bmw_q2; bmw_q3; bmw_q4; bmw_q5; bmw_q6; bmw_q7; bmw_q8; bmw_q9; bmw_q10; bmw_q11; bmw_q12; bmw_q13; bmw_q14; bmw_q15; bmw_q16; bmw_q17; bmw_q18; bmw_q19; bmw_q20; bmw_q21; bmw_q22; bmw_q23; bmw_q24; bmw_q25; bmw_q26; bmw_q27; bmw_q28; bmw_q29; bmw_q30; bmw_q31].
Definition bmw_hs : list (list N -> list N -> list N -> N -> N -> N) := [bmw_h0; bmw_h1; bmw_h2; bmw_h3; bmw_h4; bmw_h5; bmw_h6; bmw_h7; bmw_h8; bmw_h9; bmw_h10; bmw_h11; bmw_h12; bmw_h13; bmw_h14; bmw_h15].
