(** SpecSm3.v -- the SM3 hash function as in GB/T 32905-2016 (also
    draft-sca-cfrg-sm3), written from the standard and independent of the model. *)
From Coq Require Import List NArith Arith.
From Verif Require Import Base Buf.
Import ListNotations.

Definition gbt_iv : list N :=
  [0x7380166f; 0x4914b2b9; 0x172442d7; 0xda8a0600; 0xa96f30bc; 0x163138aa; 0xe38dee4d; 0xb0fb0e4e]%N.

(** 4.2: T_j; 4.3: boolean functions; 4.4: permutations. *)
Definition gbt_T (j : nat) : N := if j <=? 15 then 0x79cc4519%N else 0x7a879d8a%N.
Definition gbt_FF (j : nat) (x y z : N) : N :=
  if j <=? 15 then N.lxor (N.lxor x y) z
  else N.lor (N.lor (N.land x y) (N.land x z)) (N.land y z).
Definition gbt_GG (j : nat) (x y z : N) : N :=
  if j <=? 15 then N.lxor (N.lxor x y) z
  else N.lor (N.land x y) (N.ldiff z x).
Definition gbt_P0 (x : N) : N := N.lxor (N.lxor x (rotl32 x 9)) (rotl32 x 17).
Definition gbt_P1 (x : N) : N := N.lxor (N.lxor x (rotl32 x 15)) (rotl32 x 23).

(** 5.3.2 message expansion: 16 big-endian words, then W_16..W_67. *)
Definition gbt_next (w : list N) : N :=
  let j := length w in
  N.lxor (N.lxor (gbt_P1 (N.lxor (N.lxor (at_ w (j - 16)) (at_ w (j - 9))) (rotl32 (at_ w (j - 3)) 15)))
                 (rotl32 (at_ w (j - 13)) 7)) (at_ w (j - 6)).
Fixpoint gbt_expand (n : nat) (w : list N) : list N :=
  match n with O => w | S n' => gbt_expand n' (w ++ [gbt_next w]) end.
Definition gbt_W (b : list N) : list N := gbt_expand 52 (map be_val (chunks 4 b)).

(** 5.3.3 compression. *)
Record gbt_regs := R8 { rA : N; rB : N; rC : N; rD : N; rE : N; rF : N; rG : N; rH : N }.
Definition gbt_round (W : list N) (r : gbt_regs) (j : nat) : gbt_regs :=
  let SS1 := rotl32 (add32 (add32 (rotl32 (rA r) 12) (rE r)) (rotl32 (gbt_T j) (N.of_nat (j mod 32)))) 7 in
  let SS2 := N.lxor SS1 (rotl32 (rA r) 12) in
  let TT1 := add32 (add32 (add32 (gbt_FF j (rA r) (rB r) (rC r)) (rD r)) SS2)
                   (N.lxor (at_ W j) (at_ W (j + 4))) in
  let TT2 := add32 (add32 (add32 (gbt_GG j (rE r) (rF r) (rG r)) (rH r)) SS1) (at_ W j) in
  R8 TT1 (rA r) (rotl32 (rB r) 9) (rC r) (gbt_P0 TT2) (rE r) (rotl32 (rF r) 19) (rG r).
Definition gbt_CF (V : list N) (b : list N) : list N :=
  let r := fold_left (gbt_round (gbt_W b)) (seq 0 64)
             (R8 (at_ V 0) (at_ V 1) (at_ V 2) (at_ V 3) (at_ V 4) (at_ V 5) (at_ V 6) (at_ V 7)) in
  map (fun '(a, v) => N.lxor a v)
      (combine [rA r; rB r; rC r; rD r; rE r; rF r; rG r; rH r] V).

(** 5.2 padding, 5.3.1 iteration, 5.4 output. *)
Definition gbt_pad (m : list N) : list N :=
  md_pad 64 0x80 (be_bytes 8 (8 * N.of_nat (length m))) m.
Definition sm3_spec (m : list N) : list N :=
  concat (map (be_bytes 4) (fold_left gbt_CF (chunks 64 (gbt_pad m)) gbt_iv)).
