(** SpecPmac.v -- PMAC (Black, Rogaway, EUROCRYPT 2002 and "PMAC: full specification"), written
    from the paper.  [E] is the block cipher under the key, blocks have [bs] bytes, and [R] is the
    low part of the reduction polynomial (0x87 for 128-bit blocks, 0x1b for 64-bit blocks). *)
From Coq Require Import List NArith PArith Arith Bool.
From Verif Require Import Base SpecCmac.
Import ListNotations.

(** Number of trailing zero bits of a positive number. *)
Fixpoint ntz (p : positive) : nat := match p with xO q => S (ntz q) | _ => 0 end.
(** Division by x in GF(2^(8 bs)): an odd block is first made even by adding the polynomial. *)
Definition gf_halve (bs : nat) (R : N) (L : list N) : list N :=
  let v := be_val L in
  be_bytes bs ((if N.testbit v 0 then N.lxor v (2 ^ (8 * N.of_nat bs) + R) else v) / 2)%N.
(** L(0) = E(0), L(i) = x L(i-1). *)
Fixpoint pmac_L (E : list N -> list N) (bs : nat) (R : N) (i : nat) : list N :=
  match i with O => E (zeros bs) | S k => gf_double bs R (pmac_L E bs R k) end.
(** Block number [i] (from 1): Offset := Offset + L(ntz i); Sigma := Sigma + E(M_i + Offset). *)
Definition pmac_step (E : list N -> list N) (bs : nat) (R : N) (s : positive * list N * list N) (b : list N) :=
  let '(i, off, sigma) := s in
  let off := xorblk off (pmac_L E bs R (ntz i)) in
  (Pos.succ i, off, xorblk sigma (E (xorblk b off))).
Definition pmac_sigma (E : list N -> list N) (bs : nat) (R : N) (blocks : list (list N)) :=
  fold_left (pmac_step E bs R) blocks (1%positive, zeros bs, zeros bs).
(** The last block (the only one for an empty message) is not enciphered with an offset: a full one
    is added together with L / x, an incomplete one is padded with 10..0. *)
Definition pmac_spec (E : list N -> list N) (bs : nat) (R : N) (tagsize : nat) (m : list N) : list N :=
  let whole := (0 <? length m) && (length m mod bs =? 0) in
  let '(_, _, sigma) := pmac_sigma E bs R (if whole then removelast (chunks bs m) else chunks bs m) in
  let fin := if whole then xorblk (last (chunks bs m) []) (gf_halve bs R (E (zeros bs)))
             else rest bs m ++ 0x80%N :: zeros (bs - 1 - length (rest bs m)) in
  firstn tagsize (E (xorblk sigma fin)).
