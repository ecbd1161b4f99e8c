(** SpecCrc16.v -- reflected CRC-16, bit by bit. *)
From Coq Require Import List NArith Arith.
From Verif Require Import Base.
Import ListNotations.

(** One bit: shift right; if the bit shifted out is 1, subtract the polynomial. *)
Definition crc_bit (poly c : N) : N :=
  if N.odd c then N.lxor (N.shiftr c 1) poly else N.shiftr c 1.
(** One message byte: added into the low bits, then eight bit steps. *)
Definition crc_byte (poly c b : N) : N := Nat.iter 8 (crc_bit poly) (N.lxor c b).
Definition crc16_bitwise (poly init xorout : N) (m : list N) : N :=
  N.lxor (fold_left (crc_byte poly) m init) xorout.
