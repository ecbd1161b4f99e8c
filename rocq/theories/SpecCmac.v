(** SpecCmac.v -- CMAC (NIST SP 800-38B / RFC 4493), written from the standard,
    independent of the Go code.  [E] is the block cipher under the key. *)
From Coq Require Import List NArith Arith Bool.
From Verif Require Import Base.
Import ListNotations.

(** Byte-wise exclusive or of two blocks of equal length. *)
Definition xorblk (a b : list N) : list N := map (fun p => N.lxor (fst p) (snd p)) (combine a b).

(** Doubling in GF(2^(8 bs)): the block read as a big-endian number is shifted left by one
    bit; if the bit shifted out is 1, the constant [R] is added. *)
Definition gf_double (bs : nat) (R : N) (L : list N) : list N :=
  let v := be_val L in
  let top := N.testbit v (8 * N.of_nat bs - 1) in
  be_bytes bs (N.lxor ((2 * v) mod 2 ^ (8 * N.of_nat bs)) (if top then R else 0))%N.

(** CBC chaining from the zero block. *)
Definition cbc (E : list N -> list N) (bs : nat) (blocks : list (list N)) : list N :=
  fold_left (fun c b => E (xorblk c b)) blocks (zeros bs).

(** The message is cut in blocks; a complete last block is masked with K1, an incomplete one
    (or the empty message) is padded with 10..0 and masked with K2. *)
Definition cmac_spec (E : list N -> list N) (bs : nat) (R : N) (tagsize : nat) (m : list N) : list N :=
  let K1 := gf_double bs R (E (zeros bs)) in
  let K2 := gf_double bs R K1 in
  let blocks :=
    if (0 <? length m) && (length m mod bs =? 0) then
      removelast (chunks bs m) ++ [xorblk (last (chunks bs m) []) K1]
    else
      chunks bs m ++ [xorblk (rest bs m ++ 0x80%N :: zeros (bs - 1 - length (rest bs m))) K2] in
  firstn tagsize (cbc E bs blocks).
