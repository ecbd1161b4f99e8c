(** SpecTiger.v -- Tiger and Tiger2 as specified by Anderson and Biham ("Tiger: A Fast
    New Hash Function", FSE 1996) with the authors' S-box generation procedure.
    Written from the paper, independent of the model: in particular the S-boxes are
    not copied from /repo, they are computed by [tiger_gen]. *)
From Coq Require Import List NArith Arith String.
From Verif Require Import Base Buf.
Import ListNotations.
Local Open Scope N_scope.

(** Four S-boxes of 256 64-bit entries. *)
Definition sboxes : Type := (list N * list N * list N * list N)%type.

Definition tbyte (c : N) (i : N) : nat := N.to_nat (N.land (N.shiftr c (8 * i)) 255).

(** One round on the register triple; the next round uses the triple rotated. *)
Definition tg_round (T : sboxes) (mul : N) (v : N * N * N) (x : N) : N * N * N :=
  let '(t1, t2, t3, t4) := T in
  let '(a, b, c) := v in
  let c := N.lxor c x in
  let even := N.lxor (N.lxor (N.lxor (at_ t1 (tbyte c 0)) (at_ t2 (tbyte c 2))) (at_ t3 (tbyte c 4))) (at_ t4 (tbyte c 6)) in
  let odd := N.lxor (N.lxor (N.lxor (at_ t4 (tbyte c 1)) (at_ t3 (tbyte c 3))) (at_ t2 (tbyte c 5))) (at_ t1 (tbyte c 7)) in
  (mul64 (add64 b odd) mul, c, sub64 a even).

(** Key schedule: two passes over the eight message words. *)
Definition tg_keys (x : list N) : list N :=
  match x with
  | [x0; x1; x2; x3; x4; x5; x6; x7] =>
    let x0 := sub64 x0 (N.lxor x7 0xa5a5a5a5a5a5a5a5) in
    let x1 := N.lxor x1 x0 in
    let x2 := add64 x2 x1 in
    let x3 := sub64 x3 (N.lxor x2 (shl64 (not64 x1) 19)) in
    let x4 := N.lxor x4 x3 in
    let x5 := add64 x5 x4 in
    let x6 := sub64 x6 (N.lxor x5 (N.shiftr (not64 x4) 23)) in
    let x7 := N.lxor x7 x6 in
    let x0 := add64 x0 x7 in
    let x1 := sub64 x1 (N.lxor x0 (shl64 (not64 x7) 19)) in
    let x2 := N.lxor x2 x1 in
    let x3 := add64 x3 x2 in
    let x4 := sub64 x4 (N.lxor x3 (N.shiftr (not64 x2) 23)) in
    let x5 := N.lxor x5 x4 in
    let x6 := add64 x6 x5 in
    let x7 := sub64 x7 (N.lxor x6 0x0123456789abcdef) in
    [x0; x1; x2; x3; x4; x5; x6; x7]
  | _ => x
  end.

(** 24 rounds in three passes with multipliers 5, 7, 9, then the feed-forward. *)
Definition tg_compress (T : sboxes) (s : N * N * N) (b : list N) : N * N * N :=
  let x := map le_val (chunks 8 b) in
  let v := fold_left (tg_round T 5) x s in
  let v := fold_left (tg_round T 7) (tg_keys x) v in
  let '(a, b, c) := fold_left (tg_round T 9) (tg_keys (tg_keys x)) v in
  let '(a0, b0, c0) := s in
  (N.lxor a a0, sub64 b b0, add64 c c0).

Definition tg_iv : N * N * N := (0x0123456789ABCDEF, 0xFEDCBA9876543210, 0xF096A5B4C3B2E187).

(** ** S-box generation (program gen.c distributed with the paper) *)
Definition tg_byte_at (v : N) (col : nat) : N := N.land (N.shiftr v (8 * N.of_nat col)) 255.
Definition tg_set_byte (v : N) (col : nat) (b : N) : N :=
  let sh := 8 * N.of_nat col in
  N.lor (N.ldiff v (N.shiftl 255 sh)) (N.shiftl b sh).
(** Exchange byte [col] of entries i and j. *)
Definition tg_swap (t : list N) (i j : nat) (col : nat) : list N :=
  let bi := tg_byte_at (at_ t i) col in
  let bj := tg_byte_at (at_ t j) col in
  let t := upd t i (tg_set_byte (at_ t i) col bj) in
  upd t j (tg_set_byte (at_ t j) col bi).
Definition tg_get (T : sboxes) (sb : nat) : list N :=
  let '(t1, t2, t3, t4) := T in match sb with O => t1 | 1%nat => t2 | 2%nat => t3 | _ => t4 end.
Definition tg_put (T : sboxes) (sb : nat) (t : list N) : sboxes :=
  let '(t1, t2, t3, t4) := T in
  match sb with O => (t, t2, t3, t4) | 1%nat => (t1, t, t3, t4) | 2%nat => (t1, t2, t, t4) | _ => (t1, t2, t3, t) end.
Definition tg_string : list N :=
  bytes_of_string "Tiger - A Fast New Hash Function, by Ross Anderson and Eli Biham".
Definition tg_reg (s : N * N * N) (abc : nat) : N :=
  let '(a, b, c) := s in match abc with O => a | 1%nat => b | _ => c end.
Definition tg_gen_step (st : sboxes * (N * N * N) * nat) (p : nat * nat) : sboxes * (N * N * N) * nat :=
  let '(T, s, abc) := st in
  let '(i, sb) := p in
  let abc := S abc in
  let '(s, abc) := if (abc =? 3)%nat then (tg_compress T s tg_string, O) else (s, abc) in
  let r := tg_reg s abc in
  let t := fold_left (fun t col => tg_swap t i (N.to_nat (tg_byte_at r col)) col) (seq 0 8) (tg_get T sb) in
  (tg_put T sb t, s, abc).
Definition tg_init_sbox : list N := map (fun i => N.of_nat i * 0x0101010101010101) (seq 0 256).
Definition tiger_gen (passes : nat) : sboxes :=
  let init := (tg_init_sbox, tg_init_sbox, tg_init_sbox, tg_init_sbox) in
  let one := list_prod (seq 0 256) (seq 0 4) in
  fst (fst (fold_left tg_gen_step (List.concat (repeat one passes)) (init, tg_iv, 2%nat))).
Definition tiger_sboxes : sboxes := tiger_gen 5.

(** MD4-style padding with marker 0x01 (Tiger) or 0x80 (Tiger2), 64-bit little-endian
    bit length; the digest is the first [size] bytes of the three words. *)
Definition tiger_spec (marker : N) (size : nat) (m : list N) : list N :=
  let '(a, b, c) :=
    fold_left (tg_compress tiger_sboxes)
      (chunks 64 (md_pad 64 marker (le_bytes 8 (8 * N.of_nat (List.length m))) m)) tg_iv in
  firstn size (le_bytes 8 a ++ le_bytes 8 b ++ le_bytes 8 c).
