(** Cube.v -- model of /repo/cubehash (digest.go, cubehash.go, utils.go). *)
From Coq Require Import List NArith Arith Lia Bool.
From Verif Require Import Base Buf MD HashAPI.
Import ListNotations.

(** utils.go:45-47 rotl; 49-99 round *)
Definition ch_swap (x : list N) (ab : nat * nat) : list N :=
  let '(a, b) := ab in upd (upd x a (at_ x b)) b (at_ x a).
Definition ch_addrot (n : N) (x : list N) (i : nat) : list N :=
  let x := upd x (i + 16) (add32 (at_ x (i + 16)) (at_ x i)) in upd x i (rotl32 (at_ x i) n).
Definition ch_xor (x : list N) (i : nat) : list N := upd x i (N.lxor (at_ x i) (at_ x (i + 16))).
Definition ch_round (x : list N) : list N :=
  let x := fold_left (ch_addrot 7) (seq 0 16) x in
  let x := fold_left ch_swap [(0, 8); (1, 9); (2, 10); (3, 11); (4, 12); (5, 13); (6, 14); (7, 15)] x in
  let x := fold_left ch_xor (seq 0 16) x in
  let x := fold_left ch_swap [(16, 18); (17, 19); (20, 22); (21, 23); (24, 26); (25, 27); (28, 30); (29, 31)] x in
  let x := fold_left (ch_addrot 11) (seq 0 16) x in
  let x := fold_left ch_swap [(0, 4); (1, 5); (2, 6); (3, 7); (8, 12); (9, 13); (10, 14); (11, 15)] x in
  let x := fold_left ch_xor (seq 0 16) x in
  fold_left ch_swap [(16, 17); (18, 19); (20, 21); (22, 23); (24, 25); (26, 27); (28, 29); (30, 31)] x.

(** digest.go:23-34: the parameters hs (bits), bs, r, ir, fr *)
Record ch_cfg := { c_hs : nat; c_bs : nat; c_r : nat; c_ir : nat; c_fr : nat }.
Section M.
Variable c : ch_cfg.
(** digest.go:117-131 initRound *)
Definition ch_init : list N := Nat.iter (c_ir c) ch_round (w32 (N.of_nat (c_hs c / 8)) :: w32 (N.of_nat (c_bs c)) :: w32 (N.of_nat (c_r c)) :: zeros 29).
(** digest.go:133-142 ingest (for bs/4 <= 32; with a larger bs the index x[n] panics) *)
Definition ch_ingest (x p : list N) : list N :=
  Nat.iter (c_r c) ch_round (fold_left (fun x n => upd x n (N.lxor (at_ x n) (le_val (slice p (n * 4) (n * 4 + 4))))) (seq 0 (c_bs c / 4)) x).
(** digest.go:37-57 newDigest, Reset *)
Definition ch_new : dig (list N) := mkdig ch_init (zeros (c_bs c)) 0 0.
(** digest.go:67-90 Write (len is never updated) *)
Definition ch_write : dig (list N) -> list N -> dig (list N) * nat := write_nolen (c_bs c) ch_ingest.
(** digest.go:99-115 checkSum, on a copy of the state; x[:hs/32] (hs <= 1024) *)
Definition ch_checkSum (d : dig (list N)) : list N :=
  let pad := copy_at (zeros (c_bs c)) 0 (firstn (dnx d) (dx d)) in
  let pad := upd pad (dnx d) 0x80%N in
  let x := ch_ingest (ds d) pad in
  let x := upd x 31 (N.lxor (at_ x 31) 1) in
  let x := Nat.iter (c_fr c) ch_round x in
  concat (map (le_bytes 4) (firstn (c_hs c / 32) x)).
(** digest.go:59-61 Size, 92-97 Sum, 144-160 copy *)
Definition ch_Size : nat := c_hs c / 8.
Definition ch_sum (d : dig (list N)) (inp : list N) : dig (list N) * list N := (d, inp ++ ch_checkSum d).
Definition ch_impl : impl (dig (list N)) := mkimpl ch_write ch_sum (fun _ => ch_new).
(** digest.go:162-171 MarshalBinary *)
Definition ch_marshal (d : dig (list N)) : list N :=
  concat (map (le_bytes 4) (ds d)) ++ [w8 (N.of_nat (dnx d))] ++ firstn (dnx d) (dx d).
(** digest.go:173-196 UnmarshalBinary; None: errInvalid (the receiver is unchanged) *)
Definition ch_unmarshal (d : dig (list N)) (data : list N) : option (dig (list N)) :=
  if length data <? 129 then None else
  let n := N.to_nat (at_ data 128) in
  if (c_bs c <=? n) || (length data <? 129 + n) then None else
  Some (mkdig (map (fun k => le_val (slice data (k * 4) (k * 4 + 4))) (seq 0 32)) (copy_at (dx d) 0 (firstn n (skipn 129 data))) n 0).
(** cubehash.go: New..; Write(data); Sum(nil); copy into an array of [size] bytes *)
Definition ch_oneshot (size : nat) (data : list N) : list N :=
  copy_at (zeros size) 0 (firstn size (snd (ch_sum (fst (ch_write ch_new data)) []))).
End M.
(** cubehash.go:8-70 the constructors (NewCubehash passes its arguments on) *)
Definition NewCubehash (hashSize blockSize r ir fr : nat) : ch_cfg := {| c_hs := hashSize; c_bs := blockSize; c_r := r; c_ir := ir; c_fr := fr |}.
Definition HS512x := NewCubehash 512 1 16 16 32.
Definition HS512 := NewCubehash 512 32 16 16 32.
Definition HS384 := NewCubehash 384 32 16 16 32.
Definition HS256 := NewCubehash 256 32 16 16 32.
Definition HS224 := NewCubehash 224 32 16 16 32.
Definition HS192 := NewCubehash 192 32 16 16 32.
Definition HS160 := NewCubehash 160 32 16 16 32.
Definition HS128 := NewCubehash 128 32 16 16 32.
Definition SH512 := NewCubehash 512 32 16 160 160.
Definition SH256 := NewCubehash 256 32 16 160 160.
Definition SH224 := NewCubehash 224 32 16 160 160.
Definition SH192 := NewCubehash 192 32 16 160 160.
(** cubehash.go:74-186: the one-shot functions, (digest, size of the result array) *)
Definition ch_oneshots : list (ch_cfg * nat) :=
  [(HS512, 64); (HS384, 48); (HS256, 32); (HS224, 28); (HS192, 24); (HS160, 20); (HS128, 16); (SH512, 64); (SH256, 32); (SH224, 28); (SH192, 24)].
