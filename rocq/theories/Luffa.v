(** Luffa.v -- model of /repo/luffa (digest256.go, digest384.go, digest512.go, luffa.go); the straight-line parts and the tables are in
    LuffaTab.v. *)
From Coq Require Import List NArith Arith.
Require Import Verif.Base Verif.HashAPI Verif.Buf Verif.MD Verif.SpecLuffa Verif.LuffaTab.
Import ListNotations.
(** processBlock loads data with getu32 (utils.go:7-9) and runs each step loop for r = 0..7 on its lane (digest256.go:284-459,
    digest384.go:395-629, digest512.go:542-834) *)
Definition lf_load (data : list N) : list N := map (fun k => be_val (slice data (4 * k) (4 * k + 4))) (seq 0 8).
Definition lf_loop (rc0 rc4 : list N) (V : list N) : list N := fold_left (fun V r => lf_step (at_ rc0 r) (at_ rc4 r) V) (seq 0 8) V.
Definition lf_lane (X : list N) (j : nat) : list N := slice X (8 * j) (8 * j + 8).
(** digest256.go:140-485 *)
Definition lf256_block (V data : list N) : list N :=
  let X := lf_mi256 V (lf_load data) in
  lf_loop lf_RC00_256 lf_RC04_256 (lf_lane X 0) ++ lf_loop lf_RC10_256 lf_RC14_256 (lf_lane X 1) ++ lf_loop lf_RC20_256 lf_RC24_256 (lf_lane X 2).
(** digest384.go:147-669 *)
Definition lf384_block (V data : list N) : list N :=
  let X := lf_mi384 V (lf_load data) in
  lf_loop lf_RC00_384 lf_RC04_384 (lf_lane X 0) ++ lf_loop lf_RC10_384 lf_RC14_384 (lf_lane X 1) ++ lf_loop lf_RC20_384 lf_RC24_384 (lf_lane X 2)
  ++ lf_loop lf_RC30_384 lf_RC34_384 (lf_lane X 3).
(** digest512.go:165-896 *)
Definition lf512_block (V data : list N) : list N :=
  let X := lf_mi512 V (lf_load data) in
  lf_loop lf_RC00_512 lf_RC04_512 (lf_lane X 0) ++ lf_loop lf_RC10_512 lf_RC14_512 (lf_lane X 1) ++ lf_loop lf_RC20_512 lf_RC24_512 (lf_lane X 2)
  ++ lf_loop lf_RC30_512 lf_RC34_512 (lf_lane X 3) ++ lf_loop lf_RC40_512 lf_RC44_512 (lf_lane X 4).
Definition lf_block (v : lfv) : list N -> list N -> list N := match v with LF256 => lf256_block | LF384 => lf384_block | LF512 => lf512_block end.
Definition lf_IV (v : lfv) : list N := match v with LF256 => lf_IV_256 | LF384 => lf_IV_384 | LF512 => lf_IV_512 end.
(** digest256.go:34-67, Reset (digest384.go, digest512.go likewise); the field s is never used *)
Definition lf_reset (v : lfv) : dig (list N) := mkdig (lf_IV v) (zeros 32) 0 0.
(** digest256.go:77-100, Write (digest384.go, digest512.go likewise) *)
Definition lf_write (v : lfv) : dig (list N) -> list N -> dig (list N) * nat := write_pre 32 (lf_block v).
(** digest256.go:127-137: V0k ^ V1k ^ ... *)
Definition lf_out (v : lfv) (V : list N) (k : nat) : N := fold_left (fun a j => N.lxor a (at_ V (8 * j + k))) (seq 1 (lf_w v - 1)) (at_ V k).
(** digest256.go:109-138, digest384.go:113-145, digest512.go:122-163, checkSum.  tmpBuf is zero when checkSum starts: Reset clears it and
    only checkSum, which works on a copy, writes to it.  [hs] is d.hs (28 or 32), 48 or 64. *)
Definition lf_checkSum (v : lfv) (hs : nat) (d : dig (list N)) : list N :=
  let ptr := dnx d in
  let tmp := copy_at (upd (zeros 32) ptr 128%N) (S ptr) (zeros (31 - ptr)) in
  let d := fst (lf_write v d (skipn ptr tmp)) in
  let tmp := copy_at tmp 0 (zeros (S ptr)) in
  let d := fst (lf_write v d tmp) in
  match v with
  | LF256 => flat_map (fun k => be_bytes 4 (lf_out v (ds d) k)) (seq 0 (if hs =? 32 then 8 else 7))
  | LF384 => flat_map (fun k => be_bytes 4 (lf_out v (ds d) k)) (seq 0 8) ++
             (let d := fst (lf_write v d tmp) in flat_map (fun k => be_bytes 4 (lf_out v (ds d) k)) (seq 0 4))
  | LF512 => flat_map (fun k => be_bytes 4 (lf_out v (ds d) k)) (seq 0 8) ++
             (let d := fst (lf_write v d tmp) in flat_map (fun k => be_bytes 4 (lf_out v (ds d) k)) (seq 0 8))
  end.
Definition lf_impl (v : lfv) (hs : nat) : impl (dig (list N)) :=
  mkimpl (lf_write v) (fun d i => (d, i ++ lf_checkSum v hs d)) (fun _ => lf_reset v).
(** luffa.go:9-69: Sum224, Sum256, Sum384, Sum512 (copy of Sum(nil) into an array of the same size) *)
Definition lf_Sum (v : lfv) (hs : nat) (data : list N) : list N :=
  copy_at (zeros hs) 0 (lf_checkSum v hs (fst (lf_write v (lf_reset v) data))).
