(** Haraka.v -- model of the haraka package: the portable path (haraka_ref.go, aes.go) and the AES-NI path
    (haraka_amd64.s).  Byte arrays are lists of numbers below 256. *)
From Coq Require Import List NArith Arith.
Require Import Verif.Base Verif.Buf Verif.SpecAes Verif.HarakaTab.
Import ListNotations.

(** * The portable path *)
(** t[byte(x)] *)
Definition hkt (t : list N) (x : N) : N := at_ t (N.to_nat (w8 x)).
(** haraka/aes.go:6-12, aesRound: key and a are slices of four words; the result is the new contents of a. *)
Definition hk_aesRound (key a : list N) : list N :=
  let a0 := at_ a 0 in let a1 := at_ a 1 in let a2 := at_ a 2 in let a3 := at_ a 3 in
  [N.lxor (N.lxor (N.lxor (N.lxor (hkt hk_t0 a0) (hkt hk_t1 (N.shiftr a1 8))) (hkt hk_t2 (N.shiftr a2 16))) (hkt hk_t3 (N.shiftr a3 24))) (at_ key 0);
   N.lxor (N.lxor (N.lxor (N.lxor (hkt hk_t0 a1) (hkt hk_t1 (N.shiftr a2 8))) (hkt hk_t2 (N.shiftr a3 16))) (hkt hk_t3 (N.shiftr a0 24))) (at_ key 1);
   N.lxor (N.lxor (N.lxor (N.lxor (hkt hk_t0 a2) (hkt hk_t1 (N.shiftr a3 8))) (hkt hk_t2 (N.shiftr a0 16))) (hkt hk_t3 (N.shiftr a1 24))) (at_ key 2);
   N.lxor (N.lxor (N.lxor (N.lxor (hkt hk_t0 a3) (hkt hk_t1 (N.shiftr a0 8))) (hkt hk_t2 (N.shiftr a1 16))) (hkt hk_t3 (N.shiftr a2 24))) (at_ key 3)].
(** aesRound(rc[k:k+4], state[s:s+4]) *)
Definition hk_on (k s : nat) (st : list N) : list N := copy_at st s (hk_aesRound (slice hk_rc k (k + 4)) (slice st s (s + 4))).
(** haraka/haraka_ref.go:112-115, mix256 *)
Definition hk_mixr256 (s : list N) : list N := map (at_ s) [0; 4; 1; 5; 2; 6; 3; 7].
(** haraka/haraka_ref.go:118-123, mix512 *)
Definition hk_mixr512 (s : list N) : list N := map (at_ s) [3; 11; 7; 15; 8; 0; 12; 4; 9; 1; 13; 5; 2; 10; 6; 14].
(** haraka/utils.go:7-9, GETU32(src[4*i:4*i+4]) for i < n *)
Definition hk_get (n : nat) (src : list N) : list N := map (fun i => le_val (slice src (4 * i) (4 * i + 4))) (seq 0 n).
(** haraka/haraka_ref.go:5-44, haraka256Ref: the contents of dst *)
Definition haraka256Ref (src : list N) : list N :=
  let st := hk_get 8 src in
  let st := fold_left (fun st i =>
    let st := hk_on (16 * i) 0 st in let st := hk_on (16 * i + 4) 4 st in
    let st := hk_on (16 * i + 8) 0 st in let st := hk_on (16 * i + 12) 4 st in
    hk_mixr256 st) (seq 0 5) st in
  let st := map (fun i => N.lxor (at_ st i) (le_val (slice src (4 * i) (4 * i + 4)))) (seq 0 8) in
  concat (map (fun i => le_bytes 4 (at_ st i)) [0; 1; 2; 3; 4; 5; 6; 7]).
(** haraka/haraka_ref.go:46-104, haraka512Ref *)
Definition haraka512Ref (src : list N) : list N :=
  let st := hk_get 16 src in
  let st := fold_left (fun st i =>
    let st := hk_on (32 * i) 0 st in let st := hk_on (32 * i + 4) 4 st in
    let st := hk_on (32 * i + 8) 8 st in let st := hk_on (32 * i + 12) 12 st in
    let st := hk_on (32 * i + 16) 0 st in let st := hk_on (32 * i + 20) 4 st in
    let st := hk_on (32 * i + 24) 8 st in let st := hk_on (32 * i + 28) 12 st in
    hk_mixr512 st) (seq 0 5) st in
  let st := map (fun i => N.lxor (at_ st i) (le_val (slice src (4 * i) (4 * i + 4)))) (seq 0 16) in
  concat (map (fun i => le_bytes 4 (at_ st i)) [2; 3; 6; 7; 8; 9; 12; 13]).

(** * The AES-NI path *)
(** The instructions used by haraka_amd64.s, operands in the order of the Go assembler (source first).  AX, BX and DX
    hold the addresses of rc, src and dst and are never written, so LOAD off x is MOVUPS off(BX), Xx, STORE x off is
    MOVUPS Xx, off(DX), and AESENC off x reads its key at off(AX).  Alignment of memory operands is not modelled. *)
Inductive hk_instr : Type :=
| LOAD (off x : nat) | STORE (x off : nat) | MOVUPS (a b : nat) | AESENC (off x : nat) | PUNPCKLLQ (a b : nat)
| PUNPCKHLQ (a b : nat) | PXOR (a b : nat) | MOVHLPS (a b : nat) | MOVLHPS (a b : nat).
(** Registers X0..X15 of 16 bytes, and the 32 bytes at dst. *)
Record hk_cpu : Type := mkcpu { hk_regs : list (list N); hk_dst : list N }.
Definition hk_bxor (a b : list N) : list N := map (fun i => N.lxor (at_ a i) (at_ b i)) (seq 0 16).
(** rc in memory, little endian *)
Definition hk_rcmem : list N := concat (map (le_bytes 4) hk_rc).
(** Semantics of the instructions (Intel SDM volume 2). *)
Definition hk_step (src : list N) (c : hk_cpu) (i : hk_instr) : hk_cpu :=
  let R := hk_regs c in
  let x n := nth n R [] in
  let set n v := mkcpu (firstn n R ++ [v] ++ skipn (S n) R) (hk_dst c) in
  match i with
  | LOAD off n => set n (slice src off (off + 16))
  | STORE n off => mkcpu R (copy_at (hk_dst c) off (x n))
  | MOVUPS a b => set b (x a)
  | AESENC off n => set n (hk_bxor (aes_round (x n)) (slice hk_rcmem off (off + 16)))
  | PUNPCKLLQ a b => set b (slice (x b) 0 4 ++ slice (x a) 0 4 ++ slice (x b) 4 8 ++ slice (x a) 4 8)
  | PUNPCKHLQ a b => set b (slice (x b) 8 12 ++ slice (x a) 8 12 ++ slice (x b) 12 16 ++ slice (x a) 12 16)
  | PXOR a b => set b (hk_bxor (x b) (x a))
  | MOVHLPS a b => set b (slice (x a) 8 16 ++ slice (x b) 8 16)
  | MOVLHPS a b => set b (slice (x b) 0 8 ++ slice (x a) 0 8)
  end.
Definition hk_exec (src : list N) (p : list hk_instr) (c : hk_cpu) : hk_cpu := fold_left (hk_step src) p c.
(** The programs, transcribed by script. *)
(** haraka/haraka_amd64.s:5-73, haraka256AES *)
Definition hk_prog256 : list hk_instr := [
  LOAD 0 0; LOAD 16 1; MOVUPS 0 2; MOVUPS 1 3; AESENC 0 0; AESENC 16 1; AESENC 32 0; AESENC 48 1;
  MOVUPS 0 4; PUNPCKLLQ 1 0; PUNPCKHLQ 1 4; MOVUPS 4 1; AESENC 64 0; AESENC 80 1; AESENC 96 0; AESENC 112 1;
  MOVUPS 0 4; PUNPCKLLQ 1 0; PUNPCKHLQ 1 4; MOVUPS 4 1; AESENC 128 0; AESENC 144 1; AESENC 160 0; AESENC 176 1;
  MOVUPS 0 4; PUNPCKLLQ 1 0; PUNPCKHLQ 1 4; MOVUPS 4 1; AESENC 192 0; AESENC 208 1; AESENC 224 0; AESENC 240 1;
  MOVUPS 0 4; PUNPCKLLQ 1 0; PUNPCKHLQ 1 4; MOVUPS 4 1; AESENC 256 0; AESENC 272 1; AESENC 288 0; AESENC 304 1;
  MOVUPS 0 4; PUNPCKLLQ 1 0; PUNPCKHLQ 1 4; MOVUPS 4 1; PXOR 2 0; PXOR 3 1; STORE 0 0; STORE 1 16].
(** haraka/haraka_amd64.s:76-269, haraka512AES *)
Definition hk_prog512 : list hk_instr := [
  LOAD 0 0; LOAD 16 1; LOAD 32 2; LOAD 48 3; MOVUPS 0 4; MOVUPS 1 5; MOVUPS 2 6; MOVUPS 3 7;
  AESENC 0 0; AESENC 16 1; AESENC 32 2; AESENC 48 3; AESENC 64 0; AESENC 80 1; AESENC 96 2; AESENC 112 3;
  MOVUPS 0 8; PUNPCKLLQ 1 0; PUNPCKHLQ 1 8; MOVUPS 8 1; MOVUPS 2 8; PUNPCKLLQ 3 2; PUNPCKHLQ 3 8; MOVUPS 8 3;
  MOVUPS 2 8; PUNPCKLLQ 0 2; PUNPCKHLQ 0 8; MOVUPS 8 0; MOVUPS 1 8; PUNPCKLLQ 3 1; PUNPCKHLQ 3 8; MOVUPS 1 3;
  MOVUPS 2 1; MOVUPS 0 2; MOVUPS 8 0; AESENC 128 0; AESENC 144 1; AESENC 160 2; AESENC 176 3; AESENC 192 0;
  AESENC 208 1; AESENC 224 2; AESENC 240 3; MOVUPS 0 8; PUNPCKLLQ 1 0; PUNPCKHLQ 1 8; MOVUPS 8 1; MOVUPS 2 8;
  PUNPCKLLQ 3 2; PUNPCKHLQ 3 8; MOVUPS 8 3; MOVUPS 2 8; PUNPCKLLQ 0 2; PUNPCKHLQ 0 8; MOVUPS 8 0; MOVUPS 1 8;
  PUNPCKLLQ 3 1; PUNPCKHLQ 3 8; MOVUPS 1 3; MOVUPS 2 1; MOVUPS 0 2; MOVUPS 8 0; AESENC 256 0; AESENC 272 1;
  AESENC 288 2; AESENC 304 3; AESENC 320 0; AESENC 336 1; AESENC 352 2; AESENC 368 3; MOVUPS 0 8; PUNPCKLLQ 1 0;
  PUNPCKHLQ 1 8; MOVUPS 8 1; MOVUPS 2 8; PUNPCKLLQ 3 2; PUNPCKHLQ 3 8; MOVUPS 8 3; MOVUPS 2 8; PUNPCKLLQ 0 2;
  PUNPCKHLQ 0 8; MOVUPS 8 0; MOVUPS 1 8; PUNPCKLLQ 3 1; PUNPCKHLQ 3 8; MOVUPS 1 3; MOVUPS 2 1; MOVUPS 0 2;
  MOVUPS 8 0; AESENC 384 0; AESENC 400 1; AESENC 416 2; AESENC 432 3; AESENC 448 0; AESENC 464 1; AESENC 480 2;
  AESENC 496 3; MOVUPS 0 8; PUNPCKLLQ 1 0; PUNPCKHLQ 1 8; MOVUPS 8 1; MOVUPS 2 8; PUNPCKLLQ 3 2; PUNPCKHLQ 3 8;
  MOVUPS 8 3; MOVUPS 2 8; PUNPCKLLQ 0 2; PUNPCKHLQ 0 8; MOVUPS 8 0; MOVUPS 1 8; PUNPCKLLQ 3 1; PUNPCKHLQ 3 8;
  MOVUPS 1 3; MOVUPS 2 1; MOVUPS 0 2; MOVUPS 8 0; AESENC 512 0; AESENC 528 1; AESENC 544 2; AESENC 560 3;
  AESENC 576 0; AESENC 592 1; AESENC 608 2; AESENC 624 3; MOVUPS 0 8; PUNPCKLLQ 1 0; PUNPCKHLQ 1 8; MOVUPS 8 1;
  MOVUPS 2 8; PUNPCKLLQ 3 2; PUNPCKHLQ 3 8; MOVUPS 8 3; MOVUPS 2 8; PUNPCKLLQ 0 2; PUNPCKHLQ 0 8; MOVUPS 8 0;
  MOVUPS 1 8; PUNPCKLLQ 3 1; PUNPCKHLQ 3 8; MOVUPS 1 3; MOVUPS 2 1; MOVUPS 0 2; MOVUPS 8 0; PXOR 4 0;
  PXOR 5 1; PXOR 6 2; PXOR 7 3; MOVHLPS 0 1; MOVLHPS 3 2; STORE 1 0; STORE 2 16].

(** Called with any register contents; output is a zeroed array. *)
Definition haraka256AES (regs : list (list N)) (src : list N) : list N := hk_dst (hk_exec src hk_prog256 (mkcpu regs (zeros 32))).
Definition haraka512AES (regs : list (list N)) (src : list N) : list N := hk_dst (hk_exec src hk_prog512 (mkcpu regs (zeros 32))).
(** haraka/haraka.go:7-15, 19-27, Haraka256 and Haraka512 (hasAES: init_amd64.go:7-9) *)
Definition Haraka256 (hasAES : bool) (regs : list (list N)) (input : list N) : list N :=
  if hasAES then haraka256AES regs input else haraka256Ref input.
Definition Haraka512 (hasAES : bool) (regs : list (list N)) (input : list N) : list N :=
  if hasAES then haraka512AES regs input else haraka512Ref input.
