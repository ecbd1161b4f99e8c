(** Blake512.v -- model of package /repo/blake512 (digest.go, utils.go, sbox.go, binary.go, blake512.go). *)
From Coq Require Import List NArith Arith Lia Bool.
From Verif Require Import Base Words HashAPI Buf MD SpecBlake.
Import ListNotations.

(** sbox.go:3-20 *)
Definition b512_sigma : list nat := [
  0; 1; 2; 3; 4; 5; 6; 7; 8; 9; 10; 11; 12; 13; 14; 15;
  14; 10; 4; 8; 9; 15; 13; 6; 1; 12; 0; 2; 11; 7; 5; 3;
  11; 8; 12; 0; 5; 2; 15; 13; 10; 14; 3; 6; 7; 1; 9; 4;
  7; 9; 3; 1; 13; 12; 11; 14; 2; 6; 5; 10; 4; 0; 15; 8;
  9; 0; 5; 7; 2; 4; 10; 15; 14; 1; 11; 12; 6; 8; 3; 13;
  2; 12; 6; 10; 0; 11; 8; 3; 4; 13; 7; 5; 15; 14; 1; 9;
  12; 5; 1; 15; 14; 13; 4; 10; 0; 7; 6; 3; 9; 2; 8; 11;
  13; 11; 7; 14; 12; 1; 3; 9; 5; 0; 15; 4; 8; 6; 2; 10;
  6; 15; 14; 9; 11; 3; 0; 8; 12; 2; 13; 7; 1; 4; 10; 5;
  10; 2; 8; 4; 7; 6; 1; 5; 15; 11; 9; 14; 3; 12; 13; 0;
  0; 1; 2; 3; 4; 5; 6; 7; 8; 9; 10; 11; 12; 13; 14; 15;
  14; 10; 4; 8; 9; 15; 13; 6; 1; 12; 0; 2; 11; 7; 5; 3;
  11; 8; 12; 0; 5; 2; 15; 13; 10; 14; 3; 6; 7; 1; 9; 4;
  7; 9; 3; 1; 13; 12; 11; 14; 2; 6; 5; 10; 4; 0; 15; 8;
  9; 0; 5; 7; 2; 4; 10; 15; 14; 1; 11; 12; 6; 8; 3; 13;
  2; 12; 6; 10; 0; 11; 8; 3; 4; 13; 7; 5; 15; 14; 1; 9].
(** sbox.go:22-31 *)
Definition b512_cb : list N := [
  0x243F6A8885A308D3; 0x13198A2E03707344; 0xA4093822299F31D0; 0x082EFA98EC4E6C89;
  0x452821E638D01377; 0xBE5466CF34E90C6C; 0xC0AC29B7C97C50DD; 0x3F84D5B5B5470917;
  0x9216D5D98979FB1B; 0xD1310BA698DFB5AC; 0x2FFD72DBD01ADFB7; 0xB8E1AFED6A267E96;
  0xBA7C9045F12C7F99; 0x24A19947B3916CF7; 0x0801F2E2858EFC16; 0x636920D871574E69]%N.
(** sbox.go:33-45 *)
Definition b512_iv384 : list N := [
  0xCBBB9D5DC1059ED8; 0x629A292A367CD507; 0x9159015A3070DD17; 0x152FECD8F70E5939;
  0x67332667FFC00B31; 0x8EB44A8768581511; 0xDB0C2E0D64F98FA7; 0x47B5481DBEFA4FA4]%N.
Definition b512_iv512 : list N := [
  0x6A09E667F3BCC908; 0xBB67AE8584CAA73B; 0x3C6EF372FE94F82B; 0xA54FF53A5F1D36F1;
  0x510E527FADE682D1; 0x9B05688C2B3E6C1F; 0x1F83D9ABFB41BD6B; 0x5BE0CD19137E2179]%N.

(** digest.go:195-275, the body of the round loop, generated line by line and cut into its eight groups of ten
    lines; [o k] is sigma[(r << 4) + k], the list is v0 .. vF *)
(** digest.go:195-205 *)
Definition b512_q0 (m : list N) (o : nat -> nat) (v : list N) : list N :=
  let v0 := at_ v 0 in
  let v1 := at_ v 1 in
  let v2 := at_ v 2 in
  let v3 := at_ v 3 in
  let v4 := at_ v 4 in
  let v5 := at_ v 5 in
  let v6 := at_ v 6 in
  let v7 := at_ v 7 in
  let v8 := at_ v 8 in
  let v9 := at_ v 9 in
  let vA := at_ v 10 in
  let vB := at_ v 11 in
  let vC := at_ v 12 in
  let vD := at_ v 13 in
  let vE := at_ v 14 in
  let vF := at_ v 15 in
  let o0 := o 0 in
  let o1 := o 1 in
  let v0 := add64 v0 (add64 v4 (N.lxor (at_ m o0) (at_ b512_cb o1))) in
  let vC := rotr64 (N.lxor vC v0) 32 in
  let v8 := add64 v8 vC in
  let v4 := rotr64 (N.lxor v4 v8) 25 in
  let v0 := add64 v0 (add64 v4 (N.lxor (at_ m o1) (at_ b512_cb o0))) in
  let vC := rotr64 (N.lxor vC v0) 16 in
  let v8 := add64 v8 vC in
  let v4 := rotr64 (N.lxor v4 v8) 11 in
  [v0; v1; v2; v3; v4; v5; v6; v7; v8; v9; vA; vB; vC; vD; vE; vF].
(** digest.go:206-215 *)
Definition b512_q1 (m : list N) (o : nat -> nat) (v : list N) : list N :=
  let v0 := at_ v 0 in
  let v1 := at_ v 1 in
  let v2 := at_ v 2 in
  let v3 := at_ v 3 in
  let v4 := at_ v 4 in
  let v5 := at_ v 5 in
  let v6 := at_ v 6 in
  let v7 := at_ v 7 in
  let v8 := at_ v 8 in
  let v9 := at_ v 9 in
  let vA := at_ v 10 in
  let vB := at_ v 11 in
  let vC := at_ v 12 in
  let vD := at_ v 13 in
  let vE := at_ v 14 in
  let vF := at_ v 15 in
  let o0 := o 2 in
  let o1 := o 3 in
  let v1 := add64 v1 (add64 v5 (N.lxor (at_ m o0) (at_ b512_cb o1))) in
  let vD := rotr64 (N.lxor vD v1) 32 in
  let v9 := add64 v9 vD in
  let v5 := rotr64 (N.lxor v5 v9) 25 in
  let v1 := add64 v1 (add64 v5 (N.lxor (at_ m o1) (at_ b512_cb o0))) in
  let vD := rotr64 (N.lxor vD v1) 16 in
  let v9 := add64 v9 vD in
  let v5 := rotr64 (N.lxor v5 v9) 11 in
  [v0; v1; v2; v3; v4; v5; v6; v7; v8; v9; vA; vB; vC; vD; vE; vF].
(** digest.go:216-225 *)
Definition b512_q2 (m : list N) (o : nat -> nat) (v : list N) : list N :=
  let v0 := at_ v 0 in
  let v1 := at_ v 1 in
  let v2 := at_ v 2 in
  let v3 := at_ v 3 in
  let v4 := at_ v 4 in
  let v5 := at_ v 5 in
  let v6 := at_ v 6 in
  let v7 := at_ v 7 in
  let v8 := at_ v 8 in
  let v9 := at_ v 9 in
  let vA := at_ v 10 in
  let vB := at_ v 11 in
  let vC := at_ v 12 in
  let vD := at_ v 13 in
  let vE := at_ v 14 in
  let vF := at_ v 15 in
  let o0 := o 4 in
  let o1 := o 5 in
  let v2 := add64 v2 (add64 v6 (N.lxor (at_ m o0) (at_ b512_cb o1))) in
  let vE := rotr64 (N.lxor vE v2) 32 in
  let vA := add64 vA vE in
  let v6 := rotr64 (N.lxor v6 vA) 25 in
  let v2 := add64 v2 (add64 v6 (N.lxor (at_ m o1) (at_ b512_cb o0))) in
  let vE := rotr64 (N.lxor vE v2) 16 in
  let vA := add64 vA vE in
  let v6 := rotr64 (N.lxor v6 vA) 11 in
  [v0; v1; v2; v3; v4; v5; v6; v7; v8; v9; vA; vB; vC; vD; vE; vF].
(** digest.go:226-235 *)
Definition b512_q3 (m : list N) (o : nat -> nat) (v : list N) : list N :=
  let v0 := at_ v 0 in
  let v1 := at_ v 1 in
  let v2 := at_ v 2 in
  let v3 := at_ v 3 in
  let v4 := at_ v 4 in
  let v5 := at_ v 5 in
  let v6 := at_ v 6 in
  let v7 := at_ v 7 in
  let v8 := at_ v 8 in
  let v9 := at_ v 9 in
  let vA := at_ v 10 in
  let vB := at_ v 11 in
  let vC := at_ v 12 in
  let vD := at_ v 13 in
  let vE := at_ v 14 in
  let vF := at_ v 15 in
  let o0 := o 6 in
  let o1 := o 7 in
  let v3 := add64 v3 (add64 v7 (N.lxor (at_ m o0) (at_ b512_cb o1))) in
  let vF := rotr64 (N.lxor vF v3) 32 in
  let vB := add64 vB vF in
  let v7 := rotr64 (N.lxor v7 vB) 25 in
  let v3 := add64 v3 (add64 v7 (N.lxor (at_ m o1) (at_ b512_cb o0))) in
  let vF := rotr64 (N.lxor vF v3) 16 in
  let vB := add64 vB vF in
  let v7 := rotr64 (N.lxor v7 vB) 11 in
  [v0; v1; v2; v3; v4; v5; v6; v7; v8; v9; vA; vB; vC; vD; vE; vF].
(** digest.go:236-245 *)
Definition b512_q4 (m : list N) (o : nat -> nat) (v : list N) : list N :=
  let v0 := at_ v 0 in
  let v1 := at_ v 1 in
  let v2 := at_ v 2 in
  let v3 := at_ v 3 in
  let v4 := at_ v 4 in
  let v5 := at_ v 5 in
  let v6 := at_ v 6 in
  let v7 := at_ v 7 in
  let v8 := at_ v 8 in
  let v9 := at_ v 9 in
  let vA := at_ v 10 in
  let vB := at_ v 11 in
  let vC := at_ v 12 in
  let vD := at_ v 13 in
  let vE := at_ v 14 in
  let vF := at_ v 15 in
  let o0 := o 8 in
  let o1 := o 9 in
  let v0 := add64 v0 (add64 v5 (N.lxor (at_ m o0) (at_ b512_cb o1))) in
  let vF := rotr64 (N.lxor vF v0) 32 in
  let vA := add64 vA vF in
  let v5 := rotr64 (N.lxor v5 vA) 25 in
  let v0 := add64 v0 (add64 v5 (N.lxor (at_ m o1) (at_ b512_cb o0))) in
  let vF := rotr64 (N.lxor vF v0) 16 in
  let vA := add64 vA vF in
  let v5 := rotr64 (N.lxor v5 vA) 11 in
  [v0; v1; v2; v3; v4; v5; v6; v7; v8; v9; vA; vB; vC; vD; vE; vF].
(** digest.go:246-255 *)
Definition b512_q5 (m : list N) (o : nat -> nat) (v : list N) : list N :=
  let v0 := at_ v 0 in
  let v1 := at_ v 1 in
  let v2 := at_ v 2 in
  let v3 := at_ v 3 in
  let v4 := at_ v 4 in
  let v5 := at_ v 5 in
  let v6 := at_ v 6 in
  let v7 := at_ v 7 in
  let v8 := at_ v 8 in
  let v9 := at_ v 9 in
  let vA := at_ v 10 in
  let vB := at_ v 11 in
  let vC := at_ v 12 in
  let vD := at_ v 13 in
  let vE := at_ v 14 in
  let vF := at_ v 15 in
  let o0 := o 10 in
  let o1 := o 11 in
  let v1 := add64 v1 (add64 v6 (N.lxor (at_ m o0) (at_ b512_cb o1))) in
  let vC := rotr64 (N.lxor vC v1) 32 in
  let vB := add64 vB vC in
  let v6 := rotr64 (N.lxor v6 vB) 25 in
  let v1 := add64 v1 (add64 v6 (N.lxor (at_ m o1) (at_ b512_cb o0))) in
  let vC := rotr64 (N.lxor vC v1) 16 in
  let vB := add64 vB vC in
  let v6 := rotr64 (N.lxor v6 vB) 11 in
  [v0; v1; v2; v3; v4; v5; v6; v7; v8; v9; vA; vB; vC; vD; vE; vF].
(** digest.go:256-265 *)
Definition b512_q6 (m : list N) (o : nat -> nat) (v : list N) : list N :=
  let v0 := at_ v 0 in
  let v1 := at_ v 1 in
  let v2 := at_ v 2 in
  let v3 := at_ v 3 in
  let v4 := at_ v 4 in
  let v5 := at_ v 5 in
  let v6 := at_ v 6 in
  let v7 := at_ v 7 in
  let v8 := at_ v 8 in
  let v9 := at_ v 9 in
  let vA := at_ v 10 in
  let vB := at_ v 11 in
  let vC := at_ v 12 in
  let vD := at_ v 13 in
  let vE := at_ v 14 in
  let vF := at_ v 15 in
  let o0 := o 12 in
  let o1 := o 13 in
  let v2 := add64 v2 (add64 v7 (N.lxor (at_ m o0) (at_ b512_cb o1))) in
  let vD := rotr64 (N.lxor vD v2) 32 in
  let v8 := add64 v8 vD in
  let v7 := rotr64 (N.lxor v7 v8) 25 in
  let v2 := add64 v2 (add64 v7 (N.lxor (at_ m o1) (at_ b512_cb o0))) in
  let vD := rotr64 (N.lxor vD v2) 16 in
  let v8 := add64 v8 vD in
  let v7 := rotr64 (N.lxor v7 v8) 11 in
  [v0; v1; v2; v3; v4; v5; v6; v7; v8; v9; vA; vB; vC; vD; vE; vF].
(** digest.go:266-275 *)
Definition b512_q7 (m : list N) (o : nat -> nat) (v : list N) : list N :=
  let v0 := at_ v 0 in
  let v1 := at_ v 1 in
  let v2 := at_ v 2 in
  let v3 := at_ v 3 in
  let v4 := at_ v 4 in
  let v5 := at_ v 5 in
  let v6 := at_ v 6 in
  let v7 := at_ v 7 in
  let v8 := at_ v 8 in
  let v9 := at_ v 9 in
  let vA := at_ v 10 in
  let vB := at_ v 11 in
  let vC := at_ v 12 in
  let vD := at_ v 13 in
  let vE := at_ v 14 in
  let vF := at_ v 15 in
  let o0 := o 14 in
  let o1 := o 15 in
  let v3 := add64 v3 (add64 v4 (N.lxor (at_ m o0) (at_ b512_cb o1))) in
  let vE := rotr64 (N.lxor vE v3) 32 in
  let v9 := add64 v9 vE in
  let v4 := rotr64 (N.lxor v4 v9) 25 in
  let v3 := add64 v3 (add64 v4 (N.lxor (at_ m o1) (at_ b512_cb o0))) in
  let vE := rotr64 (N.lxor vE v3) 16 in
  let v9 := add64 v9 vE in
  let v4 := rotr64 (N.lxor v4 v9) 11 in
  [v0; v1; v2; v3; v4; v5; v6; v7; v8; v9; vA; vB; vC; vD; vE; vF].
Definition b512_rnd (m : list N) (o : nat -> nat) (v : list N) : list N :=
  b512_q7 m o (b512_q6 m o (b512_q5 m o (b512_q4 m o (b512_q3 m o (b512_q2 m o (b512_q1 m o (b512_q0 m o v))))))).
Definition b512_round (m : list N) (v : list N) (r : nat) : list N := b512_rnd m (fun k => nth (r * 16 + k) b512_sigma 0) v.

(** utils.go:50-61 bytesToUint64s *)
Definition b512_words (b : list N) : list N := map (fun i => be_val (slice b (i * 8) (i * 8 + 8))) (seq 0 (length b / 8)).

(** the fields h and t of the struct (digest.go:14-25) *)
Record b512st := mkb512 { ch : list N; ct0 : N; ct1 : N }.

(** uint64(^0x3FF), digest.go:166 *)
Definition b512_mask : N := 0xFFFFFFFFFFFFFC00%N.

(** digest.go:164-286 compress; [s] is the field s *)
Definition b512_compress (s : list N) (st : b512st) (data : list N) : b512st :=
  let h := ch st in
  let t0 := add64 (ct0 st) 1024 in
  let t1 := if N.eqb (N.land t0 b512_mask) 0 then add64 (ct1 st) 1 else ct1 st in
  let v := [at_ h 0; at_ h 1; at_ h 2; at_ h 3; at_ h 4; at_ h 5; at_ h 6; at_ h 7;
            N.lxor (at_ s 0) 0x243F6A8885A308D3; N.lxor (at_ s 1) 0x13198A2E03707344; N.lxor (at_ s 2) 0xA4093822299F31D0; N.lxor (at_ s 3) 0x082EFA98EC4E6C89;
            N.lxor t0 0x452821E638D01377; N.lxor t0 0xBE5466CF34E90C6C; N.lxor t1 0xC0AC29B7C97C50DD; N.lxor t1 0x3F84D5B5B5470917]%N in
  let m := map (fun i => be_val (firstn 8 (skipn (8 * i) data))) (seq 0 16) in
  let v := fold_left (b512_round m) (seq 0 16) v in
  let x := fun a b c d => N.lxor a (N.lxor (N.lxor b c) d) in
  mkb512 [x (at_ h 0) (at_ s 0) (at_ v 0) (at_ v 8); x (at_ h 1) (at_ s 1) (at_ v 1) (at_ v 9);
          x (at_ h 2) (at_ s 2) (at_ v 2) (at_ v 10); x (at_ h 3) (at_ s 3) (at_ v 3) (at_ v 11);
          x (at_ h 4) (at_ s 0) (at_ v 4) (at_ v 12); x (at_ h 5) (at_ s 1) (at_ v 5) (at_ v 13);
          x (at_ h 6) (at_ s 2) (at_ v 6) (at_ v 14); x (at_ h 7) (at_ s 3) (at_ v 7) (at_ v 15)] t0 t1.

Definition b512 : Type := (list N * dig b512st)%type.
(** digest.go:37-45 Reset *)
Definition b512_reset (iv : list N) (d : b512) : b512 := (zeros 4, mkdig (mkb512 iv 0 0) (zeros 128) 0 0).
(** digest.go:27-34 *)
Definition b512_new (iv : list N) : b512 := (zeros 4, mkdig (mkb512 iv 0 0) (zeros 128) 0 0).
(** digest.go:288-295, blake512.go:11-15 *)
Definition b512_newWithSalt (iv salt : list N) : option b512 :=
  if length salt =? 32 then Some (b512_words salt, snd (b512_new iv)) else None.
(** digest.go:55-79 Write *)
Definition b512_write (d : b512) (p : list N) : b512 * nat :=
  let '(d', n) := write_pre 128 (b512_compress (fst d)) (snd d) p in ((fst d, d'), n).
Definition b512_w (p : list N) (d : b512) : b512 := fst (b512_write d p).
Definition b512_sett (t0 t1 : N) (d : b512) : b512 :=
  (fst d, mkdig (mkb512 (ch (ds (snd d))) t0 t1) (dx (snd d)) (dnx (snd d)) (dlen (snd d))).

(** digest.go:90-144, checkSum up to the output; [tmpBuf] is the local array *)
Definition b512_final (hs : nat) (d : b512) : b512 :=
  let ptr := dnx (snd d) in
  let bitLen := shl64 (N.of_nat ptr) 3 in
  let t0 := ct0 (ds (snd d)) in
  let t1 := ct1 (ds (snd d)) in
  let th := t1 in
  let tl := add64 t0 bitLen in
  let buf := upd (zeros 128) ptr 0x80%N in
  let d := if ptr =? 0 then b512_sett 0xFFFFFFFFFFFFFC00 0xFFFFFFFFFFFFFFFF d
           else if N.eqb t0 0 then b512_sett (add64 0xFFFFFFFFFFFFFC00 bitLen) (sub64 t1 1) d
           else b512_sett (sub64 t0 (sub64 1024 bitLen)) t1 d in
  if ptr <? 112 then
    let buf := fold_left (fun b i => upd b i 0%N) (seq (ptr + 1) (112 - (ptr + 1))) buf in
    let buf := if hs =? 64 then upd buf 111 (N.lor (at_ buf 111) 1) else buf in
    let buf := copy_at (copy_at buf 112 (be_bytes 8 th)) 120 (be_bytes 8 tl) in
    b512_w (skipn ptr buf) d
  else
    let buf := fold_left (fun b i => upd b i 0%N) (seq (ptr + 1) (128 - (ptr + 1))) buf in
    let d := b512_w (skipn ptr buf) d in
    let d := b512_sett 0xFFFFFFFFFFFFFC00 0xFFFFFFFFFFFFFFFF d in
    let buf := fold_left (fun b i => upd b i 0%N) (seq 0 112) buf in
    let buf := if hs =? 64 then upd buf 111 1%N else buf in
    let buf := copy_at (copy_at buf 112 (be_bytes 8 th)) 120 (be_bytes 8 tl) in
    b512_w buf d.
(** digest.go:146-161 *)
Definition b512_checkSum (hs : nat) (d : b512) : list N :=
  let h := ch (ds (snd (b512_final hs d))) in
  let out := fold_left (fun o i => copy_at o (8 * i) (be_bytes 8 (at_ h i))) (seq 0 6) (zeros hs) in
  if hs =? 64 then fold_left (fun o i => copy_at o (8 * i) (be_bytes 8 (at_ h i))) (seq 6 2) out else out.
(** digest.go:82-88 *)
Definition b512_sum (hs : nat) (d : b512) (inp : list N) : b512 * list N := (d, inp ++ b512_checkSum hs d).
Definition b512_impl (hs : nat) (iv : list N) : impl b512 := mkimpl b512_write (b512_sum hs) (b512_reset iv).
(** blake512.go:18-25, 42-49 *)
Definition b512_Sum (data : list N) : list N := snd (b512_sum 64 (fst (b512_write (b512_new b512_iv512) data)) []).
Definition b512_Sum384 (data : list N) : list N := snd (b512_sum 48 (fst (b512_write (b512_new b512_iv384) data)) []).

(** binary.go:8-12: "blake512\x03" *)
Definition b512_magic : list N := [98; 108; 97; 107; 101; 53; 49; 50; 3]%N.
Definition b512_marshaledSize : nat := 9 + 4 * 8 + 128 + 8 + 8 * 8 + 2 * 8.
(** binary.go:14-41 *)
Definition b512_marshal (d : b512) : list N :=
  b512_magic ++ concat (map (be_bytes 8) (fst d)) ++ (firstn (dnx (snd d)) (dx (snd d)) ++ zeros (128 - dnx (snd d))) ++
  be_bytes 8 (dlen (snd d)) ++ concat (map (be_bytes 8) (ch (ds (snd d)))) ++ be_bytes 8 (ct0 (ds (snd d))) ++ be_bytes 8 (ct1 (ds (snd d))).
Inductive b512_error := B512BadIdentifier | B512BadSize.
(** binary.go:43-80 *)
Definition b512_unmarshal (d : b512) (b : list N) : b512 + b512_error :=
  if (length b <? 9) || negb (if list_eq_dec N.eq_dec (firstn 9 b) b512_magic then true else false) then inr B512BadIdentifier
  else if negb (length b =? b512_marshaledSize) then inr B512BadSize
  else
    let b1 := skipn 9 b in
    let s' := map (fun i => be_val (slice b1 (8 * i) (8 * i + 8))) (seq 0 4) in
    let b2 := skipn 32 b1 in
    let x' := copy_at (dx (snd d)) 0 b2 in
    let b3 := skipn (Nat.min (length (dx (snd d))) (length b2)) b2 in
    let len := be_val (firstn 8 b3) in
    let b4 := skipn 8 b3 in
    let h' := map (fun i => be_val (slice b4 (8 * i) (8 * i + 8))) (seq 0 8) in
    let b5 := skipn 64 b4 in
    let t0' := be_val (firstn 8 b5) in
    let t1' := be_val (firstn 8 (skipn 8 b5)) in
    inl (s', mkdig (mkb512 h' t0' t1') x' (N.to_nat (len mod 128)) len).

From Coq Require Import String.
Local Open Scope list_scope.
Example b512_vec : b512_Sum [0xcc]%N = hex "4f0ef594f20172d23504873f596984c64c1583c7b2abb8d8786aa2aeeae1c46c744b61893d661b0733b76d1fe19257dd68e0ef05422ca25d058dfe6c33d68709".
Proof. vm_compute. reflexivity. Qed.
Example b384_spec_vec : blake384_spec (zeros 32) [0xcc]%N = hex "a77e65c0c03ecb831dbcdd50a3c2bce300d55eac002a9c197095518d8514c0b578e3ecb7415291f99ede91d49197dd05".
Proof. vm_compute. reflexivity. Qed.
