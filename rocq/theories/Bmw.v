(** Bmw.v -- model of bmw/bmw.go, bmw/digest256.go, bmw/digest512.go, bmw/utils.go, bmw/sbox.go.
    The unrolled right-hand sides of digest256.compress are in BmwTab.v (generated). *)
From Coq Require Import List NArith Arith.
Require Import Verif.Base Verif.HashAPI Verif.Buf Verif.MD Verif.BmwTab.
Import ListNotations.

(** bmw/sbox.go:3-22 *)
Definition bmw_initVal224 : list N := [0x00010203; 0x04050607; 0x08090A0B; 0x0C0D0E0F; 0x10111213; 0x14151617; 0x18191A1B; 0x1C1D1E1F; 0x20212223; 0x24252627; 0x28292A2B; 0x2C2D2E2F; 0x30313233; 0x34353637; 0x38393A3B; 0x3C3D3E3F]%N.
Definition bmw_initVal256 : list N := [0x40414243; 0x44454647; 0x48494A4B; 0x4C4D4E4F; 0x50515253; 0x54555657; 0x58595A5B; 0x5C5D5E5F; 0x60616263; 0x64656667; 0x68696A6B; 0x6C6D6E6F; 0x70717273; 0x74757677; 0x78797A7B; 0x7C7D7E7F]%N.
Definition bmw_final256 : list N := [0xaaaaaaa0; 0xaaaaaaa1; 0xaaaaaaa2; 0xaaaaaaa3; 0xaaaaaaa4; 0xaaaaaaa5; 0xaaaaaaa6; 0xaaaaaaa7; 0xaaaaaaa8; 0xaaaaaaa9; 0xaaaaaaaa; 0xaaaaaaab; 0xaaaaaaac; 0xaaaaaaad; 0xaaaaaaae; 0xaaaaaaaf]%N.
(** bmw/sbox.go:26-68 *)
Definition bmw_K512 : list N := [16 * 0x0555555555555555; 17 * 0x0555555555555555; 18 * 0x0555555555555555; 19 * 0x0555555555555555; 20 * 0x0555555555555555; 21 * 0x0555555555555555; 22 * 0x0555555555555555; 23 * 0x0555555555555555; 24 * 0x0555555555555555; 25 * 0x0555555555555555; 26 * 0x0555555555555555; 27 * 0x0555555555555555; 28 * 0x0555555555555555; 29 * 0x0555555555555555; 30 * 0x0555555555555555; 31 * 0x0555555555555555]%N.
Definition bmw_initVal384 : list N := [0x0001020304050607; 0x08090A0B0C0D0E0F; 0x1011121314151617; 0x18191A1B1C1D1E1F; 0x2021222324252627; 0x28292A2B2C2D2E2F; 0x3031323334353637; 0x38393A3B3C3D3E3F; 0x4041424344454647; 0x48494A4B4C4D4E4F; 0x5051525354555657; 0x58595A5B5C5D5E5F; 0x6061626364656667; 0x68696A6B6C6D6E6F; 0x7071727374757677; 0x78797A7B7C7D7E7F]%N.
Definition bmw_initVal512 : list N := [0x8081828384858687; 0x88898A8B8C8D8E8F; 0x9091929394959697; 0x98999A9B9C9D9E9F; 0xA0A1A2A3A4A5A6A7; 0xA8A9AAABACADAEAF; 0xB0B1B2B3B4B5B6B7; 0xB8B9BABBBCBDBEBF; 0xC0C1C2C3C4C5C6C7; 0xC8C9CACBCCCDCECF; 0xD0D1D2D3D4D5D6D7; 0xD8D9DADBDCDDDEDF; 0xE0E1E2E3E4E5E6E7; 0xE8E9EAEBECEDEEEF; 0xF0F1F2F3F4F5F6F7; 0xF8F9FAFBFCFDFEFF]%N.
Definition bmw_final512 : list N := [0xaaaaaaaaaaaaaaa0; 0xaaaaaaaaaaaaaaa1; 0xaaaaaaaaaaaaaaa2; 0xaaaaaaaaaaaaaaa3; 0xaaaaaaaaaaaaaaa4; 0xaaaaaaaaaaaaaaa5; 0xaaaaaaaaaaaaaaa6; 0xaaaaaaaaaaaaaaa7; 0xaaaaaaaaaaaaaaa8; 0xaaaaaaaaaaaaaaa9; 0xaaaaaaaaaaaaaaaa; 0xaaaaaaaaaaaaaaab; 0xaaaaaaaaaaaaaaac; 0xaaaaaaaaaaaaaaad; 0xaaaaaaaaaaaaaaae; 0xaaaaaaaaaaaaaaaf]%N.

(** bmw/utils.go:24-35, 50-61: bytesToUint32s, bytesToUint64s (little endian; every length the package uses is a multiple of the word size). *)
Definition bmw_words (n : nat) (b : list N) : list N := map (fun i => le_val (firstn n (skipn (i * n) b))) (seq 0 (length b / n)).
(** bmw/utils.go:37-48, 63-74: uint32sToBytes, uint64sToBytes. *)
Definition bmw_bytes (n : nat) (w : list N) : list N := flat_map (le_bytes n) w.

(** The mutable words of a digest: the chaining value d.s and the scratch array d.q.
    (d.w is written before it is read in every compress; d.h2 is only used inside checkSum.) *)
Definition bmw_st : Type := (list N * list N)%type.

(** bmw/digest256.go:128-184, compress: the 32 assignments to q, then xl, xh, then the 16 assignments to h. *)
Definition bmw_compress256 (st : bmw_st) (m : list N) : bmw_st :=
  let h := fst st in
  let q := fold_left (fun q j => upd q j (nth j bmw_qs bmw_q0 m h q)) (seq 0 32) (snd st) in
  let xl := bmw_xl q in
  let xh := bmw_xh q xl in
  (fold_left (fun h j => upd h j (nth j bmw_hs bmw_h0 m h q xl xh)) (seq 0 16) h, q).

(** bmw/digest512.go:133-148: w[0..15]. *)
Definition bmw_w512 (m h : list N) : list N :=
  [(add64 (add64 (add64 (sub64 (N.lxor (at_ m 5) (at_ h 5)) (N.lxor (at_ m 7) (at_ h 7))) (N.lxor (at_ m 10) (at_ h 10))) (N.lxor (at_ m 13) (at_ h 13))) (N.lxor (at_ m 14) (at_ h 14)));
   (sub64 (add64 (add64 (sub64 (N.lxor (at_ m 6) (at_ h 6)) (N.lxor (at_ m 8) (at_ h 8))) (N.lxor (at_ m 11) (at_ h 11))) (N.lxor (at_ m 14) (at_ h 14))) (N.lxor (at_ m 15) (at_ h 15)));
   (add64 (sub64 (add64 (add64 (N.lxor (at_ m 0) (at_ h 0)) (N.lxor (at_ m 7) (at_ h 7))) (N.lxor (at_ m 9) (at_ h 9))) (N.lxor (at_ m 12) (at_ h 12))) (N.lxor (at_ m 15) (at_ h 15)));
   (add64 (sub64 (add64 (sub64 (N.lxor (at_ m 0) (at_ h 0)) (N.lxor (at_ m 1) (at_ h 1))) (N.lxor (at_ m 8) (at_ h 8))) (N.lxor (at_ m 10) (at_ h 10))) (N.lxor (at_ m 13) (at_ h 13)));
   (sub64 (sub64 (add64 (add64 (N.lxor (at_ m 1) (at_ h 1)) (N.lxor (at_ m 2) (at_ h 2))) (N.lxor (at_ m 9) (at_ h 9))) (N.lxor (at_ m 11) (at_ h 11))) (N.lxor (at_ m 14) (at_ h 14)));
   (add64 (sub64 (add64 (sub64 (N.lxor (at_ m 3) (at_ h 3)) (N.lxor (at_ m 2) (at_ h 2))) (N.lxor (at_ m 10) (at_ h 10))) (N.lxor (at_ m 12) (at_ h 12))) (N.lxor (at_ m 15) (at_ h 15)));
   (add64 (sub64 (sub64 (sub64 (N.lxor (at_ m 4) (at_ h 4)) (N.lxor (at_ m 0) (at_ h 0))) (N.lxor (at_ m 3) (at_ h 3))) (N.lxor (at_ m 11) (at_ h 11))) (N.lxor (at_ m 13) (at_ h 13)));
   (sub64 (sub64 (sub64 (sub64 (N.lxor (at_ m 1) (at_ h 1)) (N.lxor (at_ m 4) (at_ h 4))) (N.lxor (at_ m 5) (at_ h 5))) (N.lxor (at_ m 12) (at_ h 12))) (N.lxor (at_ m 14) (at_ h 14)));
   (sub64 (add64 (sub64 (sub64 (N.lxor (at_ m 2) (at_ h 2)) (N.lxor (at_ m 5) (at_ h 5))) (N.lxor (at_ m 6) (at_ h 6))) (N.lxor (at_ m 13) (at_ h 13))) (N.lxor (at_ m 15) (at_ h 15)));
   (add64 (sub64 (add64 (sub64 (N.lxor (at_ m 0) (at_ h 0)) (N.lxor (at_ m 3) (at_ h 3))) (N.lxor (at_ m 6) (at_ h 6))) (N.lxor (at_ m 7) (at_ h 7))) (N.lxor (at_ m 14) (at_ h 14)));
   (add64 (sub64 (sub64 (sub64 (N.lxor (at_ m 8) (at_ h 8)) (N.lxor (at_ m 1) (at_ h 1))) (N.lxor (at_ m 4) (at_ h 4))) (N.lxor (at_ m 7) (at_ h 7))) (N.lxor (at_ m 15) (at_ h 15)));
   (add64 (sub64 (sub64 (sub64 (N.lxor (at_ m 8) (at_ h 8)) (N.lxor (at_ m 0) (at_ h 0))) (N.lxor (at_ m 2) (at_ h 2))) (N.lxor (at_ m 5) (at_ h 5))) (N.lxor (at_ m 9) (at_ h 9)));
   (add64 (sub64 (sub64 (add64 (N.lxor (at_ m 1) (at_ h 1)) (N.lxor (at_ m 3) (at_ h 3))) (N.lxor (at_ m 6) (at_ h 6))) (N.lxor (at_ m 9) (at_ h 9))) (N.lxor (at_ m 10) (at_ h 10)));
   (add64 (add64 (add64 (add64 (N.lxor (at_ m 2) (at_ h 2)) (N.lxor (at_ m 4) (at_ h 4))) (N.lxor (at_ m 7) (at_ h 7))) (N.lxor (at_ m 10) (at_ h 10))) (N.lxor (at_ m 11) (at_ h 11)));
   (sub64 (sub64 (add64 (sub64 (N.lxor (at_ m 3) (at_ h 3)) (N.lxor (at_ m 5) (at_ h 5))) (N.lxor (at_ m 8) (at_ h 8))) (N.lxor (at_ m 11) (at_ h 11))) (N.lxor (at_ m 12) (at_ h 12)));
   (add64 (sub64 (sub64 (sub64 (N.lxor (at_ m 12) (at_ h 12)) (N.lxor (at_ m 4) (at_ h 4))) (N.lxor (at_ m 6) (at_ h 6))) (N.lxor (at_ m 9) (at_ h 9))) (N.lxor (at_ m 13) (at_ h 13)))].
(** bmw/digest512.go:150-156: the right-hand sides and the body of the loop over u = 0, 5, 10. *)
Definition bmw_rhs0_0 (h w : list N) (u : nat) : N := (add64 (N.lxor (N.lxor (N.lxor (N.shiftr (at_ w (u + 0)) 1%N) (shl64 (at_ w (u + 0)) 3%N)) (rotl64 (at_ w (u + 0)) 4%N)) (rotl64 (at_ w (u + 0)) 37%N)) (at_ h (u + 1))).
Definition bmw_rhs0_1 (h w : list N) (u : nat) : N := (add64 (N.lxor (N.lxor (N.lxor (N.shiftr (at_ w (u + 1)) 1%N) (shl64 (at_ w (u + 1)) 2%N)) (rotl64 (at_ w (u + 1)) 13%N)) (rotl64 (at_ w (u + 1)) 43%N)) (at_ h (u + 2))).
Definition bmw_rhs0_2 (h w : list N) (u : nat) : N := (add64 (N.lxor (N.lxor (N.lxor (N.shiftr (at_ w (u + 2)) 2%N) (shl64 (at_ w (u + 2)) 1%N)) (rotl64 (at_ w (u + 2)) 19%N)) (rotl64 (at_ w (u + 2)) 53%N)) (at_ h (u + 3))).
Definition bmw_rhs0_3 (h w : list N) (u : nat) : N := (add64 (N.lxor (N.lxor (N.lxor (N.shiftr (at_ w (u + 3)) 2%N) (shl64 (at_ w (u + 3)) 2%N)) (rotl64 (at_ w (u + 3)) 28%N)) (rotl64 (at_ w (u + 3)) 59%N)) (at_ h (u + 4))).
Definition bmw_rhs0_4 (h w : list N) (u : nat) : N := (add64 (N.lxor (N.shiftr (at_ w (u + 4)) 1%N) (at_ w (u + 4))) (at_ h (u + 5))).
Definition bmw_body0 (h w : list N) (q : list N) (u : nat) : list N :=
  let q := upd q (u + 0) (bmw_rhs0_0 h w u) in
  let q := upd q (u + 1) (bmw_rhs0_1 h w u) in
  let q := upd q (u + 2) (bmw_rhs0_2 h w u) in
  let q := upd q (u + 3) (bmw_rhs0_3 h w u) in
  upd q (u + 4) (bmw_rhs0_4 h w u).
(** bmw/digest512.go:217-220, 234-237: the last summand of both expansion loops. *)
Definition bmw_tail512 (m h : list N) (u : nat) : N :=
  let r k := rotl64 (at_ m ((u - 16 + k) mod 16)) (N.of_nat ((u - 16 + k) mod 16) + 1) in
  N.lxor (add64 (sub64 (add64 (r 0) (r 3)) (r 10)) (at_ bmw_K512 (u - 16))) (at_ h ((u - 16 + 7) mod 16)).
(** bmw/digest512.go:162-221: the body of the loop over u = 16, 17. *)
Definition bmw_rhs1 (m h q : list N) (u : nat) : N := add64 ((add64 (add64 (add64 (add64 (add64 (add64 (add64 (add64 (add64 (add64 (add64 (add64 (add64 (add64 (add64 (N.lxor (N.lxor (N.lxor (N.shiftr (at_ q (u - 16)) 1%N) (shl64 (at_ q (u - 16)) 2%N)) (rotl64 (at_ q (u - 16)) 13%N)) (rotl64 (at_ q (u - 16)) 43%N)) (N.lxor (N.lxor (N.lxor (N.shiftr (at_ q (u - 15)) 2%N) (shl64 (at_ q (u - 15)) 1%N)) (rotl64 (at_ q (u - 15)) 19%N)) (rotl64 (at_ q (u - 15)) 53%N))) (N.lxor (N.lxor (N.lxor (N.shiftr (at_ q (u - 14)) 2%N) (shl64 (at_ q (u - 14)) 2%N)) (rotl64 (at_ q (u - 14)) 28%N)) (rotl64 (at_ q (u - 14)) 59%N))) (N.lxor (N.lxor (N.lxor (N.shiftr (at_ q (u - 13)) 1%N) (shl64 (at_ q (u - 13)) 3%N)) (rotl64 (at_ q (u - 13)) 4%N)) (rotl64 (at_ q (u - 13)) 37%N))) (N.lxor (N.lxor (N.lxor (N.shiftr (at_ q (u - 12)) 1%N) (shl64 (at_ q (u - 12)) 2%N)) (rotl64 (at_ q (u - 12)) 13%N)) (rotl64 (at_ q (u - 12)) 43%N))) (N.lxor (N.lxor (N.lxor (N.shiftr (at_ q (u - 11)) 2%N) (shl64 (at_ q (u - 11)) 1%N)) (rotl64 (at_ q (u - 11)) 19%N)) (rotl64 (at_ q (u - 11)) 53%N))) (N.lxor (N.lxor (N.lxor (N.shiftr (at_ q (u - 10)) 2%N) (shl64 (at_ q (u - 10)) 2%N)) (rotl64 (at_ q (u - 10)) 28%N)) (rotl64 (at_ q (u - 10)) 59%N))) (N.lxor (N.lxor (N.lxor (N.shiftr (at_ q (u - 9)) 1%N) (shl64 (at_ q (u - 9)) 3%N)) (rotl64 (at_ q (u - 9)) 4%N)) (rotl64 (at_ q (u - 9)) 37%N))) (N.lxor (N.lxor (N.lxor (N.shiftr (at_ q (u - 8)) 1%N) (shl64 (at_ q (u - 8)) 2%N)) (rotl64 (at_ q (u - 8)) 13%N)) (rotl64 (at_ q (u - 8)) 43%N))) (N.lxor (N.lxor (N.lxor (N.shiftr (at_ q (u - 7)) 2%N) (shl64 (at_ q (u - 7)) 1%N)) (rotl64 (at_ q (u - 7)) 19%N)) (rotl64 (at_ q (u - 7)) 53%N))) (N.lxor (N.lxor (N.lxor (N.shiftr (at_ q (u - 6)) 2%N) (shl64 (at_ q (u - 6)) 2%N)) (rotl64 (at_ q (u - 6)) 28%N)) (rotl64 (at_ q (u - 6)) 59%N))) (N.lxor (N.lxor (N.lxor (N.shiftr (at_ q (u - 5)) 1%N) (shl64 (at_ q (u - 5)) 3%N)) (rotl64 (at_ q (u - 5)) 4%N)) (rotl64 (at_ q (u - 5)) 37%N))) (N.lxor (N.lxor (N.lxor (N.shiftr (at_ q (u - 4)) 1%N) (shl64 (at_ q (u - 4)) 2%N)) (rotl64 (at_ q (u - 4)) 13%N)) (rotl64 (at_ q (u - 4)) 43%N))) (N.lxor (N.lxor (N.lxor (N.shiftr (at_ q (u - 3)) 2%N) (shl64 (at_ q (u - 3)) 1%N)) (rotl64 (at_ q (u - 3)) 19%N)) (rotl64 (at_ q (u - 3)) 53%N))) (N.lxor (N.lxor (N.lxor (N.shiftr (at_ q (u - 2)) 2%N) (shl64 (at_ q (u - 2)) 2%N)) (rotl64 (at_ q (u - 2)) 28%N)) (rotl64 (at_ q (u - 2)) 59%N))) (N.lxor (N.lxor (N.lxor (N.shiftr (at_ q (u - 1)) 1%N) (shl64 (at_ q (u - 1)) 3%N)) (rotl64 (at_ q (u - 1)) 4%N)) (rotl64 (at_ q (u - 1)) 37%N)))) (bmw_tail512 m h u).
Definition bmw_body1 (m h : list N) (q : list N) (u : nat) : list N := upd q u (bmw_rhs1 m h q u).
(** bmw/digest512.go:223-238: the body of the loop over u = 18 .. 31. *)
Definition bmw_rhs2 (m h q : list N) (u : nat) : N := add64 ((add64 (add64 (add64 (add64 (add64 (add64 (add64 (add64 (add64 (add64 (add64 (add64 (add64 (add64 (add64 (at_ q (u - 16)) (rotl64 (at_ q (u - 15)) 5%N)) (at_ q (u - 14))) (rotl64 (at_ q (u - 13)) 11%N)) (at_ q (u - 12))) (rotl64 (at_ q (u - 11)) 27%N)) (at_ q (u - 10))) (rotl64 (at_ q (u - 9)) 32%N)) (at_ q (u - 8))) (rotl64 (at_ q (u - 7)) 37%N)) (at_ q (u - 6))) (rotl64 (at_ q (u - 5)) 43%N)) (at_ q (u - 4))) (rotl64 (at_ q (u - 3)) 53%N)) (N.lxor (N.shiftr (at_ q (u - 2)) 1%N) (at_ q (u - 2)))) (N.lxor (N.shiftr (at_ q (u - 1)) 2%N) (at_ q (u - 1))))) (bmw_tail512 m h u).
Definition bmw_body2 (m h : list N) (q : list N) (u : nat) : list N := upd q u (bmw_rhs2 m h q u).
(** bmw/digest512.go:158-160: q[15]. *)
Definition bmw_rhs15 (h w : list N) : N := (add64 (N.lxor (N.lxor (N.lxor (N.shiftr (at_ w 15) 1%N) (shl64 (at_ w 15) 3%N)) (rotl64 (at_ w 15) 4%N)) (rotl64 (at_ w 15) 37%N)) (at_ h 0)).
(** bmw/digest512.go:239-263: xl, xh and the assignments to h. *)
Definition bmw_xl512 (q : list N) : N := (N.lxor (N.lxor (N.lxor (N.lxor (N.lxor (N.lxor (N.lxor (at_ q 16) (at_ q 17)) (at_ q 18)) (at_ q 19)) (at_ q 20)) (at_ q 21)) (at_ q 22)) (at_ q 23)).
Definition bmw_xh512 (q : list N) (xl : N) : N := (N.lxor (N.lxor (N.lxor (N.lxor (N.lxor (N.lxor (N.lxor (N.lxor xl (at_ q 24)) (at_ q 25)) (at_ q 26)) (at_ q 27)) (at_ q 28)) (at_ q 29)) (at_ q 30)) (at_ q 31)).
Definition bmw_h512_0 (m h q : list N) (xl xh : N) : N := (add64 (N.lxor (N.lxor (shl64 xh 5%N) (N.shiftr (at_ q 16) 5%N)) (at_ m 0)) (N.lxor (N.lxor xl (at_ q 24)) (at_ q 0))).
Definition bmw_h512_1 (m h q : list N) (xl xh : N) : N := (add64 (N.lxor (N.lxor (N.shiftr xh 7%N) (shl64 (at_ q 17) 8%N)) (at_ m 1)) (N.lxor (N.lxor xl (at_ q 25)) (at_ q 1))).
Definition bmw_h512_2 (m h q : list N) (xl xh : N) : N := (add64 (N.lxor (N.lxor (N.shiftr xh 5%N) (shl64 (at_ q 18) 5%N)) (at_ m 2)) (N.lxor (N.lxor xl (at_ q 26)) (at_ q 2))).
Definition bmw_h512_3 (m h q : list N) (xl xh : N) : N := (add64 (N.lxor (N.lxor (N.shiftr xh 1%N) (shl64 (at_ q 19) 5%N)) (at_ m 3)) (N.lxor (N.lxor xl (at_ q 27)) (at_ q 3))).
Definition bmw_h512_4 (m h q : list N) (xl xh : N) : N := (add64 (N.lxor (N.lxor (N.shiftr xh 3%N) (shl64 (at_ q 20) 0%N)) (at_ m 4)) (N.lxor (N.lxor xl (at_ q 28)) (at_ q 4))).
Definition bmw_h512_5 (m h q : list N) (xl xh : N) : N := (add64 (N.lxor (N.lxor (shl64 xh 6%N) (N.shiftr (at_ q 21) 6%N)) (at_ m 5)) (N.lxor (N.lxor xl (at_ q 29)) (at_ q 5))).
Definition bmw_h512_6 (m h q : list N) (xl xh : N) : N := (add64 (N.lxor (N.lxor (N.shiftr xh 4%N) (shl64 (at_ q 22) 6%N)) (at_ m 6)) (N.lxor (N.lxor xl (at_ q 30)) (at_ q 6))).
Definition bmw_h512_7 (m h q : list N) (xl xh : N) : N := (add64 (N.lxor (N.lxor (N.shiftr xh 11%N) (shl64 (at_ q 23) 2%N)) (at_ m 7)) (N.lxor (N.lxor xl (at_ q 31)) (at_ q 7))).
Definition bmw_h512_8 (m h q : list N) (xl xh : N) : N := (add64 (add64 (rotl64 (at_ h 4) 9%N) (N.lxor (N.lxor xh (at_ q 24)) (at_ m 8))) (N.lxor (N.lxor (shl64 xl 8%N) (at_ q 23)) (at_ q 8))).
Definition bmw_h512_9 (m h q : list N) (xl xh : N) : N := (add64 (add64 (rotl64 (at_ h 5) 10%N) (N.lxor (N.lxor xh (at_ q 25)) (at_ m 9))) (N.lxor (N.lxor (N.shiftr xl 6%N) (at_ q 16)) (at_ q 9))).
Definition bmw_h512_10 (m h q : list N) (xl xh : N) : N := (add64 (add64 (rotl64 (at_ h 6) 11%N) (N.lxor (N.lxor xh (at_ q 26)) (at_ m 10))) (N.lxor (N.lxor (shl64 xl 6%N) (at_ q 17)) (at_ q 10))).
Definition bmw_h512_11 (m h q : list N) (xl xh : N) : N := (add64 (add64 (rotl64 (at_ h 7) 12%N) (N.lxor (N.lxor xh (at_ q 27)) (at_ m 11))) (N.lxor (N.lxor (shl64 xl 4%N) (at_ q 18)) (at_ q 11))).
Definition bmw_h512_12 (m h q : list N) (xl xh : N) : N := (add64 (add64 (rotl64 (at_ h 0) 13%N) (N.lxor (N.lxor xh (at_ q 28)) (at_ m 12))) (N.lxor (N.lxor (N.shiftr xl 3%N) (at_ q 19)) (at_ q 12))).
Definition bmw_h512_13 (m h q : list N) (xl xh : N) : N := (add64 (add64 (rotl64 (at_ h 1) 14%N) (N.lxor (N.lxor xh (at_ q 29)) (at_ m 13))) (N.lxor (N.lxor (N.shiftr xl 4%N) (at_ q 20)) (at_ q 13))).
Definition bmw_h512_14 (m h q : list N) (xl xh : N) : N := (add64 (add64 (rotl64 (at_ h 2) 15%N) (N.lxor (N.lxor xh (at_ q 30)) (at_ m 14))) (N.lxor (N.lxor (N.shiftr xl 7%N) (at_ q 21)) (at_ q 14))).
Definition bmw_h512_15 (m h q : list N) (xl xh : N) : N := (add64 (add64 (rotl64 (at_ h 3) 16%N) (N.lxor (N.lxor xh (at_ q 31)) (at_ m 15))) (N.lxor (N.lxor (N.shiftr xl 2%N) (at_ q 22)) (at_ q 15))).
Definition bmw_hs512 : list (list N -> list N -> list N -> N -> N -> N) := [bmw_h512_0; bmw_h512_1; bmw_h512_2; bmw_h512_3; bmw_h512_4; bmw_h512_5; bmw_h512_6; bmw_h512_7; bmw_h512_8; bmw_h512_9; bmw_h512_10; bmw_h512_11; bmw_h512_12; bmw_h512_13; bmw_h512_14; bmw_h512_15].
(** bmw/digest512.go:128-263, compress. *)
Definition bmw_compress512 (st : bmw_st) (m : list N) : bmw_st :=
  let h := fst st in
  let w := bmw_w512 m h in
  let q := fold_left (bmw_body0 h w) [0; 5; 10] (snd st) in
  let q := upd q 15 (bmw_rhs15 h w) in
  let q := fold_left (bmw_body1 m h) [16; 17] q in
  let q := fold_left (bmw_body2 m h) (seq 18 14) q in
  let xl := bmw_xl512 q in
  let xh := bmw_xh512 q xl in
  (fold_left (fun h j => upd h j (nth j bmw_hs512 bmw_h512_0 m h q xl xh)) (seq 0 16) h, q).

(** The two digest types: word size in bytes, compression function, constants. *)
Record bmw_ty : Type := mkty { t_n : nat; t_compress : bmw_st -> list N -> bmw_st; t_final : list N }.
Definition T256 : bmw_ty := mkty 4 bmw_compress256 bmw_final256.
Definition T512 : bmw_ty := mkty 8 bmw_compress512 bmw_final512.
Section DIGEST.
Context (T : bmw_ty) (iv : list N) (hs : nat).
Definition bmw_bs : nat := 16 * t_n T.
(** processBlock, digest256.go:123-126, digest512.go:123-126. *)
Definition bmw_block (st : bmw_st) (b : list N) : bmw_st := t_compress T st (bmw_words (t_n T) b).
(** Reset, digest256.go:34-47, digest512.go:34-48 (also run by newDigest256/512, lines 25-32). *)
Definition bmw_new : dig bmw_st := mkdig (copy_at (zeros 16) 0 iv, zeros 32) (zeros bmw_bs) 0 0.
(** Write, digest256.go:57-83, digest512.go:58-83. *)
Definition bmw_write : dig bmw_st -> list N -> dig bmw_st * nat := write_post bmw_bs bmw_block 8.
(** checkSum, digest256.go:92-121, digest512.go:92-121: padding, the two arrays swapped, the final call, the last hs bytes in words. *)
Definition bmw_checkSum (d : dig bmw_st) : list N :=
  let st := finish_direct bmw_bs bmw_block 0x80 (le_bytes 8 (dlen d)) d in
  let st' := t_compress T (t_final T, snd st) (fst st) in
  bmw_bytes (t_n T) (skipn (16 - hs / t_n T) (fst st')).
(** Sum, digest256.go:85-90, digest512.go:85-90: checkSum works on a copy of the digest. *)
Definition bmw_impl : impl (dig bmw_st) := mkimpl bmw_write (fun d i => (d, i ++ bmw_checkSum d)) (fun _ => bmw_new).
(** Sum224 ... Sum512, bmw.go:27-65. *)
Definition bmw_Sum (data : list N) : list N := copy_at (zeros hs) 0 (bmw_checkSum (fst (bmw_write bmw_new data))).
End DIGEST.
(** bmw.go:7-25: New224 ... New512. *)
Definition bmw224_impl := bmw_impl T256 bmw_initVal224 28. Definition bmw224_new := bmw_new T256 bmw_initVal224.
Definition bmw256_impl := bmw_impl T256 bmw_initVal256 32. Definition bmw256_new := bmw_new T256 bmw_initVal256.
Definition bmw384_impl := bmw_impl T512 bmw_initVal384 48. Definition bmw384_new := bmw_new T512 bmw_initVal384.
Definition bmw512_impl := bmw_impl T512 bmw_initVal512 64. Definition bmw512_new := bmw_new T512 bmw_initVal512.
