(** Ripemd.v -- model of package /repo/ripemd (digest128.go, digest160.go, digest256.go,
    digest320.go, sbox.go) and its refinement proof. *)
From Coq Require Import List NArith Arith Lia Bool.
From Verif Require Import Base Words HashAPI Buf MD SpecRipemd.
Import ListNotations.

(** ** Tables (generated from /repo/ripemd/sbox.go:19-159 by tools/gotab.py) *)
Definition sbox128n0 : list N := [
  0; 1; 2; 3; 4; 5; 6; 7;
  8; 9; 10; 11; 12; 13; 14; 15;
  7; 4; 13; 1; 10; 6; 15; 3;
  12; 0; 9; 5; 2; 14; 11; 8;
  3; 10; 14; 4; 9; 15; 8; 1;
  2; 7; 0; 6; 13; 11; 5; 12;
  1; 9; 11; 10; 0; 8; 12; 4;
  13; 3; 7; 15; 14; 5; 6; 2]%N.

Definition sbox128r0 : list N := [
  11; 14; 15; 12; 5; 8; 7; 9;
  11; 13; 14; 15; 6; 7; 9; 8;
  7; 6; 8; 13; 11; 9; 7; 15;
  7; 12; 15; 9; 11; 7; 13; 12;
  11; 13; 6; 7; 14; 9; 13; 15;
  14; 8; 13; 6; 5; 12; 7; 5;
  11; 12; 14; 15; 14; 15; 9; 8;
  9; 14; 5; 6; 8; 6; 5; 12]%N.

Definition sbox128n1 : list N := [
  5; 14; 7; 0; 9; 2; 11; 4;
  13; 6; 15; 8; 1; 10; 3; 12;
  6; 11; 3; 7; 0; 13; 5; 10;
  14; 15; 8; 12; 4; 9; 1; 2;
  15; 5; 1; 3; 7; 14; 6; 9;
  11; 8; 12; 2; 10; 0; 4; 13;
  8; 6; 4; 1; 3; 11; 15; 0;
  5; 12; 2; 13; 9; 7; 10; 14]%N.

Definition sbox128r1 : list N := [
  8; 9; 9; 11; 13; 15; 15; 5;
  7; 7; 8; 11; 14; 14; 12; 6;
  9; 13; 15; 7; 12; 8; 9; 11;
  7; 7; 12; 7; 6; 15; 13; 11;
  9; 7; 15; 11; 8; 6; 6; 14;
  12; 13; 5; 14; 13; 13; 7; 5;
  15; 5; 8; 11; 14; 14; 6; 14;
  6; 9; 12; 9; 12; 5; 15; 8]%N.

Definition sbox160n0 : list N := [
  0; 1; 2; 3; 4; 5; 6; 7;
  8; 9; 10; 11; 12; 13; 14; 15;
  7; 4; 13; 1; 10; 6; 15; 3;
  12; 0; 9; 5; 2; 14; 11; 8;
  3; 10; 14; 4; 9; 15; 8; 1;
  2; 7; 0; 6; 13; 11; 5; 12;
  1; 9; 11; 10; 0; 8; 12; 4;
  13; 3; 7; 15; 14; 5; 6; 2;
  4; 0; 5; 9; 7; 12; 2; 10;
  14; 1; 3; 8; 11; 6; 15; 13]%N.

Definition sbox160r0 : list N := [
  11; 14; 15; 12; 5; 8; 7; 9;
  11; 13; 14; 15; 6; 7; 9; 8;
  7; 6; 8; 13; 11; 9; 7; 15;
  7; 12; 15; 9; 11; 7; 13; 12;
  11; 13; 6; 7; 14; 9; 13; 15;
  14; 8; 13; 6; 5; 12; 7; 5;
  11; 12; 14; 15; 14; 15; 9; 8;
  9; 14; 5; 6; 8; 6; 5; 12;
  9; 15; 5; 11; 6; 8; 13; 12;
  5; 12; 13; 14; 11; 8; 5; 6]%N.

Definition sbox160n1 : list N := [
  5; 14; 7; 0; 9; 2; 11; 4;
  13; 6; 15; 8; 1; 10; 3; 12;
  6; 11; 3; 7; 0; 13; 5; 10;
  14; 15; 8; 12; 4; 9; 1; 2;
  15; 5; 1; 3; 7; 14; 6; 9;
  11; 8; 12; 2; 10; 0; 4; 13;
  8; 6; 4; 1; 3; 11; 15; 0;
  5; 12; 2; 13; 9; 7; 10; 14;
  12; 15; 10; 4; 1; 5; 8; 7;
  6; 2; 13; 14; 0; 3; 9; 11]%N.

Definition sbox160r1 : list N := [
  8; 9; 9; 11; 13; 15; 15; 5;
  7; 7; 8; 11; 14; 14; 12; 6;
  9; 13; 15; 7; 12; 8; 9; 11;
  7; 7; 12; 7; 6; 15; 13; 11;
  9; 7; 15; 11; 8; 6; 6; 14;
  12; 13; 5; 14; 13; 13; 7; 5;
  15; 5; 8; 11; 14; 14; 6; 14;
  6; 9; 12; 9; 12; 5; 15; 8;
  8; 5; 12; 9; 12; 5; 14; 6;
  8; 13; 6; 5; 15; 13; 11; 11]%N.

Definition sbox256n0 : list N := [
  0; 1; 2; 3; 4; 5; 6; 7;
  8; 9; 10; 11; 12; 13; 14; 15;
  7; 4; 13; 1; 10; 6; 15; 3;
  12; 0; 9; 5; 2; 14; 11; 8;
  3; 10; 14; 4; 9; 15; 8; 1;
  2; 7; 0; 6; 13; 11; 5; 12;
  1; 9; 11; 10; 0; 8; 12; 4;
  13; 3; 7; 15; 14; 5; 6; 2]%N.

Definition sbox256r0 : list N := [
  11; 14; 15; 12; 5; 8; 7; 9;
  11; 13; 14; 15; 6; 7; 9; 8;
  7; 6; 8; 13; 11; 9; 7; 15;
  7; 12; 15; 9; 11; 7; 13; 12;
  11; 13; 6; 7; 14; 9; 13; 15;
  14; 8; 13; 6; 5; 12; 7; 5;
  11; 12; 14; 15; 14; 15; 9; 8;
  9; 14; 5; 6; 8; 6; 5; 12]%N.

Definition sbox256n1 : list N := [
  5; 14; 7; 0; 9; 2; 11; 4;
  13; 6; 15; 8; 1; 10; 3; 12;
  6; 11; 3; 7; 0; 13; 5; 10;
  14; 15; 8; 12; 4; 9; 1; 2;
  15; 5; 1; 3; 7; 14; 6; 9;
  11; 8; 12; 2; 10; 0; 4; 13;
  8; 6; 4; 1; 3; 11; 15; 0;
  5; 12; 2; 13; 9; 7; 10; 14]%N.

Definition sbox256r1 : list N := [
  8; 9; 9; 11; 13; 15; 15; 5;
  7; 7; 8; 11; 14; 14; 12; 6;
  9; 13; 15; 7; 12; 8; 9; 11;
  7; 7; 12; 7; 6; 15; 13; 11;
  9; 7; 15; 11; 8; 6; 6; 14;
  12; 13; 5; 14; 13; 13; 7; 5;
  15; 5; 8; 11; 14; 14; 6; 14;
  6; 9; 12; 9; 12; 5; 15; 8]%N.

Definition sbox320n0 : list N := [
  0; 1; 2; 3; 4; 5; 6; 7;
  8; 9; 10; 11; 12; 13; 14; 15;
  7; 4; 13; 1; 10; 6; 15; 3;
  12; 0; 9; 5; 2; 14; 11; 8;
  3; 10; 14; 4; 9; 15; 8; 1;
  2; 7; 0; 6; 13; 11; 5; 12;
  1; 9; 11; 10; 0; 8; 12; 4;
  13; 3; 7; 15; 14; 5; 6; 2;
  4; 0; 5; 9; 7; 12; 2; 10;
  14; 1; 3; 8; 11; 6; 15; 13]%N.

Definition sbox320r0 : list N := [
  11; 14; 15; 12; 5; 8; 7; 9;
  11; 13; 14; 15; 6; 7; 9; 8;
  7; 6; 8; 13; 11; 9; 7; 15;
  7; 12; 15; 9; 11; 7; 13; 12;
  11; 13; 6; 7; 14; 9; 13; 15;
  14; 8; 13; 6; 5; 12; 7; 5;
  11; 12; 14; 15; 14; 15; 9; 8;
  9; 14; 5; 6; 8; 6; 5; 12;
  9; 15; 5; 11; 6; 8; 13; 12;
  5; 12; 13; 14; 11; 8; 5; 6]%N.

Definition sbox320n1 : list N := [
  5; 14; 7; 0; 9; 2; 11; 4;
  13; 6; 15; 8; 1; 10; 3; 12;
  6; 11; 3; 7; 0; 13; 5; 10;
  14; 15; 8; 12; 4; 9; 1; 2;
  15; 5; 1; 3; 7; 14; 6; 9;
  11; 8; 12; 2; 10; 0; 4; 13;
  8; 6; 4; 1; 3; 11; 15; 0;
  5; 12; 2; 13; 9; 7; 10; 14;
  12; 15; 10; 4; 1; 5; 8; 7;
  6; 2; 13; 14; 0; 3; 9; 11]%N.

Definition sbox320r1 : list N := [
  8; 9; 9; 11; 13; 15; 15; 5;
  7; 7; 8; 11; 14; 14; 12; 6;
  9; 13; 15; 7; 12; 8; 9; 11;
  7; 7; 12; 7; 6; 15; 13; 11;
  9; 7; 15; 11; 8; 6; 6; 14;
  12; 13; 5; 14; 13; 13; 7; 5;
  15; 5; 8; 11; 14; 14; 6; 14;
  6; 9; 12; 9; 12; 5; 15; 8;
  8; 5; 12; 9; 12; 5; 14; 6;
  8; 13; 6; 5; 15; 13; 11; 11]%N.


(** ** Model *)

(** sbox.go:3-17 *)
Definition rmd_s0 : N := 0x67452301. Definition rmd_s1 : N := 0xefcdab89.
Definition rmd_s2 : N := 0x98badcfe. Definition rmd_s3 : N := 0x10325476.
Definition rmd_s4 : N := 0xc3d2e1f0. Definition rmd_s5 : N := 0x76543210.
Definition rmd_s6 : N := 0xFEDCBA98. Definition rmd_s7 : N := 0x89ABCDEF.
Definition rmd_s8 : N := 0x01234567. Definition rmd_s9 : N := 0x3C2D1E0F.

(** The boolean functions as written in the sources. *)
Definition g_xor (b c d : N) : N := N.lxor (N.lxor b c) d.                  (* b ^ c ^ d *)
Definition g_ch (b c d : N) : N := N.lor (N.land b c) (N.land (not32 b) d).  (* b&c | ^b&d *)
Definition g_ch2 (b c d : N) : N := N.lxor d (N.land b (N.lxor c d)).        (* d ^ (b & (c ^ d)) *)
Definition g_or (b c d : N) : N := N.lxor (N.lor b (not32 c)) d.             (* b | ^c ^ d: Go parses (b | ^c) ^ d *)
Definition g_or2 (b c d : N) : N := N.lxor d (N.lor b (not32 c)).            (* d ^ (b | ^c) *)
Definition g_chr (b c d : N) : N := N.lor (N.land b d) (N.ldiff c d).        (* b&d | c&^d *)
Definition g_chr2 (b c d : N) : N := N.lxor c (N.land d (N.lxor b c)).       (* c ^ (d & (b ^ c)) *)
Definition g_last (b c d : N) : N := N.lxor b (N.lor c (not32 d)).           (* b ^ (c | ^d) *)

(** x[i] = uint32(p[j]) | uint32(p[j+1])<<8 | ... : little-endian words. *)
Definition rmd_x (p : list N) : list N := map (fun i => le_val (slice p (i * 4) (i * 4 + 4))) (seq 0 16).

(** Body of the 5-register loops, e.g. digest160.go:125-140.  The first-round left
    line (and the last-round right line) has no constant: modelled as + 0. *)
Definition rmd_body5 (n0 r0 n1 r1 : list N) (f : N -> N -> N -> N) (k : N) (f' : N -> N -> N -> N) (k' : N)
    (x : list N) (st : (N * N * N * N * N) * (N * N * N * N * N)) (i : nat) :=
  let '((a, b, c, d, e), (aa, bb, cc, dd, ee)) := st in
  let alpha := add32 (add32 (add32 a (f b c d)) (at_ x (N.to_nat (at_ n0 i)))) k in
  let alpha := add32 (rotl32 alpha (at_ r0 i)) e in
  let beta := rotl32 c 10 in
  let '(a, b, c, d, e) := (e, alpha, b, beta, d) in
  let alpha := add32 (add32 (add32 aa (f' bb cc dd)) (at_ x (N.to_nat (at_ n1 i)))) k' in
  let alpha := add32 (rotl32 alpha (at_ r1 i)) ee in
  let beta := rotl32 cc 10 in
  let '(aa, bb, cc, dd, ee) := (ee, alpha, bb, beta, dd) in
  ((a, b, c, d, e), (aa, bb, cc, dd, ee)).

(** Body of the 4-register loops, e.g. digest128.go:129-142. *)
Definition rmd_body4 (n0 r0 n1 r1 : list N) (f : N -> N -> N -> N) (k : N) (f' : N -> N -> N -> N) (k' : N)
    (x : list N) (st : (N * N * N * N) * (N * N * N * N)) (i : nat) :=
  let '((a, b, c, d), (aa, bb, cc, dd)) := st in
  let alpha := add32 (add32 (add32 a (f b c d)) (at_ x (N.to_nat (at_ n0 i)))) k in
  let alpha := rotl32 alpha (at_ r0 i) in
  let '(a, b, c, d) := (d, alpha, b, c) in
  let alpha := add32 (add32 (add32 aa (f' bb cc dd)) (at_ x (N.to_nat (at_ n1 i)))) k' in
  let alpha := rotl32 alpha (at_ r1 i) in
  let '(aa, bb, cc, dd) := (dd, alpha, bb, cc) in
  ((a, b, c, d), (aa, bb, cc, dd)).

(** digest160.go:112-222, one block. *)
Definition rmd160_block (s p : list N) : list N :=
  let x := rmd_x p in
  let B := rmd_body5 sbox160n0 sbox160r0 sbox160n1 sbox160r1 in
  let v := (at_ s 0, at_ s 1, at_ s 2, at_ s 3, at_ s 4) in
  let st := fold_left (B g_xor 0%N g_last 0x50a28be6%N x) (seq 0 16) (v, v) in
  let st := fold_left (B g_ch 0x5a827999%N g_chr 0x5c4dd124%N x) (seq 16 16) st in
  let st := fold_left (B g_or 0x6ed9eba1%N g_or 0x6d703ef3%N x) (seq 32 16) st in
  let st := fold_left (B g_chr 0x8f1bbcdc%N g_ch 0x7a6d76e9%N x) (seq 48 16) st in
  let '((a, b, c, d, e), (aa, bb, cc, dd, ee)) :=
    fold_left (B g_last 0xa953fd4e%N g_xor 0%N x) (seq 64 16) st in
  let dd := add32 dd (add32 c (at_ s 1)) in
  [dd; add32 (add32 (at_ s 2) d) ee; add32 (add32 (at_ s 3) e) aa;
   add32 (add32 (at_ s 4) a) bb; add32 (add32 (at_ s 0) b) cc].

(** digest128.go:113-200, one block. *)
Definition rmd128_block (s p : list N) : list N :=
  let x := rmd_x p in
  let B := rmd_body4 sbox128n0 sbox128r0 sbox128n1 sbox128r1 in
  let v := (at_ s 0, at_ s 1, at_ s 2, at_ s 3) in
  let st := fold_left (B g_xor 0%N g_chr2 0x50a28be6%N x) (seq 0 16) (v, v) in
  let st := fold_left (B g_ch2 0x5a827999%N g_or2 0x5c4dd124%N x) (seq 16 16) st in
  let st := fold_left (B g_or2 0x6ed9eba1%N g_ch2 0x6d703ef3%N x) (seq 32 16) st in
  let '((a, b, c, d), (aa, bb, cc, dd)) :=
    fold_left (B g_chr2 0x8f1bbcdc%N g_xor 0%N x) (seq 48 16) st in
  let c := add32 (add32 (at_ s 1) c) dd in
  [c; add32 (add32 (at_ s 2) d) aa; add32 (add32 (at_ s 3) a) bb; add32 (add32 (at_ s 0) b) cc].

(** digest256.go:116-223, one block. *)
Definition rmd256_block (s p : list N) : list N :=
  let x := rmd_x p in
  let B := rmd_body4 sbox256n0 sbox256r0 sbox256n1 sbox256r1 in
  let st := ((at_ s 0, at_ s 1, at_ s 2, at_ s 3), (at_ s 4, at_ s 5, at_ s 6, at_ s 7)) in
  let '((a, b, c, d), (aa, bb, cc, dd)) := fold_left (B g_xor 0%N g_chr2 0x50a28be6%N x) (seq 0 16) st in
  let '(a, aa) := (aa, a) in
  let '((a, b, c, d), (aa, bb, cc, dd)) :=
    fold_left (B g_ch2 0x5a827999%N g_or2 0x5c4dd124%N x) (seq 16 16) ((a, b, c, d), (aa, bb, cc, dd)) in
  let '(b, bb) := (bb, b) in
  let '((a, b, c, d), (aa, bb, cc, dd)) :=
    fold_left (B g_or2 0x6ed9eba1%N g_ch2 0x6d703ef3%N x) (seq 32 16) ((a, b, c, d), (aa, bb, cc, dd)) in
  let '(c, cc) := (cc, c) in
  let '((a, b, c, d), (aa, bb, cc, dd)) :=
    fold_left (B g_chr2 0x8f1bbcdc%N g_xor 0%N x) (seq 48 16) ((a, b, c, d), (aa, bb, cc, dd)) in
  let '(d, dd) := (dd, d) in
  [add32 (at_ s 0) a; add32 (at_ s 1) b; add32 (at_ s 2) c; add32 (at_ s 3) d;
   add32 (at_ s 4) aa; add32 (at_ s 5) bb; add32 (at_ s 6) cc; add32 (at_ s 7) dd].

(** digest320.go:111-247, one block. *)
Definition rmd320_block (s p : list N) : list N :=
  let x := rmd_x p in
  let B := rmd_body5 sbox320n0 sbox320r0 sbox320n1 sbox320r1 in
  let st := ((at_ s 0, at_ s 1, at_ s 2, at_ s 3, at_ s 4), (at_ s 5, at_ s 6, at_ s 7, at_ s 8, at_ s 9)) in
  let '((a, b, c, d, e), (aa, bb, cc, dd, ee)) := fold_left (B g_xor 0%N g_last 0x50a28be6%N x) (seq 0 16) st in
  let '(b, bb) := (bb, b) in
  let '((a, b, c, d, e), (aa, bb, cc, dd, ee)) :=
    fold_left (B g_ch2 0x5a827999%N g_chr2 0x5c4dd124%N x) (seq 16 16) ((a, b, c, d, e), (aa, bb, cc, dd, ee)) in
  let '(d, dd) := (dd, d) in
  let '((a, b, c, d, e), (aa, bb, cc, dd, ee)) :=
    fold_left (B g_or2 0x6ed9eba1%N g_or2 0x6d703ef3%N x) (seq 32 16) ((a, b, c, d, e), (aa, bb, cc, dd, ee)) in
  let '(a, aa) := (aa, a) in
  let '((a, b, c, d, e), (aa, bb, cc, dd, ee)) :=
    fold_left (B g_chr2 0x8f1bbcdc%N g_ch2 0x7a6d76e9%N x) (seq 48 16) ((a, b, c, d, e), (aa, bb, cc, dd, ee)) in
  let '(c, cc) := (cc, c) in
  let '((a, b, c, d, e), (aa, bb, cc, dd, ee)) :=
    fold_left (B g_last 0xa953fd4e%N g_xor 0%N x) (seq 64 16) ((a, b, c, d, e), (aa, bb, cc, dd, ee)) in
  let '(e, ee) := (ee, e) in
  [add32 (at_ s 0) a; add32 (at_ s 1) b; add32 (at_ s 2) c; add32 (at_ s 3) d; add32 (at_ s 4) e;
   add32 (at_ s 5) aa; add32 (at_ s 6) bb; add32 (at_ s 7) cc; add32 (at_ s 8) dd; add32 (at_ s 9) ee].

(** Write, Sum, Reset are the same text in the four files (digest160.go:31-110):
    newDigest / Reset do not clear d.x. *)
Section Digest.
Variable iv : list N.
Variable block : list N -> list N -> list N.
Definition rmd_new : dig (list N) := mkdig iv (zeros 64) 0 0.
Definition rmd_reset (d : dig (list N)) : dig (list N) := mkdig iv (dx d) 0 0.
Definition rmd_write : dig (list N) -> list N -> dig (list N) * nat := write_std 64 block.
(** digest160.go:82-110; None is the panic("d.nx != 0"). *)
Definition rmd_checkSum (d : dig (list N)) : option (list N) :=
  let d' := finish_write rmd_write 0x80%N d in
  if negb (dnx d' =? 0) then None else Some (concat (map (le_bytes 4) (ds d'))).
Definition rmd_sum (d : dig (list N)) (inp : list N) : dig (list N) * list N :=
  (d, inp ++ match rmd_checkSum d with Some h => h | None => [] end).
Definition rmd_impl : impl (dig (list N)) := mkimpl rmd_write rmd_sum rmd_reset.
End Digest.

Definition rmd128_iv := [rmd_s0; rmd_s1; rmd_s2; rmd_s3].
Definition rmd160_iv := [rmd_s0; rmd_s1; rmd_s2; rmd_s3; rmd_s4].
Definition rmd256_iv := [rmd_s0; rmd_s1; rmd_s2; rmd_s3; rmd_s5; rmd_s6; rmd_s7; rmd_s8].
Definition rmd320_iv := [rmd_s0; rmd_s1; rmd_s2; rmd_s3; rmd_s4; rmd_s5; rmd_s6; rmd_s7; rmd_s8; rmd_s9].
Definition rmd128_impl := rmd_impl rmd128_iv rmd128_block.
Definition rmd160_impl := rmd_impl rmd160_iv rmd160_block.
Definition rmd256_impl := rmd_impl rmd256_iv rmd256_block.
Definition rmd320_impl := rmd_impl rmd320_iv rmd320_block.


(** ** Proofs *)
Definition tab_ok (n : nat) (n0 r0 n1 r1 : list N) : bool :=
  forallb (fun i => (N.to_nat (at_ n0 i) =? rmd_r i) && N.eqb (at_ r0 i) (rmd_s i)
                    && (N.to_nat (at_ n1 i) =? rmd_r' i) && N.eqb (at_ r1 i) (rmd_s' i)) (seq 0 n).
Lemma tab128_ok : tab_ok 64 sbox128n0 sbox128r0 sbox128n1 sbox128r1 = true.
Proof. vm_compute. reflexivity. Qed.
Lemma tab160_ok : tab_ok 80 sbox160n0 sbox160r0 sbox160n1 sbox160r1 = true.
Proof. vm_compute. reflexivity. Qed.
Lemma tab256_ok : tab_ok 64 sbox256n0 sbox256r0 sbox256n1 sbox256r1 = true.
Proof. vm_compute. reflexivity. Qed.
Lemma tab320_ok : tab_ok 80 sbox320n0 sbox320r0 sbox320n1 sbox320r1 = true.
Proof. vm_compute. reflexivity. Qed.
Lemma tab_at : forall n n0 r0 n1 r1 i, tab_ok n n0 r0 n1 r1 = true -> i < n ->
  N.to_nat (at_ n0 i) = rmd_r i /\ at_ r0 i = rmd_s i /\
  N.to_nat (at_ n1 i) = rmd_r' i /\ at_ r1 i = rmd_s' i.
Proof.
  intros n n0 r0 n1 r1 i H Hi. unfold tab_ok in H. rewrite forallb_forall in H.
  specialize (H i (proj2 (in_seq _ _ _) (conj (Nat.le_0_l _) Hi))).
  rewrite !andb_true_iff, !N.eqb_eq, !Nat.eqb_eq in H. intuition.
Qed.

Definition fok (f : N -> N -> N -> N) (i : nat) : Prop :=
  forall b c d, is32 b -> is32 c -> is32 d -> f b c d = rmd_f i b c d.
Lemma not32_and : forall b d, is32 d -> N.land (not32 b) d = N.ldiff d b.
Proof.
  intros b d Hd. apply N.bits_inj. intro i. unfold not32.
  rewrite N.land_spec, N.ldiff_spec, N.lxor_spec.
  change 4294967295%N with (N.ones 32).
  destruct (N.lt_ge_cases i 32).
  - rewrite N.ones_spec_low by auto. destruct (N.testbit b i), (N.testbit d i); reflexivity.
  - unfold is32 in Hd. rewrite lt_pow2_bits in Hd. rewrite (Hd i) by auto. now rewrite !andb_false_r.
Qed.
Lemma fok_xor : fok g_xor 1.
Proof. intros b c d _ _ _. reflexivity. Qed.
Lemma fok_ch : fok g_ch 2.
Proof. intros b c d _ _ Hd. unfold g_ch, rmd_f. now rewrite not32_and. Qed.
Lemma fok_ch2 : fok g_ch2 2.
Proof. intros b c d _ _ _. unfold g_ch2, rmd_f. bitwise. Qed.
Lemma fok_or : fok g_or 3.
Proof. intros b c d _ _ _. reflexivity. Qed.
Lemma fok_or2 : fok g_or2 3.
Proof. intros b c d _ _ _. unfold g_or2, rmd_f. apply N.lxor_comm. Qed.
Lemma fok_chr : fok g_chr 4.
Proof. intros b c d _ _ _. reflexivity. Qed.
Lemma fok_chr2 : fok g_chr2 4.
Proof. intros b c d _ _ _. unfold g_chr2, rmd_f. bitwise. Qed.
Lemma fok_last : fok g_last 5.
Proof. intros b c d _ _ _. reflexivity. Qed.

Definition ok5l (v : N * N * N * N * N) : Prop :=
  let '(a, b, c, d, e) := v in is32 a /\ is32 b /\ is32 c /\ is32 d /\ is32 e.
Definition ok5 (st : (N * N * N * N * N) * (N * N * N * N * N)) : Prop := ok5l (fst st) /\ ok5l (snd st).
Definition ok4l (v : N * N * N * N) : Prop :=
  let '(a, b, c, d) := v in is32 a /\ is32 b /\ is32 c /\ is32 d.
Definition ok4 (st : (N * N * N * N) * (N * N * N * N)) : Prop := ok4l (fst st) /\ ok4l (snd st).

Lemma rmd_round5_ok : forall n0 r0 n1 r1 f k f' k' x j st,
  tab_ok 80 n0 r0 n1 r1 = true -> j < 5 -> fok f (j + 1) -> fok f' (5 - j) ->
  k = rmd_K j -> k' = rmd_K160' j -> ok5 st ->
  fold_left (rmd_body5 n0 r0 n1 r1 f k f' k' x) (seq (16 * j) 16) st = rmd_round5 x j st
  /\ ok5 (fold_left (rmd_body5 n0 r0 n1 r1 f k f' k' x) (seq (16 * j) 16) st).
Proof.
  intros n0 r0 n1 r1 f k f' k' x j st Ht Hj Hf Hf' Hk Hk' Hst. unfold rmd_round5.
  apply fold_left_agree with (Q := fun i => 16 * j <= i < 16 * j + 16); auto.
  - intros [[[[[a b] c] d] e] [[[[aa bb] cc] dd] ee]] i [Ha Hb] Hi. cbn [fst snd] in *.
    destruct Ha as (? & ? & ? & ? & ?), Hb as (? & ? & ? & ? & ?).
    destruct (tab_at _ _ _ _ _ i Ht) as (E1 & E2 & E3 & E4); [lia|].
    unfold rmd_body5, rmd_both5, rmd_step5. cbn [fst snd].
    assert (Eq : i / 16 = j) by (symmetry; apply (Nat.div_unique i 16 j (i - 16 * j)); lia).
    rewrite Eq, E1, E2, E3, E4, Hf, Hf', Hk, Hk' by auto. reflexivity.
  - intros [[[[[a b] c] d] e] [[[[aa bb] cc] dd] ee]] i [Ha Hb] Hi. cbn [fst snd] in *.
    destruct Ha as (? & ? & ? & ? & ?), Hb as (? & ? & ? & ? & ?).
    unfold rmd_body5, ok5, ok5l. cbn [fst snd].
    repeat split; auto using add32_is32, rotl32_is32.
  - apply Forall_forall. intros i Hi. apply in_seq in Hi. lia.
Qed.
Lemma rmd_round4_ok : forall n0 r0 n1 r1 f k f' k' x j st,
  tab_ok 64 n0 r0 n1 r1 = true -> j < 4 -> fok f (j + 1) -> fok f' (4 - j) ->
  k = rmd_K j -> k' = rmd_K128' j -> ok4 st ->
  fold_left (rmd_body4 n0 r0 n1 r1 f k f' k' x) (seq (16 * j) 16) st = rmd_round4 x j st
  /\ ok4 (fold_left (rmd_body4 n0 r0 n1 r1 f k f' k' x) (seq (16 * j) 16) st).
Proof.
  intros n0 r0 n1 r1 f k f' k' x j st Ht Hj Hf Hf' Hk Hk' Hst. unfold rmd_round4.
  apply fold_left_agree with (Q := fun i => 16 * j <= i < 16 * j + 16); auto.
  - intros [[[[a b] c] d] [[[aa bb] cc] dd]] i [Ha Hb] Hi. cbn [fst snd] in *.
    destruct Ha as (? & ? & ? & ?), Hb as (? & ? & ? & ?).
    destruct (tab_at _ _ _ _ _ i Ht) as (E1 & E2 & E3 & E4); [lia|].
    unfold rmd_body4, rmd_both4, rmd_step4. cbn [fst snd].
    assert (Eq : i / 16 = j) by (symmetry; apply (Nat.div_unique i 16 j (i - 16 * j)); lia).
    rewrite Eq, E1, E2, E3, E4, Hf, Hf', Hk, Hk' by auto. reflexivity.
  - intros [[[[a b] c] d] [[[aa bb] cc] dd]] i [Ha Hb] Hi. cbn [fst snd] in *.
    destruct Ha as (? & ? & ? & ?), Hb as (? & ? & ? & ?).
    unfold rmd_body4, ok4, ok4l. cbn [fst snd].
    repeat split; auto using add32_is32, rotl32_is32.
  - apply Forall_forall. intros i Hi. apply in_seq in Hi. lia.
Qed.

Lemma rmd_x_ok : forall p, length p = 64 -> rmd_x p = rmd_words p.
Proof.
  intros p L. unfold rmd_x, rmd_words, chunks. rewrite L. change (64 / 4) with 16.
  rewrite map_map. apply map_ext. intros i. unfold slice. do 2 f_equal. lia.
Qed.

Lemma fold_seq_app : forall A (f : A -> nat -> A) i a b s,
  fold_left f (seq i (a + b)) s = fold_left f (seq (i + a) b) (fold_left f (seq i a) s).
Proof. intros. now rewrite seq_app, fold_left_app. Qed.

Lemma at_list_is32 : forall s i, Forall is32 s -> is32 (at_ s i).
Proof.
  intros s i H. unfold at_. destruct (Nat.lt_ge_cases i (length s)).
  - eapply Forall_forall; [exact H|]. now apply nth_In.
  - rewrite nth_overflow by auto. reflexivity.
Qed.

Lemma add32_comm : forall a b, add32 a b = add32 b a.
Proof. intros. unfold add32. f_equal. apply N.add_comm. Qed.
Lemma add32_assoc : forall a b c, add32 (add32 a b) c = add32 a (add32 b c).
Proof. intros. unfold add32. rewrite w32_add_l, w32_add_r. f_equal. lia. Qed.

Lemma rmd160_block_ok : forall s p, Forall is32 s -> length p = 64 ->
  rmd160_block s p = rmd160_compress s p.
Proof.
  intros s p Hs Lp. unfold rmd160_block, rmd160_compress. rewrite rmd_x_ok by auto.
  cbv zeta. set (X := rmd_words p). clearbody X.
  set (v := (at_ s 0, at_ s 1, at_ s 2, at_ s 3, at_ s 4)).
  assert (Hv : ok5 (v, v)) by (unfold v, ok5, ok5l; cbn [fst snd]; repeat split; auto using at_list_is32).
  clearbody v.
  destruct (rmd_round5_ok sbox160n0 sbox160r0 sbox160n1 sbox160r1 g_xor 0 g_last 0x50a28be6 X 0 _
              tab160_ok ltac:(lia) fok_xor fok_last eq_refl eq_refl Hv) as [E0 H0].
  change (16 * 0) with 0 in E0, H0. rewrite E0 in *. clear E0 Hv.
  destruct (rmd_round5_ok sbox160n0 sbox160r0 sbox160n1 sbox160r1 g_ch 0x5a827999 g_chr 0x5c4dd124 X 1 _
              tab160_ok ltac:(lia) fok_ch fok_chr eq_refl eq_refl H0) as [E1 H1].
  change (16 * 1) with 16 in E1, H1. rewrite E1 in *. clear E1 H0.
  destruct (rmd_round5_ok sbox160n0 sbox160r0 sbox160n1 sbox160r1 g_or 0x6ed9eba1 g_or 0x6d703ef3 X 2 _
              tab160_ok ltac:(lia) fok_or fok_or eq_refl eq_refl H1) as [E2 H2].
  change (16 * 2) with 32 in E2, H2. rewrite E2 in *. clear E2 H1.
  destruct (rmd_round5_ok sbox160n0 sbox160r0 sbox160n1 sbox160r1 g_chr 0x8f1bbcdc g_ch 0x7a6d76e9 X 3 _
              tab160_ok ltac:(lia) fok_chr fok_ch eq_refl eq_refl H2) as [E3 H3].
  change (16 * 3) with 48 in E3, H3. rewrite E3 in *. clear E3 H2.
  destruct (rmd_round5_ok sbox160n0 sbox160r0 sbox160n1 sbox160r1 g_last 0xa953fd4e g_xor 0 X 4 _
              tab160_ok ltac:(lia) fok_last fok_xor eq_refl eq_refl H3) as [E4 H4].
  change (16 * 4) with 64 in E4, H4. rewrite E4. clear E4 H4 H3.
  assert (ES : fold_left (rmd_both5 X) (seq 0 80) (v, v)
             = rmd_round5 X 4 (rmd_round5 X 3 (rmd_round5 X 2 (rmd_round5 X 1 (rmd_round5 X 0 (v, v)))))).
  { unfold rmd_round5. change 80 with (16 + (16 + (16 + (16 + 16)))).
    rewrite !(fold_seq_app _ (rmd_both5 X)). reflexivity. }
  rewrite ES. destruct (rmd_round5 X 4 _) as [[[[[a b] c] d] e] [[[[aa bb] cc] dd] ee]].
  f_equal. rewrite add32_comm. f_equal. apply add32_comm.
Qed.

Lemma rmd128_block_ok : forall s p, Forall is32 s -> length p = 64 ->
  rmd128_block s p = rmd128_compress s p.
Proof.
  intros s p Hs Lp. unfold rmd128_block, rmd128_compress. rewrite rmd_x_ok by auto.
  cbv zeta. set (X := rmd_words p). clearbody X.
  set (v := (at_ s 0, at_ s 1, at_ s 2, at_ s 3)).
  assert (Hv : ok4 (v, v)) by (unfold v, ok4, ok4l; cbn [fst snd]; repeat split; auto using at_list_is32).
  clearbody v.
  destruct (rmd_round4_ok sbox128n0 sbox128r0 sbox128n1 sbox128r1 g_xor 0 g_chr2 0x50a28be6 X 0 _
              tab128_ok ltac:(lia) fok_xor fok_chr2 eq_refl eq_refl Hv) as [E0 H0].
  change (16 * 0) with 0 in E0, H0. rewrite E0 in *. clear E0 Hv.
  destruct (rmd_round4_ok sbox128n0 sbox128r0 sbox128n1 sbox128r1 g_ch2 0x5a827999 g_or2 0x5c4dd124 X 1 _
              tab128_ok ltac:(lia) fok_ch2 fok_or2 eq_refl eq_refl H0) as [E1 H1].
  change (16 * 1) with 16 in E1, H1. rewrite E1 in *. clear E1 H0.
  destruct (rmd_round4_ok sbox128n0 sbox128r0 sbox128n1 sbox128r1 g_or2 0x6ed9eba1 g_ch2 0x6d703ef3 X 2 _
              tab128_ok ltac:(lia) fok_or2 fok_ch2 eq_refl eq_refl H1) as [E2 H2].
  change (16 * 2) with 32 in E2, H2. rewrite E2 in *. clear E2 H1.
  destruct (rmd_round4_ok sbox128n0 sbox128r0 sbox128n1 sbox128r1 g_chr2 0x8f1bbcdc g_xor 0 X 3 _
              tab128_ok ltac:(lia) fok_chr2 fok_xor eq_refl eq_refl H2) as [E3 H3].
  change (16 * 3) with 48 in E3, H3. rewrite E3 in *. clear E3 H2 H3.
  assert (ES : fold_left (rmd_both4 X) (seq 0 64) (v, v)
             = rmd_round4 X 3 (rmd_round4 X 2 (rmd_round4 X 1 (rmd_round4 X 0 (v, v))))).
  { unfold rmd_round4. change 64 with (16 + (16 + (16 + 16))).
    rewrite !(fold_seq_app _ (rmd_both4 X)). reflexivity. }
  rewrite ES. destruct (rmd_round4 X 3 _) as [[[[a b] c] d] [[[aa bb] cc] dd]]. reflexivity.
Qed.

Lemma list8_combine : forall (s : list N) a b c d e f g h, length s = 8 ->
  map (fun '(x, y) => add32 x y) (combine s [a; b; c; d; e; f; g; h])
  = [add32 (at_ s 0) a; add32 (at_ s 1) b; add32 (at_ s 2) c; add32 (at_ s 3) d;
     add32 (at_ s 4) e; add32 (at_ s 5) f; add32 (at_ s 6) g; add32 (at_ s 7) h].
Proof.
  intros s a b c d e f g h L. do 8 (destruct s as [|? s]; [discriminate L|]). destruct s; [|discriminate L]. reflexivity.
Qed.
Lemma list10_combine : forall (s : list N) a b c d e f g h i j, length s = 10 ->
  map (fun '(x, y) => add32 x y) (combine s [a; b; c; d; e; f; g; h; i; j])
  = [add32 (at_ s 0) a; add32 (at_ s 1) b; add32 (at_ s 2) c; add32 (at_ s 3) d; add32 (at_ s 4) e;
     add32 (at_ s 5) f; add32 (at_ s 6) g; add32 (at_ s 7) h; add32 (at_ s 8) i; add32 (at_ s 9) j].
Proof.
  intros s a b c d e f g h i j L. do 10 (destruct s as [|? s]; [discriminate L|]). destruct s; [|discriminate L]. reflexivity.
Qed.

Lemma rmd256_block_ok : forall s p, length s = 8 -> Forall is32 s -> length p = 64 ->
  rmd256_block s p = rmd256_compress s p.
Proof.
  intros s p Ls Hs Lp. unfold rmd256_block, rmd256_compress. rewrite rmd_x_ok by auto.
  cbv zeta. set (X := rmd_words p). clearbody X.
  set (v := ((at_ s 0, at_ s 1, at_ s 2, at_ s 3), (at_ s 4, at_ s 5, at_ s 6, at_ s 7))).
  assert (Hv : ok4 v) by (unfold v, ok4, ok4l; cbn [fst snd]; repeat split; auto using at_list_is32).
  clearbody v. change (seq 0 4) with [0; 1; 2; 3].
  rewrite !fold_left_cons, fold_left_nil. cbv beta.
  destruct (rmd_round4_ok sbox256n0 sbox256r0 sbox256n1 sbox256r1 g_xor 0 g_chr2 0x50a28be6 X 0 _
              tab256_ok ltac:(lia) fok_xor fok_chr2 eq_refl eq_refl Hv) as [E0 H0].
  change (16 * 0) with 0 in E0, H0. rewrite E0 in *. clear E0 Hv.
  destruct (rmd_round4 X 0 v) as [[[[a b] c] d] [[[aa bb] cc] dd]]. cbn [swap4].
  assert (H0' : ok4 ((aa, b, c, d), (a, bb, cc, dd))) by (unfold ok4, ok4l in *; cbn [fst snd] in *; tauto).
  clear H0.
  destruct (rmd_round4_ok sbox256n0 sbox256r0 sbox256n1 sbox256r1 g_ch2 0x5a827999 g_or2 0x5c4dd124 X 1 _
              tab256_ok ltac:(lia) fok_ch2 fok_or2 eq_refl eq_refl H0') as [E1 H1].
  change (16 * 1) with 16 in E1, H1. rewrite E1 in *. clear E1 H0'.
  destruct (rmd_round4 X 1 _) as [[[[a1 b1] c1] d1] [[[aa1 bb1] cc1] dd1]]. cbn [swap4].
  assert (H1' : ok4 ((a1, bb1, c1, d1), (aa1, b1, cc1, dd1))) by (unfold ok4, ok4l in *; cbn [fst snd] in *; tauto).
  clear H1.
  destruct (rmd_round4_ok sbox256n0 sbox256r0 sbox256n1 sbox256r1 g_or2 0x6ed9eba1 g_ch2 0x6d703ef3 X 2 _
              tab256_ok ltac:(lia) fok_or2 fok_ch2 eq_refl eq_refl H1') as [E2 H2].
  change (16 * 2) with 32 in E2, H2. rewrite E2 in *. clear E2 H1'.
  destruct (rmd_round4 X 2 _) as [[[[a2 b2] c2] d2] [[[aa2 bb2] cc2] dd2]]. cbn [swap4].
  assert (H2' : ok4 ((a2, b2, cc2, d2), (aa2, bb2, c2, dd2))) by (unfold ok4, ok4l in *; cbn [fst snd] in *; tauto).
  clear H2.
  destruct (rmd_round4_ok sbox256n0 sbox256r0 sbox256n1 sbox256r1 g_chr2 0x8f1bbcdc g_xor 0 X 3 _
              tab256_ok ltac:(lia) fok_chr2 fok_xor eq_refl eq_refl H2') as [E3 H3].
  change (16 * 3) with 48 in E3, H3. rewrite E3 in *. clear E3 H2' H3.
  destruct (rmd_round4 X 3 _) as [[[[a3 b3] c3] d3] [[[aa3 bb3] cc3] dd3]]. cbn [swap4].
  now rewrite list8_combine.
Qed.

Lemma rmd320_block_ok : forall s p, length s = 10 -> Forall is32 s -> length p = 64 ->
  rmd320_block s p = rmd320_compress s p.
Proof.
  intros s p Ls Hs Lp. unfold rmd320_block, rmd320_compress. rewrite rmd_x_ok by auto.
  cbv zeta. set (X := rmd_words p). clearbody X.
  set (v := ((at_ s 0, at_ s 1, at_ s 2, at_ s 3, at_ s 4), (at_ s 5, at_ s 6, at_ s 7, at_ s 8, at_ s 9))).
  assert (Hv : ok5 v) by (unfold v, ok5, ok5l; cbn [fst snd]; repeat split; auto using at_list_is32).
  clearbody v. change (seq 0 5) with [0; 1; 2; 3; 4].
  rewrite !fold_left_cons, fold_left_nil. cbv beta.
  destruct (rmd_round5_ok sbox320n0 sbox320r0 sbox320n1 sbox320r1 g_xor 0 g_last 0x50a28be6 X 0 _
              tab320_ok ltac:(lia) fok_xor fok_last eq_refl eq_refl Hv) as [E0 H0].
  change (16 * 0) with 0 in E0, H0. rewrite E0 in *. clear E0 Hv.
  destruct (rmd_round5 X 0 v) as [[[[[a b] c] d] e] [[[[aa bb] cc] dd] ee]]. cbn [swap5].
  assert (H0' : ok5 ((a, bb, c, d, e), (aa, b, cc, dd, ee))) by (unfold ok5, ok5l in *; cbn [fst snd] in *; tauto).
  clear H0.
  destruct (rmd_round5_ok sbox320n0 sbox320r0 sbox320n1 sbox320r1 g_ch2 0x5a827999 g_chr2 0x5c4dd124 X 1 _
              tab320_ok ltac:(lia) fok_ch2 fok_chr2 eq_refl eq_refl H0') as [E1 H1].
  change (16 * 1) with 16 in E1, H1. rewrite E1 in *. clear E1 H0'.
  destruct (rmd_round5 X 1 _) as [[[[[a1 b1] c1] d1] e1] [[[[aa1 bb1] cc1] dd1] ee1]]. cbn [swap5].
  assert (H1' : ok5 ((a1, b1, c1, dd1, e1), (aa1, bb1, cc1, d1, ee1))) by (unfold ok5, ok5l in *; cbn [fst snd] in *; tauto).
  clear H1.
  destruct (rmd_round5_ok sbox320n0 sbox320r0 sbox320n1 sbox320r1 g_or2 0x6ed9eba1 g_or2 0x6d703ef3 X 2 _
              tab320_ok ltac:(lia) fok_or2 fok_or2 eq_refl eq_refl H1') as [E2 H2].
  change (16 * 2) with 32 in E2, H2. rewrite E2 in *. clear E2 H1'.
  destruct (rmd_round5 X 2 _) as [[[[[a2 b2] c2] d2] e2] [[[[aa2 bb2] cc2] dd2] ee2]]. cbn [swap5].
  assert (H2' : ok5 ((aa2, b2, c2, d2, e2), (a2, bb2, cc2, dd2, ee2))) by (unfold ok5, ok5l in *; cbn [fst snd] in *; tauto).
  clear H2.
  destruct (rmd_round5_ok sbox320n0 sbox320r0 sbox320n1 sbox320r1 g_chr2 0x8f1bbcdc g_ch2 0x7a6d76e9 X 3 _
              tab320_ok ltac:(lia) fok_chr2 fok_ch2 eq_refl eq_refl H2') as [E3 H3].
  change (16 * 3) with 48 in E3, H3. rewrite E3 in *. clear E3 H2'.
  destruct (rmd_round5 X 3 _) as [[[[[a3 b3] c3] d3] e3] [[[[aa3 bb3] cc3] dd3] ee3]]. cbn [swap5].
  assert (H3' : ok5 ((a3, b3, cc3, d3, e3), (aa3, bb3, c3, dd3, ee3))) by (unfold ok5, ok5l in *; cbn [fst snd] in *; tauto).
  clear H3.
  destruct (rmd_round5_ok sbox320n0 sbox320r0 sbox320n1 sbox320r1 g_last 0xa953fd4e g_xor 0 X 4 _
              tab320_ok ltac:(lia) fok_last fok_xor eq_refl eq_refl H3') as [E4 H4].
  change (16 * 4) with 64 in E4, H4. rewrite E4 in *. clear E4 H3' H4.
  destruct (rmd_round5 X 4 _) as [[[[[a4 b4] c4] d4] e4] [[[[aa4 bb4] cc4] dd4] ee4]]. cbn [swap5].
  now rewrite list10_combine.
Qed.

Definition st_ok (n : nat) (s : list N) : Prop := length s = n /\ Forall is32 s.
Ltac stok := split; [reflexivity|repeat constructor; apply add32_is32].
Lemma rmd160_block_st : forall s p, st_ok 5 (rmd160_block s p).
Proof.
  intros. unfold rmd160_block. cbv zeta.
  match goal with |- context [fold_left ?f ?l ?a] => destruct (fold_left f l a) as [[[[[? ?] ?] ?] ?] [[[[? ?] ?] ?] ?]] end. stok.
Qed.
Lemma rmd128_block_st : forall s p, st_ok 4 (rmd128_block s p).
Proof.
  intros. unfold rmd128_block. cbv zeta.
  match goal with |- context [fold_left ?f ?l ?a] => destruct (fold_left f l a) as [[[[? ?] ?] ?] [[[? ?] ?] ?]] end. stok.
Qed.
Lemma rmd256_block_st : forall s p, st_ok 8 (rmd256_block s p).
Proof.
  intros. unfold rmd256_block. cbv zeta.
  do 4 (match goal with |- context [fold_left ?f ?l ?a] => destruct (fold_left f l a) as [[[[? ?] ?] ?] [[[? ?] ?] ?]] end). stok.
Qed.
Lemma rmd320_block_st : forall s p, st_ok 10 (rmd320_block s p).
Proof.
  intros. unfold rmd320_block. cbv zeta.
  do 5 (match goal with |- context [fold_left ?f ?l ?a] => destruct (fold_left f l a) as [[[[[? ?] ?] ?] ?] [[[[? ?] ?] ?] ?]] end). stok.
Qed.

(** ** The generic digest refines the generic specification *)
Section Refine.
Variable iv : list N.
Variables block compress : list N -> list N -> list N.
Variable n : nat.
Hypothesis Hiv : st_ok n iv.
Hypothesis Hst : forall s p, st_ok n (block s p).
Hypothesis Hblk : forall s p, st_ok n s -> length p = 64 -> block s p = compress s p.

Definition rmd_rel (d : dig (list N)) (m : list N) : Prop := dig_rel 64 block iv 1 d m.
Lemma rmd_fold_ok : forall bl, Forall (fun b : list N => length b = 64) bl ->
  fold_left block bl iv = fold_left compress bl iv.
Proof.
  intros bl Hf.
  apply (fold_left_agree _ _ block compress (st_ok n) (fun b => length b = 64)); auto.
Qed.
Lemma rmd_checkSum_ok : forall d m, rmd_rel d m -> rmd_checkSum block d = Some (rmd_hash compress iv m).
Proof.
  intros d m H. unfold rmd_checkSum, rmd_hash. cbv zeta.
  pose proof (finish_write_rel _ block iv (rmd_write block) 0x80 d m
    (fun d m p => write_std_rel 64 block ltac:(lia) iv d m p) H) as K.
  rewrite (md_pad_nx _ block iv 1 _ _ _ _ ltac:(lia) K). cbn [Nat.eqb negb].
  destruct K as (-> & _). rewrite rmd_fold_ok by (apply chunks_all_length; lia). reflexivity.
Qed.
Lemma rmd_new_rel : rmd_rel (rmd_new iv) [].
Proof. apply dig_rel_new; [lia|reflexivity]. Qed.
Lemma rmd_run : forall ops d m, rmd_rel d m ->
  run (rmd_impl iv block) d ops = ideal_run (rmd_hash compress iv) m ops.
Proof.
  apply run_refines; intros; unfold rmd_impl; cbn [i_write i_sum i_reset].
  - apply write_std_rel; auto. lia.
  - apply write_std_count.
  - exact H.
  - unfold rmd_sum. cbn [snd]. now rewrite (rmd_checkSum_ok d m).
  - apply dig_rel_new; [lia|]. destruct H as (_ & (L & _) & _). exact L.
Qed.
End Refine.

Ltac ivok := split; [reflexivity|repeat constructor].
Lemma rmd128_history_lemma : forall ops,
  run rmd128_impl (rmd_new rmd128_iv) ops = ideal_run ripemd128_spec [] ops.
Proof.
  intros. apply (rmd_run rmd128_iv rmd128_block rmd128_compress 4).
  - ivok.
  - apply rmd128_block_st.
  - intros s p [? ?] ?. now apply rmd128_block_ok.
  - apply rmd_new_rel.
Qed.
Lemma rmd160_history_lemma : forall ops,
  run rmd160_impl (rmd_new rmd160_iv) ops = ideal_run ripemd160_spec [] ops.
Proof.
  intros. apply (rmd_run rmd160_iv rmd160_block rmd160_compress 5).
  - ivok.
  - apply rmd160_block_st.
  - intros s p [? ?] ?. now apply rmd160_block_ok.
  - apply rmd_new_rel.
Qed.
Lemma rmd256_history_lemma : forall ops,
  run rmd256_impl (rmd_new rmd256_iv) ops = ideal_run ripemd256_spec [] ops.
Proof.
  intros. apply (rmd_run rmd256_iv rmd256_block rmd256_compress 8).
  - ivok.
  - apply rmd256_block_st.
  - intros s p [? ?] ?. now apply rmd256_block_ok.
  - apply rmd_new_rel.
Qed.
Lemma rmd320_history_lemma : forall ops,
  run rmd320_impl (rmd_new rmd320_iv) ops = ideal_run ripemd320_spec [] ops.
Proof.
  intros. apply (rmd_run rmd320_iv rmd320_block rmd320_compress 10).
  - ivok.
  - apply rmd320_block_st.
  - intros s p [? ?] ?. now apply rmd320_block_ok.
  - apply rmd_new_rel.
Qed.

(** Test vectors of ripemd_test.go. *)
From Coq Require Import String.
Example rmd128_vec : ripemd128_spec (bytes_of_string "123456") = hex "d6d56cab46e0f3af2c756289f2b447e0".
Proof. vm_compute. reflexivity. Qed.
Example rmd160_vec : ripemd160_spec (bytes_of_string "abc") = hex "8eb208f7e05d987a9b044a8e98c6b087f15a0bfc".
Proof. vm_compute. reflexivity. Qed.
Example rmd256_vec : ripemd256_spec (bytes_of_string "abc")
  = hex "afbd6e228b9d8cbbcef5ca2d03e6dba10ac0bc7dcbe4680e1e42d2e975459b65".
Proof. vm_compute. reflexivity. Qed.
Example rmd320_vec : run rmd320_impl (rmd_new rmd320_iv) [Write (bytes_of_string "a"); Sum []; Sum [1%N]; Reset]
  = let h := hex "ce78850638f92658a5a585097579926dda667a5716562cfcf6fbe77f63542f99b04705d6970dff5d" in
    [Wrote 1; Summed h; Summed (1%N :: h)].
Proof. vm_compute. reflexivity. Qed.
