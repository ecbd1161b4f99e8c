(** SpecBlake.v -- BLAKE-224/256/384/512 from "SHA-3 proposal BLAKE" (version 1.3, sections 2.1 and 2.2),
    written independently of the model.  The two word sizes share one definition with parameters. *)
From Coq Require Import List NArith Arith.
From Verif Require Import Base.
Import ListNotations.

(** The ten permutations (table 2.2). *)
Definition blake_sigma : list (list nat) := [
  [ 0; 1; 2; 3; 4; 5; 6; 7; 8; 9;10;11;12;13;14;15];
  [14;10; 4; 8; 9;15;13; 6; 1;12; 0; 2;11; 7; 5; 3];
  [11; 8;12; 0; 5; 2;15;13;10;14; 3; 6; 7; 1; 9; 4];
  [ 7; 9; 3; 1;13;12;11;14; 2; 6; 5;10; 4; 0;15; 8];
  [ 9; 0; 5; 7; 2; 4;10;15;14; 1;11;12; 6; 8; 3;13];
  [ 2;12; 6;10; 0;11; 8; 3; 4;13; 7; 5;15;14; 1; 9];
  [12; 5; 1;15;14;13; 4;10; 0; 7; 6; 3; 9; 2; 8;11];
  [13;11; 7;14;12; 1; 3; 9; 5; 0;15; 4; 8; 6; 2;10];
  [ 6;15;14; 9;11; 3; 0; 8;12; 2;13; 7; 1; 4;10; 5];
  [10; 2; 8; 4; 7; 6; 1; 5;15;11; 9;14; 3;12;13; 0]].

(** The words on which G_0 .. G_7 work: columns, then diagonals. *)
Definition blake_quads : list (nat * (nat * nat * nat * nat)) :=
  [ (0, (0, 4, 8, 12)); (1, (1, 5, 9, 13)); (2, (2, 6, 10, 14)); (3, (3, 7, 11, 15));
    (4, (0, 5, 10, 15)); (5, (1, 6, 11, 12)); (6, (2, 7, 8, 13)); (7, (3, 4, 9, 14)) ].

Section Blake.
Variable wb : nat.                      (* bytes per word: 4 or 8 *)
Variable add : N -> N -> N.             (* addition of words *)
Variable rotr : N -> N -> N.            (* right rotation of words *)
Variable r1 r2 r3 r4 : N.               (* rotation distances *)
Variable rounds : nat.
Variable cst : list N.                  (* the sixteen constants *)

Definition blake_G (mj ck mk cj : N) (q : N * N * N * N) : N * N * N * N :=
  let '(a, b, c, d) := q in
  let a := add (add a b) (N.lxor mj ck) in
  let d := rotr (N.lxor d a) r1 in
  let c := add c d in
  let b := rotr (N.lxor b c) r2 in
  let a := add (add a b) (N.lxor mk cj) in
  let d := rotr (N.lxor d a) r3 in
  let c := add c d in
  let b := rotr (N.lxor b c) r4 in
  (a, b, c, d).

Definition blake_quarter (m : list N) (perm : list nat) (v : list N) (x : nat * (nat * nat * nat * nat)) : list N :=
  let '(i, (pa, pb, pc, pd)) := x in
  let j := nth (2 * i) perm 0 in
  let k := nth (2 * i + 1) perm 0 in
  let '(a, b, c, d) := blake_G (at_ m j) (at_ cst k) (at_ m k) (at_ cst j) (at_ v pa, at_ v pb, at_ v pc, at_ v pd) in
  upd (upd (upd (upd v pa a) pb b) pc c) pd d.

Definition blake_round (m : list N) (v : list N) (r : nat) : list N :=
  fold_left (blake_quarter m (nth (r mod 10) blake_sigma [])) blake_quads v.

(** 2.1.2: the compression function; [t] is the bit counter, split in two words. *)
Definition blake_compress (s : list N) (h : list N) (t : N) (block : list N) : list N :=
  let m := map be_val (chunks wb block) in
  let t0 := (t mod 2 ^ (8 * N.of_nat wb))%N in
  let t1 := (t / 2 ^ (8 * N.of_nat wb) mod 2 ^ (8 * N.of_nat wb))%N in
  let c := at_ cst in
  let v := [at_ h 0; at_ h 1; at_ h 2; at_ h 3; at_ h 4; at_ h 5; at_ h 6; at_ h 7;
            N.lxor (at_ s 0) (c 0); N.lxor (at_ s 1) (c 1); N.lxor (at_ s 2) (c 2); N.lxor (at_ s 3) (c 3);
            N.lxor t0 (c 4); N.lxor t0 (c 5); N.lxor t1 (c 6); N.lxor t1 (c 7)] in
  let v' := fold_left (blake_round m) (seq 0 rounds) v in
  map (fun i => N.lxor (N.lxor (N.lxor (at_ h i) (at_ s (i mod 4))) (at_ v' i)) (at_ v' (i + 8))) (seq 0 8).

(** 2.1.3 padding, on bytes: 0x80, zeros and a last byte [flag] (1 for the full-size variants, 0 for the
    truncated ones) up to 2*wb bytes before the end of a block -- one byte 0x80+flag if there is room for one
    byte only -- and then the bit length as two words. *)
Definition blake_padlen (m : list N) : nat := let bs := 16 * wb in bs - (length m + 2 * wb) mod bs.
Definition blake_pad (flag : N) (m : list N) : list N :=
  let k := blake_padlen m in
  m ++ (if k =? 1 then [(128 + flag)%N] else [128%N] ++ zeros (k - 2) ++ [flag]) ++ be_bytes (2 * wb) (8 * N.of_nat (length m)).

(** The counter for block i: how many message bits there are in blocks 0..i, or 0 if block i has none. *)
Definition blake_counter (m : list N) (i : nat) : N :=
  let bs := 16 * wb in if i * bs <? length m then (8 * N.of_nat (Nat.min (length m) ((i + 1) * bs)))%N else 0%N.

Definition blake_hash (iv : list N) (flag : N) (size : nat) (salt m : list N) : list N :=
  let bl := chunks (16 * wb) (blake_pad flag m) in
  let h := fold_left (fun h '(i, b) => blake_compress (map be_val (chunks wb salt)) h (blake_counter m i) b) (combine (seq 0 (length bl)) bl) iv in
  firstn size (concat (map (be_bytes wb) h)).
End Blake.

(** Constants: the first digits of pi. *)
Definition blake_pi : list N := [
  0x243F6A88; 0x85A308D3; 0x13198A2E; 0x03707344; 0xA4093822; 0x299F31D0; 0x082EFA98; 0xEC4E6C89;
  0x452821E6; 0x38D01377; 0xBE5466CF; 0x34E90C6C; 0xC0AC29B7; 0xC97C50DD; 0x3F84D5B5; 0xB5470917;
  0x9216D5D9; 0x8979FB1B; 0xD1310BA6; 0x98DFB5AC; 0x2FFD72DB; 0xD01ADFB7; 0xB8E1AFED; 0x6A267E96;
  0xBA7C9045; 0xF12C7F99; 0x24A19947; 0xB3916CF7; 0x0801F2E2; 0x858EFC16; 0x636920D8; 0x71574E69]%N.
Definition blake32_cst : list N := firstn 16 blake_pi.
Definition blake64_cst : list N := map (fun i => (2 ^ 32 * at_ blake_pi (2 * i) + at_ blake_pi (2 * i + 1))%N) (seq 0 16).

(** Initial values: those of SHA-2. *)
Definition sha256_iv : list N := [0x6a09e667; 0xbb67ae85; 0x3c6ef372; 0xa54ff53a; 0x510e527f; 0x9b05688c; 0x1f83d9ab; 0x5be0cd19]%N.
Definition sha224_iv : list N := [0xc1059ed8; 0x367cd507; 0x3070dd17; 0xf70e5939; 0xffc00b31; 0x68581511; 0x64f98fa7; 0xbefa4fa4]%N.
Definition sha512_iv : list N := [0x6a09e667f3bcc908; 0xbb67ae8584caa73b; 0x3c6ef372fe94f82b; 0xa54ff53a5f1d36f1;
  0x510e527fade682d1; 0x9b05688c2b3e6c1f; 0x1f83d9abfb41bd6b; 0x5be0cd19137e2179]%N.
Definition sha384_iv : list N := [0xcbbb9d5dc1059ed8; 0x629a292a367cd507; 0x9159015a3070dd17; 0x152fecd8f70e5939;
  0x67332667ffc00b31; 0x8eb44a8768581511; 0xdb0c2e0d64f98fa7; 0x47b5481dbefa4fa4]%N.

Definition blake32_hash := blake_hash 4 add32 rotr32 16 12 8 7 14 blake32_cst.
Definition blake64_hash := blake_hash 8 add64 rotr64 32 25 16 11 16 blake64_cst.
(** salt: 16 bytes (BLAKE-224/256) or 32 bytes (BLAKE-384/512). *)
Definition blake256_spec (salt m : list N) : list N := blake32_hash sha256_iv 1 32 salt m.
Definition blake224_spec (salt m : list N) : list N := blake32_hash sha224_iv 0 28 salt m.
Definition blake512_spec (salt m : list N) : list N := blake64_hash sha512_iv 1 64 salt m.
Definition blake384_spec (salt m : list N) : list N := blake64_hash sha384_iv 0 48 salt m.
