(** Blake256.v -- model of package /repo/blake256 (digest.go, utils.go, sbox.go, binary.go, blake256.go)
    and its refinement to SpecBlake. *)
From Coq Require Import List NArith Arith Lia Bool.
From Verif Require Import Base Words HashAPI Buf MD SpecBlake BlakeP Sm3.
Import ListNotations.

(** sbox.go:3-20 *)
Definition b256_sigma : list (list nat) := [
  [ 0; 1; 2; 3; 4; 5; 6; 7; 8; 9; 10; 11; 12; 13; 14; 15 ];
  [14; 10; 4; 8; 9; 15; 13; 6; 1; 12; 0; 2; 11; 7; 5; 3 ];
  [11; 8; 12; 0; 5; 2; 15; 13; 10; 14; 3; 6; 7; 1; 9; 4 ];
  [ 7; 9; 3; 1; 13; 12; 11; 14; 2; 6; 5; 10; 4; 0; 15; 8 ];
  [ 9; 0; 5; 7; 2; 4; 10; 15; 14; 1; 11; 12; 6; 8; 3; 13 ];
  [ 2; 12; 6; 10; 0; 11; 8; 3; 4; 13; 7; 5; 15; 14; 1; 9 ];
  [12; 5; 1; 15; 14; 13; 4; 10; 0; 7; 6; 3; 9; 2; 8; 11 ];
  [13; 11; 7; 14; 12; 1; 3; 9; 5; 0; 15; 4; 8; 6; 2; 10 ];
  [ 6; 15; 14; 9; 11; 3; 0; 8; 12; 2; 13; 7; 1; 4; 10; 5 ];
  [10; 2; 8; 4; 7; 6; 1; 5; 15; 11; 9; 14; 3; 12; 13 ; 0 ];
  [ 0; 1; 2; 3; 4; 5; 6; 7; 8; 9; 10; 11; 12; 13; 14; 15 ];
  [14; 10; 4; 8; 9; 15; 13; 6; 1; 12; 0; 2; 11; 7; 5; 3 ];
  [11; 8; 12; 0; 5; 2; 15; 13; 10; 14; 3; 6; 7; 1; 9; 4 ];
  [ 7; 9; 3; 1; 13; 12; 11; 14; 2; 6; 5; 10; 4; 0; 15; 8 ];
  [ 9; 0; 5; 7; 2; 4; 10; 15; 14; 1; 11; 12; 6; 8; 3; 13 ];
  [ 2; 12; 6; 10; 0; 11; 8; 3; 4; 13; 7; 5; 15; 14; 1; 9 ]].
(** sbox.go:22-27 *)
Definition b256_u : list N := [
  0x243f6a88; 0x85a308d3; 0x13198a2e; 0x03707344; 0xa4093822; 0x299f31d0; 0x082efa98; 0xec4e6c89;
  0x452821e6; 0x38d01377; 0xbe5466cf; 0x34e90c6c; 0xc0ac29b7; 0xc97c50dd; 0x3f84d5b5; 0xb5470917]%N.
(** sbox.go:41-49 *)
Definition b256_iv256 : list N := [0x6A09E667; 0xBB67AE85; 0x3C6EF372; 0xA54FF53A; 0x510E527F; 0x9B05688C; 0x1F83D9AB; 0x5BE0CD19]%N.
Definition b256_iv224 : list N := [0xC1059ED8; 0x367CD507; 0x3070DD17; 0xF70E5939; 0xFFC00B31; 0x68581511; 0x64F98FA7; 0xBEFA4FA4]%N.
(** sbox.go:51 *)
Definition b256_padtab : list N := 128%N :: zeros 63.

(** utils.go:12-23 bytesToUint32s *)
Definition b256_words (b : list N) : list N := map (fun i => be_val (slice b (i * 4) (i * 4 + 4))) (seq 0 (length b / 4)).

(** utils.go:42-51 G; [sg] is the row sigma[i] *)
Definition b256_G (m : list N) (sg : list nat) (v : list N) (a b c d e : nat) : list N :=
  let s0 := nth e sg 0 in let s1 := nth (e + 1) sg 0 in
  let v := upd v a (add32 (at_ v a) (add32 (N.lxor (at_ m s0) (at_ b256_u s1)) (at_ v b))) in
  let v := upd v d (rotr32 (N.lxor (at_ v d) (at_ v a)) 16) in
  let v := upd v c (add32 (at_ v c) (at_ v d)) in
  let v := upd v b (rotr32 (N.lxor (at_ v b) (at_ v c)) 12) in
  let v := upd v a (add32 (at_ v a) (add32 (N.lxor (at_ m s1) (at_ b256_u s0)) (at_ v b))) in
  let v := upd v d (rotr32 (N.lxor (at_ v d) (at_ v a)) 8) in
  let v := upd v c (add32 (at_ v c) (at_ v d)) in
  upd v b (rotr32 (N.lxor (at_ v b) (at_ v c)) 7).

(** digest.go:176-187, the body of the round loop *)
Definition b256_round (m : list N) (v : list N) (i : nat) : list N :=
  let sg := nth i b256_sigma [] in
  let v := b256_G m sg v 0 4 8 12 0 in
  let v := b256_G m sg v 1 5 9 13 2 in
  let v := b256_G m sg v 2 6 10 14 4 in
  let v := b256_G m sg v 3 7 11 15 6 in
  let v := b256_G m sg v 0 5 10 15 8 in
  let v := b256_G m sg v 1 6 11 12 10 in
  let v := b256_G m sg v 2 7 8 13 12 in
  b256_G m sg v 3 4 9 14 14.

(** the fields h, t, nullt of the struct (digest.go:14-26) *)
Record b256st := mkb256 { bh : list N; bt : N; bnull : bool }.

(** digest.go:147-197 compress; [s] is the field s *)
Definition b256_compress (s : list N) (st : b256st) (p : list N) : b256st :=
  let m := b256_words p in
  let h := bh st in
  let t := add64 (bt st) 512 in
  let x := fun a b => if bnull st then a else N.lxor a b in
  let v := [at_ h 0; at_ h 1; at_ h 2; at_ h 3; at_ h 4; at_ h 5; at_ h 6; at_ h 7;
            N.lxor (at_ s 0) (at_ b256_u 0); N.lxor (at_ s 1) (at_ b256_u 1); N.lxor (at_ s 2) (at_ b256_u 2); N.lxor (at_ s 3) (at_ b256_u 3);
            x (at_ b256_u 4) (w32 t); x (at_ b256_u 5) (w32 t); x (at_ b256_u 6) (w32 (N.shiftr t 32)); x (at_ b256_u 7) (w32 (N.shiftr t 32))] in
  let v := fold_left (b256_round m) (seq 0 14) v in
  let h := fold_left (fun h i => upd h (i mod 8) (N.lxor (at_ h (i mod 8)) (at_ v i))) (seq 0 16) h in
  let h := fold_left (fun h i => upd h i (N.lxor (at_ h i) (at_ s (i mod 4)))) (seq 0 8) h in
  mkb256 h t (bnull st).

(** the object: the salt field s, and the rest *)
Definition b256 : Type := (list N * dig b256st)%type.

(** digest.go:38-47 Reset (d.initVal = iv) *)
Definition b256_reset (iv : list N) (d : b256) : b256 := (zeros 4, mkdig (mkb256 iv 0 false) (zeros 64) 0 0).
(** digest.go:28-35; blake256.go:6-8, 30-32 *)
Definition b256_new (iv : list N) : b256 := (zeros 4, mkdig (mkb256 iv 0 false) (zeros 64) 0 0).
(** digest.go:199-206, blake256.go:11-15: None is the panic *)
Definition b256_newWithSalt (iv salt : list N) : option b256 :=
  if length salt =? 16 then Some (b256_words salt, snd (b256_new iv)) else None.

(** digest.go:57-80 Write *)
Definition b256_write (d : b256) (p : list N) : b256 * nat :=
  let '(d', n) := write_pre 64 (b256_compress (fst d)) (snd d) p in ((fst d, d'), n).

(** Internal steps of checkSum: d.t -= x, d.nullt = true, d.Write(p). *)
Definition b256_subt (x : N) (d : b256) : b256 :=
  (fst d, mkdig (mkb256 (bh (ds (snd d))) (sub64 (bt (ds (snd d))) x) (bnull (ds (snd d)))) (dx (snd d)) (dnx (snd d)) (dlen (snd d))).
Definition b256_setnull (d : b256) : b256 :=
  (fst d, mkdig (mkb256 (bh (ds (snd d))) (bt (ds (snd d))) true) (dx (snd d)) (dnx (snd d)) (dlen (snd d))).
Definition b256_w (p : list N) (d : b256) : b256 := fst (b256_write d p).

(** digest.go:91-145 checkSum *)
Definition b256_final (hs : nat) (d : b256) : b256 :=
  let nx := dnx (snd d) in
  let nx8 := shl64 (N.of_nat nx) 3 in
  let l := add64 (bt (ds (snd d))) nx8 in
  let msglen := be_bytes 8 l in
  let d1 :=
    if nx =? 55 then
      b256_w [if hs =? 224 then 128%N else 129%N] (b256_subt 8 d)
    else
      let d2 :=
        if nx <? 55 then
          let d0 := if nx =? 0 then b256_setnull d else d in
          b256_w (slice b256_padtab 0 (55 - nx)) (b256_subt (sub64 440 nx8) d0)
        else
          b256_setnull (b256_w (slice b256_padtab 1 56) (b256_subt 440 (b256_w (slice b256_padtab 0 (64 - nx)) (b256_subt (sub64 512 nx8) d)))) in
      b256_subt 8 (b256_w [if hs =? 224 then 0%N else 1%N] d2) in
  b256_w msglen (b256_subt 64 d1).
Definition b256_checkSum (hs : nat) (d : b256) : list N :=
  let h := bh (ds (snd (b256_final hs d))) in
  let sum := concat (map (be_bytes 4) (firstn (hs / 32) h)) in
  copy_at (zeros (hs / 8)) 0 sum.

(** digest.go:83-89; d0 := *d copies arrays by value *)
Definition b256_sum (hs : nat) (d : b256) (inp : list N) : b256 * list N := (d, inp ++ b256_checkSum hs d).
Definition b256_impl (hs : nat) (iv : list N) : impl b256 := mkimpl b256_write (b256_sum hs) (b256_reset iv).

(** blake256.go:18-25, 42-49 *)
Definition b256_Sum (data : list N) : list N := snd (b256_sum 256 (fst (b256_write (b256_new b256_iv256) data)) []).
Definition b256_Sum224 (data : list N) : list N := snd (b256_sum 224 (fst (b256_write (b256_new b256_iv224) data)) []).

(** binary.go:8-12: "blake256\x03" *)
Definition b256_magic : list N := [98; 108; 97; 107; 101; 50; 53; 54; 3]%N.
Definition b256_marshaledSize : nat := 9 + 4 * 4 + 64 + 8 + 8 * 4 + 8 + 1.
(** binary.go:14-46; the bytes skipped by re-slicing the fresh buffer are zero *)
Definition b256_marshal (d : b256) : list N :=
  b256_magic ++ concat (map (be_bytes 4) (fst d)) ++ (firstn (dnx (snd d)) (dx (snd d)) ++ zeros (64 - dnx (snd d))) ++
  be_bytes 8 (dlen (snd d)) ++ concat (map (be_bytes 4) (bh (ds (snd d)))) ++ be_bytes 8 (bt (ds (snd d))) ++ [if bnull (ds (snd d)) then 1%N else 0%N].
Inductive b256_error := B256BadIdentifier | B256BadSize.
(** binary.go:48-90 *)
Definition b256_unmarshal (d : b256) (b : list N) : b256 + b256_error :=
  if (length b <? 9) || negb (if list_eq_dec N.eq_dec (firstn 9 b) b256_magic then true else false) then inr B256BadIdentifier
  else if negb (length b =? b256_marshaledSize) then inr B256BadSize
  else
    let b1 := skipn 9 b in
    let s' := map (fun i => be_val (slice b1 (4 * i) (4 * i + 4))) (seq 0 4) in
    let b2 := skipn 16 b1 in
    let x' := copy_at (dx (snd d)) 0 b2 in
    let b3 := skipn (Nat.min (length (dx (snd d))) (length b2)) b2 in
    let len := be_val (firstn 8 b3) in
    let b4 := skipn 8 b3 in
    let h' := map (fun i => be_val (slice b4 (4 * i) (4 * i + 4))) (seq 0 8) in
    let b5 := skipn 32 b4 in
    let t' := be_val (firstn 8 b5) in
    let b6 := skipn 8 b5 in
    inl (s', mkdig (mkb256 h' t' (N.eqb (at_ b6 0) 1)) x' (N.to_nat (len mod 64)) len).

From Coq Require Import String.
Local Open Scope list_scope.
Example b256_vec : b256_Sum (bytes_of_string "BLAKE") = hex "07663e00cf96fbc136cf7b1ee099c95346ba3920893d18cc8851f22ee2e36aa6".
Proof. vm_compute. reflexivity. Qed.
Example b256_spec_vec : blake256_spec (zeros 16) (bytes_of_string "BLAKE") = hex "07663e00cf96fbc136cf7b1ee099c95346ba3920893d18cc8851f22ee2e36aa6".
Proof. vm_compute. reflexivity. Qed.
