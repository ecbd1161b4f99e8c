(** Belt.v -- model of /repo/belt (digest.go, utils.go, sbox.go) and proofs. *)
From Coq Require Import List NArith Arith Lia Bool.
From Verif Require Import Base Words HashAPI Buf MD Refine SpecCmac Cmac SpecBelt.
Import ListNotations.

(** belt/sbox.go:3-20 S *)
Definition belt_S : list N := [
  177; 148; 186; 200; 10; 8; 245; 59;
  54; 109; 0; 142; 88; 74; 93; 228;
  133; 4; 250; 157; 27; 182; 199; 172;
  37; 46; 114; 194; 2; 253; 206; 13;
  91; 227; 214; 18; 23; 185; 97; 129;
  254; 103; 134; 173; 113; 107; 137; 11;
  92; 176; 192; 255; 51; 195; 86; 184;
  53; 196; 5; 174; 216; 224; 127; 153;
  225; 43; 220; 26; 226; 130; 87; 236;
  112; 63; 204; 240; 149; 238; 141; 241;
  193; 171; 118; 56; 159; 230; 120; 202;
  247; 198; 248; 96; 213; 187; 156; 79;
  243; 60; 101; 123; 99; 124; 48; 106;
  221; 78; 167; 121; 158; 178; 61; 49;
  62; 152; 181; 110; 39; 211; 188; 207;
  89; 30; 24; 31; 76; 90; 183; 147;
  233; 222; 231; 44; 143; 12; 15; 166;
  45; 219; 73; 244; 111; 115; 150; 71;
  6; 7; 83; 22; 237; 36; 122; 55;
  57; 203; 163; 131; 3; 169; 139; 246;
  146; 189; 155; 28; 229; 209; 65; 1;
  84; 69; 251; 201; 94; 77; 14; 242;
  104; 32; 128; 170; 34; 125; 100; 47;
  38; 135; 249; 52; 144; 64; 85; 17;
  190; 50; 151; 19; 67; 252; 154; 72;
  160; 42; 136; 95; 25; 75; 9; 161;
  126; 205; 164; 208; 21; 68; 175; 140;
  165; 132; 80; 191; 102; 210; 232; 138;
  162; 215; 70; 82; 66; 168; 223; 179;
  105; 116; 197; 81; 235; 35; 41; 33;
  212; 239; 217; 180; 58; 98; 40; 117;
  145; 20; 16; 234; 119; 108; 218; 29]%N.

(** belt/sbox.go:22-31 KIdx *)
Definition KIdx : list (list N) := [
 [0; 1; 2; 3; 4; 5; 6]%N;
 [7; 0; 1; 2; 3; 4; 5]%N;
 [6; 7; 0; 1; 2; 3; 4]%N;
 [5; 6; 7; 0; 1; 2; 3]%N;
 [4; 5; 6; 7; 0; 1; 2]%N;
 [3; 4; 5; 6; 7; 0; 1]%N;
 [2; 3; 4; 5; 6; 7; 0]%N;
 [1; 2; 3; 4; 5; 6; 7]%N].
(** belt/sbox.go:33-38 iv *)
Definition belt_iv : list N := [0x3bf5080ac8ba94b1; 0xe45d4a588e006d36; 0xacc7b61b9dfa0485; 0x0dcefd02c2722e25]%N.
(** belt/utils.go:52-66 GET_BYTE, PUT_BYTE, SB, G *)
Definition belt_SB (x a : N) : N := shl32 (at_ belt_S (N.to_nat (w8 (N.shiftr x a)))) a.
Definition belt_G (x r : N) : N :=
  rotl32 (N.lor (N.lor (N.lor (belt_SB x 24) (belt_SB x 16)) (belt_SB x 8)) (belt_SB x 0)) r.
(** key = getu32(ks[4*KIdx[i][j]:]) *)
Definition belt_key (ks : list N) (i j : nat) : N :=
  let k := N.to_nat (at_ (nth i KIdx []) j) in le_val (slice ks (4 * k) (4 * k + 4)).
(** belt/utils.go:103-132, loop body of belt_encrypt *)
Definition benc_round (key : nat -> N) (i1 : N) (s : bst) : bst :=
  let '(a, b, c, d) := s in
  let b := N.lxor b (belt_G (add32 a (key 0)) 5) in
  let c := N.lxor c (belt_G (add32 d (key 1)) 21) in
  let a := sub32 a (belt_G (add32 b (key 2)) 13) in
  let e := N.lxor (belt_G (add32 (add32 b c) (key 3)) 21) i1 in
  let b := add32 b e in
  let c := sub32 c e in
  let d := add32 d (belt_G (add32 c (key 4)) 13) in
  let b := N.lxor b (belt_G (add32 a (key 5)) 21) in
  let c := N.lxor c (belt_G (add32 d (key 6)) 5) in
  let '(a, b) := (b, a) in let '(c, d) := (d, c) in let '(b, c) := (c, b) in (a, b, c, d).
(** belt/utils.go:152-184, loop body of belt_decrypt *)
Definition bdec_round (key : nat -> N) (j1 : N) (s : bst) : bst :=
  let '(a, b, c, d) := s in
  let b := N.lxor b (belt_G (add32 a (key 6)) 5) in
  let c := N.lxor c (belt_G (add32 d (key 5)) 21) in
  let a := sub32 a (belt_G (add32 b (key 4)) 13) in
  let e := N.lxor (belt_G (add32 (add32 b c) (key 3)) 21) j1 in
  let b := add32 b e in
  let c := sub32 c e in
  let d := add32 d (belt_G (add32 c (key 2)) 13) in
  let b := N.lxor b (belt_G (add32 a (key 1)) 21) in
  let c := N.lxor c (belt_G (add32 d (key 0)) 5) in
  let '(a, b) := (b, a) in let '(c, d) := (d, c) in let '(a, d) := (d, a) in (a, b, c, d).
Definition belt_load (x : list N) : bst :=
  (le_val (slice x 0 4), le_val (slice x 4 8), le_val (slice x 8 12), le_val (slice x 12 16)).
(** belt/utils.go:94-138 belt_encrypt: the 16 bytes stored in out *)
Definition belt_encrypt (inp ks : list N) : list N :=
  let '(a, b, c, d) := fold_left (fun s i => benc_round (belt_key ks i) (N.of_nat (i + 1)) s) (seq 0 8) (belt_load inp) in
  le_bytes 4 b ++ le_bytes 4 d ++ le_bytes 4 a ++ le_bytes 4 c.
(** belt/utils.go:140-190 belt_decrypt *)
Definition belt_decrypt (inp ks : list N) : list N :=
  let '(a, b, c, d) := fold_left (fun s i => let j := 7 - i in bdec_round (belt_key ks j) (N.of_nat (j + 1)) s) (seq 0 8) (belt_load inp) in
  le_bytes 4 c ++ le_bytes 4 a ++ le_bytes 4 d ++ le_bytes 4 b.
(** belt/utils.go:196-229 sigma1Xor: the loops xor byte by byte; the new value of s *)
Definition belt_sigma1Xor (x h s : list N) (use_xor : bool) : list N :=
  let tmp1 := xorblk (slice h 0 16) (slice h 16 32) in
  let tmp2 := belt_encrypt tmp1 x in
  if use_xor then xorblk s (xorblk tmp1 tmp2) else xorblk tmp2 tmp1.
(** belt/utils.go:231-277 sigma2: the 32 bytes stored in result *)
Definition belt_sigma2 (x h : list N) : list N :=
  let tmp := slice h 0 16 in
  let tmpTeta := belt_sigma1Xor x h (zeros 16) false in
  let teta := tmpTeta ++ slice h 16 32 in
  let r1 := xorblk (belt_encrypt (slice x 0 16) teta) (slice x 0 16) in
  let teta := map (fun t => N.lxor t 0xff) (slice teta 0 16) ++ tmp in
  let r2 := xorblk (belt_encrypt (slice x 16 32) teta) (slice x 16 32) in
  r1 ++ r2.
(** belt/digest.go:122-142 updateCtr *)
Definition belt_updateCtr (s : list N) (n : nat) : list N :=
  let a0 := le_val (slice s 0 8) in
  let a1 := le_val (slice s 8 16) in
  let b := shl64 (N.of_nat n) 3 in
  let c := add64 a0 b in
  let a1 := if (c <? b)%N then add64 a1 1 else a1 in
  copy_at (copy_at s 0 (le_bytes 8 c)) 8 (le_bytes 8 a1).
(** belt/digest.go:113-120 hashProcess and belt/utils.go:279-283; the state is (d.s, d.h) *)
Definition belt_hashProcess (sh : list N * list N) (data : list N) : list N * list N :=
  let '(s, h) := sh in
  (firstn 16 s ++ belt_sigma1Xor data h (slice s 16 32) true, belt_sigma2 data h).
(** belt/digest.go:105-111 processBlock *)
Definition belt_processBlock (sh : list N * list N) (data : list N) : list N * list N :=
  belt_hashProcess (belt_updateCtr (fst sh) 32, snd sh) data.
Definition belt_dig := dig (list N * list N).
(** belt/digest.go:31-38 Reset *)
Definition belt_new : belt_dig := mkdig (zeros 32, concat (map (le_bytes 8) belt_iv)) (zeros 32) 0 0.
(** belt/digest.go:84-103 checkSum on a copy *)
Definition belt_checkSum (d : belt_dig) : list N :=
  let '(s, h) :=
    if negb (dnx d =? 0) then
      let x := copy_at (dx d) (dnx d) (zeros 32) in
      belt_hashProcess (belt_updateCtr (fst (ds d)) (dnx d), snd (ds d)) x
    else ds d in
  belt_sigma2 s h.
(** belt/digest.go:48-82 Write, Sum *)
Definition belt_impl : impl belt_dig :=
  mkimpl (write_pre 32 belt_processBlock) (fun d b => (d, b ++ belt_checkSum d)) (fun _ => belt_new).
(** belt/belt.go:18-25 *)
Definition belt_Sum (data : list N) : list N :=
  firstn 32 (snd (i_sum belt_impl (fst (i_write belt_impl belt_new data)) [])).

(** * Proofs *)
Lemma belt_S_H : belt_S = belt_H. Proof. reflexivity. Qed.
Lemma belt_H_bytes : forall i, isbyte (at_ belt_H i).
Proof.
  intros i. unfold at_. destruct (Nat.lt_ge_cases i (length belt_H)) as [L|L].
  - assert (F : forallb (fun b => (b <? 256)%N) belt_H = true) by (vm_compute; reflexivity).
    rewrite forallb_forall in F. apply N.ltb_lt, F. now apply nth_In.
  - rewrite nth_overflow by lia. reflexivity.
Qed.
Lemma iv_ok : concat (map (le_bytes 8) belt_iv) = firstn 32 belt_H.
Proof. vm_compute. reflexivity. Qed.
Lemma byte_shl : forall b k, isbyte b -> (k <= 24)%N -> shl32 b k = N.shiftl b k.
Proof.
  intros b k Hb Hk. unfold shl32. apply w32_small. rewrite N.shiftl_mul_pow2. unfold isbyte in Hb.
  apply N.lt_le_trans with (256 * 2 ^ k)%N.
  - apply N.mul_lt_mono_pos_r; auto. apply N.neq_0_lt_0. now apply N.pow_nonzero.
  - change 256%N with (2 ^ 8)%N. rewrite <- N.pow_add_r. change 4294967296%N with (2 ^ 32)%N. apply N.pow_le_mono_r; lia.
Qed.
Lemma le_val4_lor : forall a b c d, isbyte a -> isbyte b -> isbyte c ->
  le_val [a; b; c; d] = N.lor (N.lor (N.lor (N.shiftl d 24) (N.shiftl c 16)) (N.shiftl b 8)) a.
Proof.
  intros a b c d Ha Hb Hc. assert (B1 : isbytes [a]) by (constructor; auto).
  change [a; b; c; d] with ([a] ++ [b] ++ [c] ++ [d]). rewrite !le_val_app_lor by (constructor; auto).
  cbn [length]. rewrite !le_val_1. cbn [Nat.mul Nat.add N.of_nat]. 
  rewrite !N.shiftl_lor, !N.shiftl_shiftl.
  change (N.pos (Pos.of_succ_nat 7)) with 8%N. change (8 + 8)%N with 16%N. change (8 + 16)%N with 24%N. 
  apply N.bits_inj. intros i. rewrite !N.lor_spec. 
  destruct (N.testbit a i), (N.testbit (N.shiftl b 8) i), (N.testbit (N.shiftl c 16) i), (N.testbit (N.shiftl d 24) i); reflexivity.
Qed.
Lemma belt_G_ok : forall x r, belt_G x r = belt_Gr r x.
Proof.
  intros x r. unfold belt_G, belt_Gr. f_equal. cbn [le_bytes map]. rewrite !N.shiftr_shiftr.
  change (8 + 8)%N with 16%N. change (16 + 8)%N with 24%N. rewrite le_val4_lor by apply belt_H_bytes.
  unfold belt_SB. rewrite belt_S_H. rewrite !byte_shl by (try apply belt_H_bytes; lia). now rewrite N.shiftr_0_r, N.shiftl_0_r.
Qed.
Lemma belt_Gr_32 : forall r x, is32 (belt_Gr r x).
Proof.
  intros r x. unfold belt_Gr. apply rotl32_is32. unfold is32. change (2 ^ 32)%N with (2 ^ N.of_nat (8 * 4))%N.
  replace 4 with (length (map (fun b => at_ belt_H (N.to_nat b)) (le_bytes 4 x))) at 2 by (rewrite map_length, le_bytes_length; reflexivity).
  apply le_val_lt. apply Forall_forall. intros b Hb. apply in_map_iff in Hb. destruct Hb as (y & <- & _). apply belt_H_bytes.
Qed.
Lemma belt_G_32 : forall r x, is32 (belt_G x r).
Proof. intros. rewrite belt_G_ok. apply belt_Gr_32. Qed.
Lemma belt_key_ok : forall ks i j, i < 8 -> j < 7 ->
  belt_key ks i j = le_val (slice ks (4 * ((7 * i + j) mod 8)) (4 * ((7 * i + j) mod 8) + 4)).
Proof.
  intros ks i j Hi Hj. unfold belt_key.
  assert (E : N.to_nat (at_ (nth i KIdx []) j) = (7 * i + j) mod 8).
  { do 8 (destruct i as [|i]; [do 7 (destruct j as [|j]; [vm_compute; reflexivity|]); lia|]). lia. }
  now rewrite E.
Qed.
Lemma round_ok : forall ks i s, i < 8 ->
  benc_round (belt_key ks i) (N.of_nat (i + 1)) s = belt_round (fun j => le_val (slice ks (4 * j) (4 * j + 4))) s (S i).
Proof.
  intros ks i [[[a b] c] d] Hi. unfold benc_round, belt_round. rewrite !belt_key_ok by lia. rewrite !belt_G_ok.
  replace (7 * S i - 6 - 1) with (7 * i + 0) by lia. replace (7 * S i - 5 - 1) with (7 * i + 1) by lia.
  replace (7 * S i - 4 - 1) with (7 * i + 2) by lia. replace (7 * S i - 3 - 1) with (7 * i + 3) by lia.
  replace (7 * S i - 2 - 1) with (7 * i + 4) by lia. replace (7 * S i - 1 - 1) with (7 * i + 5) by lia.
  replace (7 * S i - 0 - 1) with (7 * i + 6) by lia. replace (i + 1) with (S i) by lia. reflexivity.
Qed.
Lemma belt_encrypt_ok : forall x ks, belt_encrypt x ks = belt_F ks x.
Proof.
  intros x ks. unfold belt_encrypt, belt_F. fold (belt_load x). generalize (belt_load x). intros s.
  cbn [seq fold_left]. rewrite !round_ok by lia. reflexivity.
Qed.

(** ** The cipher is invertible *)
Lemma sub_add : forall a b, is32 a -> is32 b -> sub32 (add32 a b) b = a.
Proof.
  intros a b Ha Hb. unfold sub32, add32, is32 in *. change (2 ^ 32)%N with 4294967296%N in *. rewrite !w32_mod.
  destruct (N.lt_ge_cases (a + b) 4294967296) as [L|L].
  - rewrite (N.mod_small (a + b)) by lia. replace (a + b + 4294967296 - b)%N with (a + 1 * 4294967296)%N by lia.
    rewrite N.mod_add by discriminate. apply N.mod_small. lia.
  - assert (E : ((a + b) mod 4294967296 = a + b - 4294967296)%N).
    { replace (a + b)%N with ((a + b - 4294967296) + 1 * 4294967296)%N at 1 by lia. rewrite N.mod_add by discriminate. apply N.mod_small. lia. }
    rewrite E. replace (a + b - 4294967296 + 4294967296 - b)%N with a by lia. apply N.mod_small. lia.
Qed.
Lemma add_sub : forall a b, is32 a -> is32 b -> add32 (sub32 a b) b = a.
Proof.
  intros a b Ha Hb. unfold sub32, add32, is32 in *. change (2 ^ 32)%N with 4294967296%N in *. rewrite w32_add_l.
  replace (a + 4294967296 - b + b)%N with (a + 1 * 4294967296)%N by lia. rewrite w32_mod, N.mod_add by discriminate. apply N.mod_small. lia.
Qed.
Lemma sum_same : forall b c e, is32 b -> is32 c -> is32 e -> add32 (sub32 c e) (add32 b e) = add32 b c.
Proof.
  intros b c e Hb Hc He. unfold sub32, add32, is32 in *. change (2 ^ 32)%N with 4294967296%N in *. rewrite w32_add_l, w32_add_r.
  replace (c + 4294967296 - e + (b + e))%N with (b + c + 1 * 4294967296)%N by lia. rewrite !w32_mod, N.mod_add by discriminate. reflexivity.
Qed.
Lemma sub32_is32 : forall a b, is32 (sub32 a b).
Proof. intros. apply w32_is32. Qed.
Lemma xor_xor : forall a b, N.lxor (N.lxor a b) b = a.
Proof. intros. now rewrite N.lxor_assoc, N.lxor_nilpotent, N.lxor_0_r. Qed.
Definition bwf (s : bst) : Prop := let '(a, b, c, d) := s in is32 a /\ is32 b /\ is32 c /\ is32 d.
(** the order in which encrypt stores and decrypt loads the words *)
Definition bP (s : bst) : bst := let '(a, b, c, d) := s in (b, d, a, c).
Definition bQ (s : bst) : bst := let '(a, b, c, d) := s in (c, a, d, b).
Ltac w32s := repeat first [assumption | apply lxor_is32 | apply add32_is32 | apply sub32_is32 | apply belt_G_32].
Lemma benc_wf : forall k i s, is32 i -> bwf s -> bwf (benc_round k i s).
Proof. intros k i [[[a b] c] d] Hi (Ha & Hb & Hc & Hd). unfold benc_round, bwf. cbv zeta iota. repeat split; w32s. Qed.
Lemma bdec_wf : forall k i s, is32 i -> bwf s -> bwf (bdec_round k i s).
Proof. intros k i [[[a b] c] d] Hi (Ha & Hb & Hc & Hd). unfold bdec_round, bwf. cbv zeta iota. repeat split; w32s. Qed.
Lemma bdec_benc : forall k i s, is32 i -> bwf s -> bdec_round k i (bP (benc_round k i s)) = bP s.
Proof.
  intros k i [[[a b] c] d] Hi (Ha & Hb & Hc & Hd). unfold benc_round. cbv zeta. cbn [bP]. unfold bdec_round. cbv zeta.
  set (b1 := N.lxor b _). assert (B1 : is32 b1) by (unfold b1; w32s).
  set (c1 := N.lxor c _). assert (C1 : is32 c1) by (unfold c1; w32s).
  set (a1 := sub32 a _).
  set (e := N.lxor (belt_G (add32 (add32 b1 c1) _) 21) i). assert (E1 : is32 e) by (unfold e; w32s).
  set (b2 := add32 b1 e). set (c2 := sub32 c1 e). 
  set (d1 := add32 d _). rewrite !xor_xor.
  assert (Ed : sub32 d1 (belt_G (add32 c2 (k 4)) 13) = d) by (unfold d1; apply sub_add; w32s).
  rewrite Ed. assert (Es : add32 c2 b2 = add32 b1 c1) by (apply sum_same; auto). rewrite Es. fold e.
  assert (Ec : add32 c2 e = c1) by (apply add_sub; auto). rewrite Ec.
  assert (Eb : sub32 b2 e = b1) by (apply sub_add; auto). rewrite Eb.
  assert (Ea : add32 a1 (belt_G (add32 b1 (k 2)) 13) = a) by (unfold a1; apply add_sub; w32s). rewrite Ea.
  unfold c1, b1. rewrite !xor_xor. reflexivity.
Qed.
Lemma benc_bdec : forall k i s, is32 i -> bwf s -> benc_round k i (bQ (bdec_round k i s)) = bQ s.
Proof.
  intros k i [[[a b] c] d] Hi (Ha & Hb & Hc & Hd). unfold bdec_round. cbv zeta. cbn [bQ]. unfold benc_round. cbv zeta.
  set (b1 := N.lxor b _). assert (B1 : is32 b1) by (unfold b1; w32s).
  set (c1 := N.lxor c _). assert (C1 : is32 c1) by (unfold c1; w32s).
  set (a1 := sub32 a _).
  set (e := N.lxor (belt_G (add32 (add32 b1 c1) _) 21) i). assert (E1 : is32 e) by (unfold e; w32s).
  set (b2 := add32 b1 e). set (c2 := sub32 c1 e).
  set (d1 := add32 d _). rewrite !xor_xor.
  assert (Ed : sub32 d1 (belt_G (add32 c2 (k 2)) 13) = d) by (unfold d1; apply sub_add; w32s).
  rewrite Ed. assert (Es : add32 c2 b2 = add32 b1 c1) by (apply sum_same; auto). rewrite Es. fold e.
  assert (Ec : add32 c2 e = c1) by (apply add_sub; auto). rewrite Ec.
  assert (Eb : sub32 b2 e = b1) by (apply sub_add; auto). rewrite Eb.
  assert (Ea : add32 a1 (belt_G (add32 b1 (k 4)) 13) = a) by (unfold a1; apply add_sub; w32s). rewrite Ea.
  unfold c1, b1. rewrite !xor_xor. reflexivity.
Qed.
Lemma load_store : forall a b c d, is32 a -> is32 b -> is32 c -> is32 d ->
  belt_load (le_bytes 4 a ++ le_bytes 4 b ++ le_bytes 4 c ++ le_bytes 4 d) = (a, b, c, d).
Proof.
  intros a b c d Ha Hb Hc Hd. unfold belt_load. 
  assert (V : forall v, is32 v -> le_val (le_bytes 4 v) = v) by (intros v Hv; rewrite le_val_le_bytes; apply N.mod_small; exact Hv).
  repeat match goal with |- (_, _) = (_, _) => apply f_equal2 end.
  - rewrite <- (V a Ha) at 2. reflexivity.
  - rewrite <- (V b Hb) at 2. reflexivity.
  - rewrite <- (V c Hc) at 2. reflexivity.
  - rewrite <- (V d Hd) at 2. reflexivity.
Qed.
Lemma load_wf : forall x, isbytes x -> bwf (belt_load x).
Proof.
  intros x Hx. assert (K : forall i j, j - i <= 4 -> is32 (le_val (slice x i j))).
  { intros i j Hij. unfold is32. apply N.lt_le_trans with (2 ^ N.of_nat (8 * length (slice x i j)))%N.
    - apply le_val_lt. unfold slice. now apply isbytes_firstn, isbytes_skipn.
    - apply N.pow_le_mono_r; [discriminate|]. unfold slice. rewrite firstn_length. lia. }
  unfold belt_load, bwf. repeat split; apply K; lia.
Qed.
Lemma store_load : forall x, isbytes x -> length x = 16 -> 
  let '(a, b, c, d) := belt_load x in le_bytes 4 a ++ le_bytes 4 b ++ le_bytes 4 c ++ le_bytes 4 d = x.
Proof.
  intros x Hx L. unfold belt_load. do 16 (destruct x as [|? x]; [discriminate L|]). destruct x; [|discriminate L].
  assert (K : forall l, isbytes l -> length l = 4 -> le_bytes 4 (le_val l) = l) by (intros l B E; rewrite <- E at 1; now apply le_bytes_le_val).
  unfold slice. cbn [skipn firstn Nat.sub].
  unfold isbytes in Hx. repeat match goal with H : Forall isbyte (_ :: _) |- _ => apply Forall_cons_iff in H; destruct H end.
  rewrite !K by (auto; repeat constructor; assumption). reflexivity.
Qed.
Lemma small32 : forall i, i < 8 -> is32 (N.of_nat (i + 1)).
Proof. intros i H. unfold is32. change (2 ^ 32)%N with 4294967296%N. lia. Qed.
Global Opaque belt_key belt_G benc_round bdec_round.
Lemma belt_dec_enc : forall ks x, isbytes x -> length x = 16 -> belt_decrypt (belt_encrypt x ks) ks = x.
Proof.
  intros ks x Hx L. unfold belt_encrypt. pose proof (load_wf x Hx) as W0. pose proof (store_load x Hx L) as SL. set (s0 := belt_load x) in *. clearbody s0.
  cbn [seq fold_left].
  set (r := fun i s => benc_round (belt_key ks i) (N.of_nat (i + 1)) s).
  assert (RW : forall i s, i < 8 -> bwf s -> bwf (r i s)) by (intros; apply benc_wf; auto; now apply small32).
  assert (RD : forall i s, i < 8 -> bwf s -> bdec_round (belt_key ks i) (N.of_nat (i + 1)) (bP (r i s)) = bP s) by (intros; apply bdec_benc; auto; now apply small32).
  change (benc_round (belt_key ks 0) (N.of_nat (0 + 1)) s0) with (r 0 s0). pose proof (RW 0 s0 ltac:(lia) W0) as W1. set (s1 := r 0 s0) in *.
  change (benc_round (belt_key ks 1) (N.of_nat (1 + 1)) s1) with (r 1 s1). pose proof (RW 1 s1 ltac:(lia) W1) as W2. set (s2 := r 1 s1) in *.
  change (benc_round (belt_key ks 2) (N.of_nat (2 + 1)) s2) with (r 2 s2). pose proof (RW 2 s2 ltac:(lia) W2) as W3. set (s3 := r 2 s2) in *.
  change (benc_round (belt_key ks 3) (N.of_nat (3 + 1)) s3) with (r 3 s3). pose proof (RW 3 s3 ltac:(lia) W3) as W4. set (s4 := r 3 s3) in *.
  change (benc_round (belt_key ks 4) (N.of_nat (4 + 1)) s4) with (r 4 s4). pose proof (RW 4 s4 ltac:(lia) W4) as W5. set (s5 := r 4 s4) in *.
  change (benc_round (belt_key ks 5) (N.of_nat (5 + 1)) s5) with (r 5 s5). pose proof (RW 5 s5 ltac:(lia) W5) as W6. set (s6 := r 5 s5) in *.
  change (benc_round (belt_key ks 6) (N.of_nat (6 + 1)) s6) with (r 6 s6). pose proof (RW 6 s6 ltac:(lia) W6) as W7. set (s7 := r 6 s6) in *.
  change (benc_round (belt_key ks 7) (N.of_nat (7 + 1)) s7) with (r 7 s7). pose proof (RW 7 s7 ltac:(lia) W7) as W8.
  destruct (r 7 s7) as [[[a b] c] d] eqn:E8. unfold belt_decrypt. destruct W8 as (Wa & Wb & Wc & Wd). rewrite load_store by auto.
  change (b, d, a, c) with (bP (a, b, c, d)). rewrite <- E8. cbn [seq fold_left]. cbv zeta.
  change (7 - 0) with 7. change (7 - 1) with 6. change (7 - 2) with 5. change (7 - 3) with 4. change (7 - 4) with 3. change (7 - 5) with 2. change (7 - 6) with 1. change (7 - 7) with 0.
  rewrite (RD 7 s7) by (auto; lia). unfold s7. rewrite RD by (auto; lia). unfold s6. rewrite RD by (auto; lia).
  unfold s5. rewrite RD by (auto; lia). unfold s4. rewrite RD by (auto; lia). unfold s3. rewrite RD by (auto; lia).
  unfold s2. rewrite RD by (auto; lia). unfold s1. rewrite RD by (auto; lia).
  destruct s0 as [[[a0 b0] c0] d0]. cbn [bP]. exact SL.
Qed.
Lemma belt_enc_dec : forall ks x, isbytes x -> length x = 16 -> belt_encrypt (belt_decrypt x ks) ks = x.
Proof.
  intros ks x Hx L. unfold belt_decrypt. pose proof (load_wf x Hx) as W0. pose proof (store_load x Hx L) as SL. set (s0 := belt_load x) in *. clearbody s0.
  cbn [seq fold_left]. cbv zeta.
  change (7 - 0) with 7. change (7 - 1) with 6. change (7 - 2) with 5. change (7 - 3) with 4. change (7 - 4) with 3. change (7 - 5) with 2. change (7 - 6) with 1. change (7 - 7) with 0.
  set (r := fun i s => bdec_round (belt_key ks i) (N.of_nat (i + 1)) s).
  assert (RW : forall i s, i < 8 -> bwf s -> bwf (r i s)) by (intros; apply bdec_wf; auto; now apply small32).
  assert (RD : forall i s, i < 8 -> bwf s -> benc_round (belt_key ks i) (N.of_nat (i + 1)) (bQ (r i s)) = bQ s) by (intros; apply benc_bdec; auto; now apply small32).
  change (bdec_round (belt_key ks 7) (N.of_nat (7 + 1)) s0) with (r 7 s0). pose proof (RW 7 s0 ltac:(lia) W0) as W1. set (s1 := r 7 s0) in *.
  change (bdec_round (belt_key ks 6) (N.of_nat (6 + 1)) s1) with (r 6 s1). pose proof (RW 6 s1 ltac:(lia) W1) as W2. set (s2 := r 6 s1) in *.
  change (bdec_round (belt_key ks 5) (N.of_nat (5 + 1)) s2) with (r 5 s2). pose proof (RW 5 s2 ltac:(lia) W2) as W3. set (s3 := r 5 s2) in *.
  change (bdec_round (belt_key ks 4) (N.of_nat (4 + 1)) s3) with (r 4 s3). pose proof (RW 4 s3 ltac:(lia) W3) as W4. set (s4 := r 4 s3) in *.
  change (bdec_round (belt_key ks 3) (N.of_nat (3 + 1)) s4) with (r 3 s4). pose proof (RW 3 s4 ltac:(lia) W4) as W5. set (s5 := r 3 s4) in *.
  change (bdec_round (belt_key ks 2) (N.of_nat (2 + 1)) s5) with (r 2 s5). pose proof (RW 2 s5 ltac:(lia) W5) as W6. set (s6 := r 2 s5) in *.
  change (bdec_round (belt_key ks 1) (N.of_nat (1 + 1)) s6) with (r 1 s6). pose proof (RW 1 s6 ltac:(lia) W6) as W7. set (s7 := r 1 s6) in *.
  change (bdec_round (belt_key ks 0) (N.of_nat (0 + 1)) s7) with (r 0 s7). pose proof (RW 0 s7 ltac:(lia) W7) as W8.
  destruct (r 0 s7) as [[[a b] c] d] eqn:E8. unfold belt_encrypt. destruct W8 as (Wa & Wb & Wc & Wd). rewrite load_store by auto.
  change (c, a, d, b) with (bQ (a, b, c, d)). rewrite <- E8. cbn [seq fold_left]. cbv zeta.
  rewrite (RD 0 s7) by (auto; lia). unfold s7. rewrite RD by (auto; lia). unfold s6. rewrite RD by (auto; lia).
  unfold s5. rewrite RD by (auto; lia). unfold s4. rewrite RD by (auto; lia). unfold s3. rewrite RD by (auto; lia).
  unfold s2. rewrite RD by (auto; lia). unfold s1. rewrite RD by (auto; lia).
  destruct s0 as [[[a0 b0] c0] d0]. cbn [bQ]. exact SL.
Qed.
Lemma belt_encrypt_wf : forall x ks, length (belt_encrypt x ks) = 16 /\ isbytes (belt_encrypt x ks).
Proof.
  intros. unfold belt_encrypt. destruct (fold_left _ _ _) as [[[a b] c] d]. rewrite !app_length, !le_bytes_length. split; auto.
  repeat (apply isbytes_app; split); apply le_bytes_isbytes.
Qed.
Lemma belt_decrypt_wf : forall x ks, length (belt_decrypt x ks) = 16 /\ isbytes (belt_decrypt x ks).
Proof.
  intros. unfold belt_decrypt. destruct (fold_left _ _ _) as [[[a b] c] d]. rewrite !app_length, !le_bytes_length. split; auto.
  repeat (apply isbytes_app; split); apply le_bytes_isbytes.
Qed.

(** ** The hash *)
Lemma slice_h : forall (h : list N), length h = 32 -> slice h 0 16 = firstn 16 h /\ slice h 16 32 = skipn 16 h.
Proof. intros h L. unfold slice. split; [reflexivity|]. apply firstn_all2. rewrite skipn_length. lia. Qed.
Lemma xorblk_repeat : forall t k, length t = k -> xorblk t (repeat 255%N k) = map (fun t => N.lxor t 0xff) t.
Proof. induction t as [|x t IH]; intros k <-; [reflexivity|]. cbn [length repeat]. unfold xorblk in *. cbn [combine map fst snd]. f_equal. now apply IH. Qed.
Lemma xorblk_len : forall a b, length (xorblk a b) = Nat.min (length a) (length b).
Proof. intros. unfold xorblk. now rewrite map_length, combine_length. Qed.
Lemma belt_F_len : forall k x, length (belt_F k x) = 16.
Proof. intros. rewrite <- belt_encrypt_ok. apply belt_encrypt_wf. Qed.
Lemma s1_len : forall x h, length h = 32 -> length (belt_s1 x h) = 16.
Proof. intros x h L. unfold belt_s1. rewrite !xorblk_len, belt_F_len, firstn_length, skipn_length. lia. Qed.
Lemma s2_len : forall x h, length x = 32 -> length (belt_s2 x h) = 32.
Proof. intros x h L. unfold belt_s2. rewrite app_length, !xorblk_len, !belt_F_len, firstn_length, skipn_length. lia. Qed.
Lemma sigma1_false : forall x h s, length h = 32 -> belt_sigma1Xor x h s false = belt_s1 x h.
Proof. intros x h s L. unfold belt_sigma1Xor, belt_s1. destruct (slice_h h L) as [-> ->]. now rewrite belt_encrypt_ok. Qed.
Lemma sigma1_true : forall x h s, length h = 32 -> belt_sigma1Xor x h s true = xorblk s (belt_s1 x h).
Proof. intros x h s L. unfold belt_sigma1Xor, belt_s1. destruct (slice_h h L) as [-> ->]. rewrite belt_encrypt_ok. f_equal. apply xorblk_comm. Qed.
Lemma sigma2_ok : forall x h, length x = 32 -> length h = 32 -> belt_sigma2 x h = belt_s2 x h.
Proof.
  intros x h Lx L. unfold belt_sigma2, belt_s2. rewrite sigma1_false by auto. destruct (slice_h h L) as [-> ->]. destruct (slice_h x Lx) as [-> ->].
  pose proof (s1_len x h L) as L1. set (t := belt_s1 x h) in *. clearbody t.
  assert (E : slice (t ++ skipn 16 h) 0 16 = t) by (unfold slice; apply (firstn_app_len N 16); auto).
  rewrite E, xorblk_repeat by auto. now rewrite !belt_encrypt_ok.
Qed.
(** The 128-bit counter in the first half of d.s *)
Lemma ctr_ok : forall v n t, length t = 16 -> n <= 32 ->
  belt_updateCtr (le_bytes 16 v ++ t) n = le_bytes 16 (v + 8 * N.of_nat n) ++ t.
Proof.
  intros v n t Lt Hn. unfold belt_updateCtr.
  assert (E16 : le_bytes 16 v = le_bytes 8 v ++ le_bytes 8 (N.shiftr v 64)).
  { exact (le_bytes_app 8 8 v). }
  assert (S0 : slice (le_bytes 16 v ++ t) 0 8 = le_bytes 8 v).
  { rewrite E16, <- app_assoc. unfold slice. apply (firstn_app_len N 8). apply le_bytes_length. }
  assert (S1 : slice (le_bytes 16 v ++ t) 8 16 = le_bytes 8 (N.shiftr v 64)).
  { rewrite E16, <- app_assoc. unfold slice. rewrite (skipn_app_len N 8) by apply le_bytes_length. apply (firstn_app_len N 8). apply le_bytes_length. }
  rewrite S0, S1, !le_val_le_bytes. clear S0 S1. change (256 ^ N.of_nat 8)%N with 18446744073709551616%N.
  set (B := 18446744073709551616%N). rewrite N.shiftr_div_pow2. change (2 ^ 64)%N with B.
  assert (Eb : shl64 (N.of_nat n) 3 = (8 * N.of_nat n)%N).
  { unfold shl64. rewrite N.shiftl_mul_pow2. change (2 ^ 3)%N with 8%N. rewrite w64_small by lia. lia. }
  rewrite Eb. set (b := (8 * N.of_nat n)%N). assert (Hb : (b < B)%N) by (unfold b, B; lia).
  unfold add64. rewrite !w64_mod. fold B.
  pose proof (N.mod_lt v B ltac:(discriminate)) as M0. set (v0 := (v mod B)%N) in *.
  pose proof (N.div_mod v B ltac:(discriminate)) as DM. fold v0 in DM. set (v1 := (v / B)%N) in *.
  assert (EC : (((v0 + b) mod B <? b) = (B <=? v0 + b))%N).
  { destruct (N.leb_spec B (v0 + b)) as [G|G].
    - apply N.ltb_lt. replace (v0 + b)%N with (v0 + b - B + 1 * B)%N by lia. rewrite N.mod_add by discriminate. rewrite N.mod_small by lia. lia.
    - apply N.ltb_ge. rewrite N.mod_small by lia. lia. }
  rewrite EC.
  assert (E' : le_bytes 16 (v + b) = le_bytes 8 ((v0 + b) mod B) ++ le_bytes 8 (if (B <=? v0 + b)%N then ((v1 mod B + 1) mod B)%N else (v1 mod B)%N)).
  { etransitivity; [exact (le_bytes_app 8 8 (v + b))|]. change (8 * N.of_nat 8)%N with 64%N. rewrite N.shiftr_div_pow2. change (2 ^ 64)%N with B.
    assert (Q : ((v + b) / B = v1 + (if B <=? v0 + b then 1 else 0))%N).
    { replace (v + b)%N with (v0 + b + v1 * B)%N by lia. rewrite N.div_add by discriminate.
      destruct (N.leb_spec B (v0 + b)) as [G|G].
      - replace (v0 + b)%N with (v0 + b - B + 1 * B)%N by lia. rewrite N.div_add by discriminate. rewrite N.div_small by lia. lia.
      - rewrite N.div_small by lia. lia. }
    rewrite Q. f_equal.
    - rewrite <- (le_bytes_mod 8 (v + b)). change (256 ^ N.of_nat 8)%N with B. f_equal. replace (v + b)%N with (v0 + b + v1 * B)%N by lia.
      now rewrite N.mod_add by discriminate.
    - destruct (B <=? v0 + b)%N.
      + rewrite <- (le_bytes_mod 8 (v1 + 1)). change (256 ^ N.of_nat 8)%N with B. f_equal. rewrite N.add_mod_idemp_l by discriminate. reflexivity.
      + rewrite N.add_0_r. symmetry. exact (le_bytes_mod 8 v1). }
  rewrite E'. set (lo := le_bytes 8 _). set (hi := le_bytes 8 _). rewrite E16.
  assert (Llo : length lo = 8) by apply le_bytes_length. assert (Lhi : length hi = 8) by apply le_bytes_length.
  assert (L1 : length (le_bytes 8 v) = 8) by apply le_bytes_length. assert (L2 : length (le_bytes 8 (N.shiftr v 64)) = 8) by apply le_bytes_length.
  replace ((if (B <=? v0 + b)%N then ((v1 mod B + 1) mod B)%N else (v1 mod B)%N)) with (if (B <=? v0 + b)%N then ((v1 mod B + 1) mod B)%N else (v1 mod B)%N) by reflexivity.
  fold hi. clearbody lo hi. revert L1 L2. generalize (le_bytes 8 v), (le_bytes 8 (N.shiftr v 64)). intros p q Lp Lq.
  unfold copy_at at 2. rewrite firstn_O, !app_length, Lp, Lq, Lt. cbn [app]. rewrite firstn_all2 by lia. replace (0 + Nat.min (8 + 8 + 16 - 0) (length lo)) with 8 by lia.
  rewrite <- (app_assoc p). rewrite (skipn_app_len N 8 p) by auto.
  unfold copy_at. rewrite !app_length, Llo, Lq, Lt. rewrite (firstn_app_len N 8 lo) by auto. rewrite firstn_all2 by lia.
  replace (8 + Nat.min (8 + (8 + 16) - 8) (length hi)) with 16 by lia.
  rewrite (app_assoc lo q t). rewrite (skipn_app_len N 16 (lo ++ q) t) by (rewrite app_length; lia). now rewrite <- app_assoc.
Qed.
Global Opaque belt_updateCtr belt_s1 belt_s2 belt_sigma1Xor belt_sigma2.
Definition bh_wf (sh : list N * list N) : Prop := length (fst sh) = 16 /\ length (snd sh) = 32.
Lemma belt_step_wf : forall sh x, length x = 32 -> bh_wf sh -> bh_wf (belt_step sh x).
Proof.
  intros [s h] x Lx [Ls Lh]. cbn [belt_step]. split; cbn [fst snd] in *; [rewrite xorblk_len, s1_len by auto; lia|now apply s2_len].
Qed.
Lemma hashProcess_ok : forall s h c x, length c = 16 -> length s = 16 -> length h = 32 -> length x = 32 ->
  belt_hashProcess (c ++ s, h) x = (c ++ fst (belt_step (s, h) x), snd (belt_step (s, h) x)).
Proof.
  intros s h c x Lc Ls Lh Lx. unfold belt_hashProcess. rewrite (firstn_app_len N 16 c) by auto.
  assert (E : slice (c ++ s) 16 32 = s) by (unfold slice; rewrite (skipn_app_len N 16 c) by auto; apply firstn_all2; lia).
  rewrite E, sigma1_true, sigma2_ok by auto. reflexivity.
Qed.
Lemma fold_ok : forall bl v s h, length s = 16 -> length h = 32 -> Forall (fun b => length b = 32) bl ->
  let st := fold_left belt_step bl (s, h) in
  fold_left belt_processBlock bl (le_bytes 16 v ++ s, h) = (le_bytes 16 (v + 256 * N.of_nat (length bl)) ++ fst st, snd st) /\ bh_wf st.
Proof.
  induction bl as [|x bl IH]; intros v s h Ls Lh HF; cbv zeta.
  - cbn [fold_left length fst snd]. rewrite N.mul_0_r, N.add_0_r. split; [reflexivity|split; auto].
  - inversion HF; subst. rewrite !fold_left_cons. unfold belt_processBlock at 2. cbn [fst snd]. rewrite ctr_ok by (auto; lia).
    rewrite hashProcess_ok by (auto; apply le_bytes_length). pose proof (belt_step_wf (s, h) x H1 (conj Ls Lh)) as [W1 W2].
    destruct (belt_step (s, h) x) as [s' h']. cbn [fst snd] in *. specialize (IH (v + 8 * N.of_nat 32)%N s' h' W1 W2 H2). cbv zeta in IH.
    destruct IH as [IH W]. split; [|exact W]. rewrite IH. f_equal. f_equal. f_equal. cbn [length]. lia.
Qed.
Lemma zpad_split : forall bs m, 0 < bs -> rest bs m <> [] ->
  chunks bs (zpad bs m) = chunks bs m ++ [rest bs m ++ zeros (bs - length (rest bs m))].
Proof.
  intros bs m Hb Hr. assert (LR : length (rest bs m) = length m mod bs) by (apply rest_length; lia).
  assert (0 < length (rest bs m)) by (destruct (rest bs m); [contradiction|cbn; lia]). pose proof (rest_length_lt N bs m Hb).
  unfold zpad. rewrite <- LR. rewrite Nat.mod_small by lia. rewrite chunks_app by lia. f_equal. apply chunks_one; auto.
  rewrite app_length, zeros_length. lia.
Qed.
Lemma zpad_full : forall bs (m : list N), 0 < bs -> rest bs m = [] -> zpad bs m = m.
Proof.
  intros bs m Hb Hr. assert (LR : length (rest bs m) = length m mod bs) by (apply rest_length; lia). rewrite Hr in LR. cbn [length] in LR.
  unfold zpad. rewrite <- LR, Nat.sub_0_r, Nat.mod_same by lia. apply app_nil_r.
Qed.
Lemma rest_len_total : forall bs (m : list N), 0 < bs -> length m = bs * length (chunks bs m) + length (rest bs m).
Proof. intros bs m H. rewrite chunks_length, rest_length by lia. apply Nat.div_mod. lia. Qed.
Definition belt_iv0 : list N * list N := (zeros 32, firstn 32 belt_H).
Lemma iv_len : length (firstn 32 belt_H) = 32. Proof. reflexivity. Qed.
Lemma iv_zeros : zeros 32 = le_bytes 16 0 ++ zeros 16. Proof. reflexivity. Qed.
Lemma belt_new_eq : belt_new = mkdig belt_iv0 (zeros 32) 0 0.
Proof. unfold belt_new, belt_iv0. now rewrite iv_ok. Qed.
Lemma belt_check_ok : forall d m, dig_rel 32 belt_processBlock belt_iv0 1 d m -> belt_checkSum d = belt_hash m.
Proof.
  intros d m (Hs & (Lx & Hn & Hx) & _). unfold belt_checkSum, belt_hash. rewrite Hs. unfold belt_iv0. rewrite iv_zeros.
  set (iv := firstn 32 belt_H) in *. assert (Li : length iv = 32) by apply iv_len. clearbody iv.
  destruct (fold_ok (chunks 32 m) 0 (zeros 16) iv eq_refl Li (chunks_all_length N 32 m ltac:(lia))) as [E W]. rewrite E. clear E. cbn [fst snd].
  pose proof (rest_len_total 32 m ltac:(lia)) as LT. pose proof (rest_length_lt N 32 m ltac:(lia)) as LR.
  destruct (rest 32 m) as [|b r] eqn:ER.
  - rewrite zpad_full by (auto; lia). rewrite Hn. change (negb (length (@nil N) =? 0)) with false. cbv iota.
    destruct (fold_left belt_step (chunks 32 m) (zeros 16, iv)) as [s h]. destruct W as [W1 W2]. cbn [fst snd] in *.
    rewrite sigma2_ok by (auto; rewrite app_length, le_bytes_length; lia). f_equal. f_equal. f_equal. cbn [length] in LT. lia.
  - rewrite zpad_split by (try rewrite ER; try discriminate; lia). rewrite ER. rewrite fold_left_app. rewrite Hn.
    assert (Hz : negb (length (b :: r) =? 0) = true) by reflexivity. rewrite Hz. clear Hz.
    destruct (fold_left belt_step (chunks 32 m) (zeros 16, iv)) as [s h]. destruct W as [W1 W2]. cbn [fst snd] in *.
    rewrite Hn in Hx. set (R := b :: r) in *. rewrite ctr_ok by (auto; lia).
    assert (EX : copy_at (dx d) (length R) (zeros 32) = R ++ zeros (32 - length R)).
    { unfold copy_at. rewrite Hx, Lx, zeros_length, firstn_zeros. rewrite skipn_all2 by lia. rewrite app_nil_r. f_equal. f_equal. lia. }
    rewrite <- iv_zeros, EX. assert (LX : length (R ++ zeros (32 - length R)) = 32) by (rewrite app_length, zeros_length; lia).
    rewrite hashProcess_ok by (auto; apply le_bytes_length). cbn [fold_left].
    pose proof (belt_step_wf (s, h) _ LX (conj W1 W2)) as [W3 W4]. destruct (belt_step (s, h) (R ++ zeros (32 - length R))) as [s' h']. cbn [fst snd] in *.
    rewrite sigma2_ok by (auto; rewrite app_length, le_bytes_length; lia). f_equal. f_equal. f_equal. lia.
Qed.
Lemma belt_refines : forall ops d m, dig_rel 32 belt_processBlock belt_iv0 1 d m -> run belt_impl d ops = ideal_run belt_hash m ops.
Proof.
  intros ops d m HR. apply (run_refines _ belt_impl belt_hash (dig_rel 32 belt_processBlock belt_iv0 1)); auto.
  - intros. apply write_pre_rel; auto. lia.
  - intros. apply write_pre_count.
  - intros d0 m0 i H. cbn [i_sum belt_impl snd]. now rewrite (belt_check_ok d0 m0 H).
  - intros. cbn [i_reset belt_impl]. rewrite belt_new_eq. now apply dig_rel_new; [lia|].
Qed.
