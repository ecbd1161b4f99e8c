(** Md2.v -- model of package /repo/md2 (digest.go, binary.go, md2.go), its
    specification (RFC 1319) and the proof that the model refines it. *)
From Coq Require Import List NArith Arith Lia Bool.
From Verif Require Import Base Words HashAPI Buf SpecMd2.
Import ListNotations.

(** ** Table (generated from /repo/md2/sbox.go:3-22 by tools/gotab.py) *)
Definition md2_sbox : list N := [
  41; 46; 67; 201; 162; 216; 124; 1;
  61; 54; 84; 161; 236; 240; 6; 19;
  98; 167; 5; 243; 192; 199; 115; 140;
  152; 147; 43; 217; 188; 76; 130; 202;
  30; 155; 87; 60; 253; 212; 224; 22;
  103; 66; 111; 24; 138; 23; 229; 18;
  190; 78; 196; 214; 218; 158; 222; 73;
  160; 251; 245; 142; 187; 47; 238; 122;
  169; 104; 121; 145; 21; 178; 7; 63;
  148; 194; 16; 137; 11; 34; 95; 33;
  128; 127; 93; 154; 90; 144; 50; 39;
  53; 62; 204; 231; 191; 247; 151; 3;
  255; 25; 48; 179; 72; 165; 181; 209;
  215; 94; 146; 42; 172; 86; 170; 198;
  79; 184; 56; 210; 150; 164; 125; 182;
  118; 252; 107; 226; 156; 116; 4; 241;
  69; 157; 112; 89; 100; 113; 135; 32;
  134; 91; 207; 101; 230; 45; 168; 2;
  27; 96; 37; 173; 174; 176; 185; 246;
  28; 70; 97; 105; 52; 64; 126; 15;
  85; 71; 163; 35; 221; 81; 175; 58;
  195; 92; 249; 206; 186; 197; 234; 38;
  44; 83; 13; 110; 133; 40; 132; 9;
  211; 223; 205; 244; 65; 129; 77; 82;
  106; 220; 55; 200; 108; 193; 171; 250;
  36; 225; 123; 8; 12; 189; 177; 74;
  120; 136; 149; 139; 227; 99; 232; 109;
  233; 203; 213; 254; 59; 0; 29; 57;
  242; 239; 183; 14; 102; 88; 208; 228;
  166; 119; 114; 248; 235; 117; 75; 10;
  49; 68; 80; 180; 143; 237; 31; 26;
  219; 153; 141; 51; 159; 17; 131; 20]%N.

(** ** Model *)

Definition md2_sub (i : N) : N := nth (N.to_nat i) md2_sbox 0%N.

(** One pass of the inner loop digest.go:112-115 (j = 0..47). *)
Fixpoint md2_pass (s : list N) (t : N) : list N * N :=
  match s with
  | [] => ([], t)
  | a :: r => let a' := N.lxor a (md2_sub t) in
              let '(r', t') := md2_pass r a' in (a' :: r', t')
  end.

(** digest.go:111-117, rounds i .. i+n-1. *)
Fixpoint md2_rounds (n : nat) (i : N) (s : list N) (t : N) : list N :=
  match n with
  | O => s
  | S n' => let '(s', t') := md2_pass s t in md2_rounds n' (i + 1) s' (w8 (t' + i))
  end.

(** digest.go:106-109: s[16..31] = p, s[32..47] = p xor s[0..15]. *)
Definition md2_load (s p : list N) : list N :=
  firstn 16 s ++ p ++ map (fun '(a, b) => N.lxor a b) (combine p (firstn 16 s)).

(** digest.go:119-124: running checksum over one block. *)
Fixpoint md2_cksum_from (dg p : list N) (t : N) : list N :=
  match dg, p with
  | d :: dt, b :: bt =>
      let d' := N.lxor d (md2_sub (N.lxor b t)) in d' :: md2_cksum_from dt bt d'
  | _, _ => []
  end.
Definition md2_cksum (dg p : list N) : list N := md2_cksum_from dg p (at_ dg 15).

(** digest.go:102-125 acts on the pair (d.s, d.digest). *)
Definition md2_block (sd : list N * list N) (p : list N) : list N * list N :=
  (md2_rounds 18 0 (md2_load (fst sd) p) 0, md2_cksum (snd sd) p).

(** digest.go:16-23 *)
Record md2 : Type := mkmd2 {
  md2_s : list N;  (* 48 bytes *)
  md2_x : list N;  (* 16 bytes *)
  md2_nx : nat;
  md2_len : N;
  md2_dg : list N  (* 16 bytes *)
}.

(** digest.go:25-38 *)
Definition md2_new : md2 := mkmd2 (zeros 48) (zeros 16) 0 0 (zeros 16).
Definition md2_reset (d : md2) : md2 := mkmd2 (zeros 48) (zeros 16) 0 0 (zeros 16).

(** digest.go:54-66 loop body: d.block(d.x[:]); d.len += uint64(xx). *)
Definition md2_step (st : (list N * list N) * N) (b : list N) (xx : nat) :=
  (md2_block (fst st) b, add64 (snd st) (N.of_nat xx)).

(** digest.go:49-73 *)
Definition md2_write (d : md2) (p : list N) : md2 * nat :=
  let '(st, x', nx', plen) :=
    writeA 16 md2_step ((md2_s d, md2_dg d), md2_len d) (md2_x d) (md2_nx d) p in
  (mkmd2 (fst (fst st)) x' nx' (add64 (snd st) (N.of_nat plen)) (snd (fst st)), length p).

(** digest.go:82-100.  None models the two panic("d.nx != 0"). *)
Definition md2_checkSum (d : md2) : option (list N) :=
  let padding := 16 - md2_nx d in
  let d1 := fst (md2_write d (repeat (w8 (N.of_nat padding)) padding)) in
  if negb (md2_nx d1 =? 0) then None else
  let d2 := fst (md2_write d1 (md2_dg d1)) in
  if negb (md2_nx d2 =? 0) then None else
  Some (firstn 16 (md2_s d2)).

(** digest.go:75-80.  d0 := *d copies every field by value (arrays), so the
    receiver is returned unchanged.  A panic would be visible as []. *)
Definition md2_sum (d : md2) (inp : list N) : md2 * list N :=
  (d, inp ++ match md2_checkSum d with Some h => h | None => [] end).

Definition md2_impl : impl md2 := mkimpl md2_write md2_sum md2_reset.

(** md2.go:13-20 *)
Definition md2_Sum (data : list N) : list N :=
  let h := fst (md2_write md2_new data) in
  copy_at (zeros 16) 0 (snd (md2_sum h [])).

(** binary.go:8-12: "md2\x03" *)
Definition md2_magic : list N := [109; 100; 50; 3]%N.
Definition md2_marshaledSize : nat := 4 + 48 + 16 + 8 + 16.

(** binary.go:14-29 *)
Definition md2_marshal (d : md2) : list N :=
  md2_magic ++ md2_s d ++ copy_at (zeros 16) 0 (firstn (md2_nx d) (md2_x d))
    ++ be_bytes 8 (md2_len d) ++ md2_dg d.

Inductive unmarshal_error := BadIdentifier | BadSize.

(** binary.go:31-54; the fields are overwritten by copies of fixed length. *)
Definition md2_unmarshal (d : md2) (b : list N) : md2 + unmarshal_error :=
  if (length b <? 4) || negb (if list_eq_dec N.eq_dec (firstn 4 b) md2_magic then true else false)
  then inr BadIdentifier
  else if negb (length b =? md2_marshaledSize) then inr BadSize
  else
    let b1 := skipn 4 b in
    let s' := copy_at (md2_s d) 0 b1 in
    let b2 := skipn 48 b1 in
    let x' := copy_at (md2_x d) 0 b2 in
    let b3 := skipn 16 b2 in
    let length_ := be_val (firstn 8 b3) in
    let b4 := skipn 8 b3 in
    inl (mkmd2 s' x' (N.to_nat (length_ mod 16)) length_ (copy_at (md2_dg d) 0 b4)).

(** ** Proofs *)

(** The state half of md2_block on its own. *)
Definition md2_compress0 (x p : list N) : list N := md2_rounds 18 0 (md2_load x p) 0.

Lemma at_app_mid : forall (a b : list N) x, at_ (a ++ x :: b) (length a) = x.
Proof. intros. unfold at_. rewrite app_nth2, Nat.sub_diag by lia. reflexivity. Qed.

Lemma md2_pass_spec : forall s pre t,
  fold_left rfc1319_sub (seq (length pre) (length s)) (pre ++ s, t)
  = (pre ++ fst (md2_pass s t), snd (md2_pass s t)).
Proof.
  induction s as [|a s IH]; intros pre t; [reflexivity|].
  cbn [length seq fold_left]. unfold rfc1319_sub at 2. cbn [fst snd]. rewrite at_app_mid, upd_app_at. cbv zeta.
  change (rfc_S t) with (md2_sub t). set (v := N.lxor a (md2_sub t)).
  specialize (IH (pre ++ [v]) v). rewrite <- !app_assoc in IH. cbn [app] in IH.
  rewrite app_length, Nat.add_1_r in IH. rewrite IH.
  cbn [md2_pass]. fold v. destruct (md2_pass s v) as [r' t'].
  cbn [fst snd]. reflexivity.
Qed.

Lemma md2_pass_len0 : forall s t, length (fst (md2_pass s t)) = length s.
Proof.
  induction s; cbn [md2_pass]; intros; auto.
  specialize (IHs (N.lxor a (md2_sub t))).
  destruct (md2_pass s (N.lxor a (md2_sub t))). cbn [fst length] in *. lia.
Qed.

Lemma md2_round_spec : forall i s t, length s = 48 ->
  rfc1319_round (s, t) i = (fst (md2_pass s t), w8 (snd (md2_pass s t) + N.of_nat i)).
Proof.
  intros i s t L. pose proof (md2_pass_spec s [] t) as K. rewrite L in K.
  change (length (@nil N)) with 0 in K. rewrite !app_nil_l in K.
  unfold rfc1319_round, rfc1319_pass. cbn [fst snd]. rewrite K. now rewrite w8_mod.
Qed.

Opaque rfc1319_round md2_pass.
Lemma md2_rounds_spec : forall n i s t, length s = 48 ->
  fst (fold_left rfc1319_round (seq i n) (s, t)) = md2_rounds n (N.of_nat i) s t.
Proof.
  induction n as [|n IH]; intros i s t L; [reflexivity|].
  rewrite seq_cons, fold_left_cons. rewrite md2_round_spec by auto. cbn [md2_rounds].
  pose proof (md2_pass_len0 s t) as L'.
  destruct (md2_pass s t) as [s' t']. cbn [fst snd] in L' |- *.
  rewrite IH by lia. f_equal. lia.
Qed.
Transparent rfc1319_round md2_pass.

Lemma list_eta16 : forall (p : list N), length p = 16 ->
  p = map (at_ p) (seq 0 16).
Proof.
  intros p L. do 16 (destruct p as [|? p]; [discriminate L|]).
  destruct p; [reflexivity|discriminate L].
Qed.
Lemma list_eta48 : forall (p : list N), length p = 48 ->
  p = map (at_ p) (seq 0 48).
Proof.
  intros p L. do 48 (destruct p as [|? p]; [discriminate L|]).
  destruct p; [reflexivity|discriminate L].
Qed.

Lemma md2_load_spec : forall X blk, length X = 48 -> length blk = 16 ->
  rfc1319_load X blk = md2_load X blk.
Proof.
  intros X blk LX LB. rewrite (list_eta48 X LX). rewrite (list_eta16 blk LB).
  cbv -[N.lxor]. reflexivity.
Qed.

Lemma md2_compress_spec : forall X blk, length X = 48 -> length blk = 16 ->
  md2_compress0 X blk = rfc1319_compress X blk.
Proof.
  intros X blk LX LB. unfold rfc1319_compress. rewrite md2_load_spec by auto.
  rewrite md2_rounds_spec; [reflexivity|].
  unfold md2_load. rewrite !app_length, map_length, combine_length, firstn_length. lia.
Qed.

Lemma last_cons_any : forall (l : list N) v t, last l v = last (v :: l) t.
Proof.
  intros l. induction l as [|a l IH]; intros v t; [reflexivity|].
  change (last (v :: a :: l) t) with (last (a :: l) t).
  destruct l; [reflexivity|]. change (last (n :: l) v = last (n :: l) t).
  rewrite (IH v t). reflexivity.
Qed.

Lemma md2_cksum_from_spec : forall dg p pre qre t, length p = length dg -> length qre = length pre ->
  fold_left (fun '(C, L) j =>
      let v := N.lxor (at_ C j) (rfc_S (N.lxor (at_ (qre ++ p) j) L)) in (upd C j v, v))
     (seq (length pre) (length dg)) (pre ++ dg, t)
  = (pre ++ md2_cksum_from dg p t, last (md2_cksum_from dg p t) t).
Proof.
  induction dg as [|d dg IH]; intros p pre qre t Lp Lq.
  - destruct p; [|discriminate Lp]. reflexivity.
  - destruct p as [|b p]; [discriminate Lp|]. injection Lp as Lp.
    cbn [length seq fold_left]. rewrite at_app_mid, upd_app_at. cbv zeta.
    rewrite <- Lq, at_app_mid. change (rfc_S (N.lxor b t)) with (md2_sub (N.lxor b t)).
    cbn [md2_cksum_from].
    set (v := N.lxor d (md2_sub (N.lxor b t))).
    specialize (IH p (pre ++ [v]) (qre ++ [b]) v Lp).
    rewrite <- !app_assoc in IH. cbn [app] in IH.
    rewrite !app_length, !Nat.add_1_r in IH. rewrite Lq. rewrite IH by (cbn [length]; lia).
    f_equal.
    apply last_cons_any.
Qed.

Lemma last_at15 : forall (l : list N) t, length l = 16 -> last l t = at_ l 15.
Proof.
  intros l t L. do 16 (destruct l as [|? l]; [discriminate L|]).
  destruct l; [reflexivity|discriminate L].
Qed.

Lemma md2_cksum_fold_spec : forall bl dg, length dg = 16 ->
  Forall (fun c : list N => length c = 16) bl ->
  fold_left rfc1319_ck_block bl (dg, at_ dg 15)
  = (fold_left md2_cksum bl dg, at_ (fold_left md2_cksum bl dg) 15).
Proof.
  induction bl as [|b bl IH]; intros dg L Hf; [reflexivity|].
  inversion Hf; subst. rewrite !fold_left_cons.
  assert (Lc : length (md2_cksum_from dg b (at_ dg 15)) = 16).
  { rewrite <- L. clear -H1 L. rewrite <- L in H1. revert b H1. generalize (at_ dg 15). clear.
    induction dg; intros n b Hb; destruct b; try discriminate; cbn [md2_cksum_from length]; auto. }
  assert (E : rfc1319_ck_block (dg, at_ dg 15) b = (md2_cksum dg b, at_ (md2_cksum dg b) 15)).
  { unfold rfc1319_ck_block.
    pose proof (md2_cksum_from_spec dg b [] [] (at_ dg 15)) as K.
    rewrite L in K. cbn [length app] in K. rewrite K by auto.
    unfold md2_cksum. f_equal. apply last_at15, Lc. }
  rewrite E. apply IH; auto.
Qed.

Lemma md2_block_fold : forall bl s0 d0,
  fold_left md2_block bl (s0, d0) = (fold_left md2_compress0 bl s0, fold_left md2_cksum bl d0).
Proof. induction bl as [|a bl IH]; intros; [reflexivity|]. exact (IH _ _). Qed.

Lemma md2_cksum_from_length : forall dg p t, length p = length dg ->
  length (md2_cksum_from dg p t) = length dg.
Proof. induction dg; destruct p; simpl; intros; auto; discriminate. Qed.

Lemma md2_cksum_fold_length : forall bl d0, length d0 = 16 ->
  Forall (fun c : list N => length c = 16) bl -> length (fold_left md2_cksum bl d0) = 16.
Proof.
  induction bl; simpl; intros; auto. inversion H0; subst. apply IHbl; auto.
  unfold md2_cksum. rewrite md2_cksum_from_length; lia.
Qed.

Lemma md2_pass_length : forall s t, length (fst (md2_pass s t)) = length s.
Proof.
  induction s; simpl; intros; auto.
  specialize (IHs (N.lxor a (md2_sub t))).
  destruct (md2_pass s (N.lxor a (md2_sub t))). simpl in *. lia.
Qed.
Lemma md2_rounds_length : forall n i s t, length (md2_rounds n i s t) = length s.
Proof.
  induction n; simpl; intros; auto.
  pose proof (md2_pass_length s t). destruct (md2_pass s t). simpl in *. now rewrite IHn.
Qed.
Lemma md2_compress0_length : forall x p, length x = 48 -> length p = 16 ->
  length (md2_compress0 x p) = 48.
Proof.
  intros. unfold md2_compress0. rewrite md2_rounds_length. unfold md2_load.
  rewrite !app_length, map_length, combine_length, firstn_length. lia.
Qed.
Lemma rfc1319_fold_length : forall bl x, length x = 48 ->
  Forall (fun c : list N => length c = 16) bl -> length (fold_left md2_compress0 bl x) = 48.
Proof.
  induction bl; simpl; intros; auto. inversion H0; subst.
  apply IHbl; auto. now apply md2_compress0_length.
Qed.

(** Object states that represent the history m. *)
Definition md2_rel (d : md2) (m : list N) : Prop :=
  (md2_s d, md2_dg d) = fold_left md2_block (chunks 16 m) (zeros 48, zeros 16) /\
  buf_ok 16 16 (md2_x d) (md2_nx d) m /\
  md2_len d = w64 (N.of_nat (length m)).

Lemma md2_new_rel : md2_rel md2_new [].
Proof.
  split; [reflexivity|]. split; [|reflexivity]. apply buf_ok_nil; [lia|reflexivity].
Qed.

Lemma md2_write_rel : forall d m p, md2_rel d m -> md2_rel (fst (md2_write d p)) (m ++ p).
Proof.
  intros d m p (Hs & Hb & Hl). unfold md2_write.
  destruct (writeA_ok 16 16 md2_step
    (fun st h => fst st = fold_left md2_block (chunks 16 h) (zeros 48, zeros 16)
                 /\ snd st = w64 (N.of_nat (length h))) ltac:(lia) ltac:(lia))
    with (s := ((md2_s d, md2_dg d), md2_len d)) (x := md2_x d) (nx := md2_nx d) (p := p) (m := m)
    as (st & x' & nx' & r & c & E & Ep & (Hs' & Hl') & Hlt & Hb'); auto.
  - intros st h c b (E1 & E2) Lb Fb Hc. unfold md2_step. simpl. split.
    + rewrite (firstn_all2 b) in Fb by lia.
      rewrite absorb_snoc by lia. rewrite <- E1, Fb. reflexivity.
    + rewrite E2, app_length. unfold add64. rewrite w64_add_l. f_equal. lia.
  - rewrite E. cbn [fst snd]. split; [|split]; cbn [md2_s md2_dg md2_x md2_nx md2_len].
    + rewrite <- surjective_pairing, Hs', Ep, app_assoc, (absorb_short _ md2_block 16 _ (m ++ c) r) by lia.
      reflexivity.
    + auto.
    + rewrite Hl', Ep. unfold add64. rewrite w64_add_l, !app_length. f_equal. lia.
Qed.

Lemma md2_write_count : forall d p, snd (md2_write d p) = length p.
Proof.
  intros. unfold md2_write. destruct (writeA _ _ _ _ _ _) as [[[st x'] nx'] r]. reflexivity.
Qed.



Lemma md2_spec_eq : forall m1 m2, m2 = m1 ++ fold_left md2_cksum (chunks 16 m1) (zeros 16) ->
  firstn 16 (fold_left md2_compress0 (chunks 16 m2) (zeros 48)) =
  firstn 16 (fold_left rfc1319_compress (chunks 16 (m1 ++ rfc1319_checksum m1)) (zeros 48)).
Proof.
  intros m1 m2 ->. f_equal.
  replace (rfc1319_checksum m1) with (fold_left md2_cksum (chunks 16 m1) (zeros 16)).
  2:{ unfold rfc1319_checksum. change 0%N with (at_ (zeros 16) 15).
      rewrite md2_cksum_fold_spec; [reflexivity|reflexivity|apply chunks_all_length; lia]. }
  apply (fold_left_agree _ _ md2_compress0 rfc1319_compress (fun x => length x = 48) (fun b => length b = 16)).
  - intros. now apply md2_compress_spec.
  - intros. now apply md2_compress0_length.
  - reflexivity.
  - apply chunks_all_length. lia.
Qed.

Lemma rfc1319_pad_length : forall m, length (rfc1319_pad m) mod 16 = 0.
Proof.
  intros. unfold rfc1319_pad. rewrite app_length, repeat_length.
  pose proof (Nat.mod_upper_bound (length m) 16 ltac:(lia)).
  rewrite <- Nat.add_mod_idemp_l by lia.
  replace (length m mod 16 + (16 - length m mod 16)) with 16 by lia. reflexivity.
Qed.

(** The checksum as the model accumulates it. *)
Definition md2_checksum0 (m : list N) : list N := fold_left md2_cksum (chunks 16 m) (zeros 16).

Lemma md2_checkSum_ok : forall d m, md2_rel d m -> md2_checkSum d = Some (rfc1319_md2 m).
Proof.
  intros d m H. unfold md2_checkSum.
  assert (Enx : md2_nx d = length m mod 16).
  { destruct H as (_ & (_ & E & _) & _). rewrite E. apply rest_length. lia. }
  pose proof (Nat.mod_upper_bound (length m) 16 ltac:(lia)) as Hr.
  set (pd := repeat (w8 (N.of_nat (16 - md2_nx d))) (16 - md2_nx d)).
  assert (Ep : m ++ pd = rfc1319_pad m).
  { unfold rfc1319_pad, pd. rewrite Enx. rewrite w8_small; auto. lia. }
  pose proof (md2_write_rel d m pd H) as H1. rewrite Ep in H1.
  set (d1 := fst (md2_write d pd)) in *.
  pose proof (rfc1319_pad_length m) as Hm.
  assert (R1 : rest 16 (rfc1319_pad m) = []) by (apply rest_0; auto; lia).
  assert (N1 : md2_nx d1 = 0).
  { destruct H1 as (_ & Hb & _). eapply rest_nil_nx; eauto. }
  rewrite N1. simpl negb.
  assert (Dg : md2_dg d1 = md2_checksum0 (rfc1319_pad m)).
  { destruct H1 as (E & _ & _). rewrite md2_block_fold in E. now inversion E. }
  pose proof (md2_write_rel d1 _ (md2_dg d1) H1) as H2. rewrite Dg in H2 |- *.
  set (d2 := fst (md2_write d1 (md2_checksum0 (rfc1319_pad m)))) in *.
  assert (Lc : length (md2_checksum0 (rfc1319_pad m)) = 16).
  { apply md2_cksum_fold_length; auto. apply chunks_all_length. lia. }
  assert (N2 : md2_nx d2 = 0).
  { destruct H2 as (_ & Hb & _). refine (rest_nil_nx _ _ _ _ _ _ Hb). apply rest_0; [lia|].
    rewrite app_length, Lc. rewrite <- Nat.add_mod_idemp_l by lia. now rewrite Hm. }
  rewrite N2. simpl negb. cbv iota. f_equal. unfold rfc1319_md2.
  rewrite <- (md2_spec_eq (rfc1319_pad m) _ eq_refl). f_equal.
  destruct H2 as (E & _ & _). rewrite md2_block_fold in E. now inversion E.
Qed.

Lemma md2_history_lemma : forall ops d m, md2_rel d m ->
  run md2_impl d ops = ideal_run rfc1319_md2 m ops.
Proof.
  apply run_refines; simpl; intros.
  - now apply md2_write_rel.
  - apply md2_write_count.
  - assumption.
  - now rewrite (md2_checkSum_ok d m).
  - apply md2_new_rel.
Qed.

Lemma rfc1319_md2_length : forall m, length (rfc1319_md2 m) = 16.
Proof.
  intros. unfold rfc1319_md2. cbv zeta.
  rewrite <- (md2_spec_eq (rfc1319_pad m) _ eq_refl).
  rewrite firstn_length, rfc1319_fold_length; auto.
  apply chunks_all_length. lia.
Qed.

Lemma md2_Sum_ok : forall m, md2_Sum m = rfc1319_md2 m.
Proof.
  intros. unfold md2_Sum, md2_sum. cbn [snd].
  rewrite (md2_checkSum_ok _ ([] ++ m)) by (apply md2_write_rel, md2_new_rel).
  simpl app at 2. pose proof (rfc1319_md2_length m).
  rewrite copy_at_full by (rewrite ?zeros_length; simpl; lia).
  rewrite zeros_length. apply firstn_all2. simpl. lia.
Qed.

(** Lengths of the arrays, needed for the serialisation. *)
Lemma md2_rel_lengths : forall d m, md2_rel d m ->
  length (md2_s d) = 48 /\ length (md2_x d) = 16 /\ length (md2_dg d) = 16.
Proof.
  intros d m (E & (L & _) & _). rewrite md2_block_fold in E. inversion E as [[E1 E2]].
  rewrite E1, E2. repeat split; auto.
  - apply rfc1319_fold_length; auto. apply chunks_all_length. lia.
  - apply md2_cksum_fold_length; auto. apply chunks_all_length. lia.
Qed.



Lemma md2_unmarshal_marshal_lemma : forall d m r, md2_rel d m ->
  length (md2_s r) = 48 -> length (md2_x r) = 16 -> length (md2_dg r) = 16 ->
  exists d', md2_unmarshal r (md2_marshal d) = inl d' /\ md2_rel d' m.
Proof.
  intros d m r H L1 L2 L3.
  pose proof (md2_rel_lengths d m H) as (Ls & Lx & Ld).
  destruct H as (Hs & Hb & Hl).
  pose proof (buf_ok_nx_lt _ _ _ _ _ (Nat.lt_0_succ 15) Hb) as Hnx.
  unfold md2_unmarshal, md2_marshal.
  set (X := copy_at (zeros 16) 0 (firstn (md2_nx d) (md2_x d))).
  assert (LX : length X = 16) by (unfold X; rewrite copy_at_length; rewrite zeros_length; lia).
  assert (L8 : length (be_bytes 8 (md2_len d)) = 8) by apply be_bytes_length.
  rewrite !app_length, Ls, LX, L8, Ld.
  change (length md2_magic) with 4.
  rewrite (firstn_app_len _ 4 md2_magic) by reflexivity.
  destruct (list_eq_dec N.eq_dec md2_magic md2_magic); [|contradiction].
  cbn [Nat.ltb Nat.leb Nat.add orb negb Nat.eqb md2_marshaledSize].
  rewrite (skipn_app_len _ 4) by reflexivity. rewrite !skipn_app_len by auto.
  rewrite !copy_at_0_app by lia.
  rewrite firstn_app_len by auto.
  rewrite be_val_be_bytes. change (256 ^ N.of_nat 8)%N with 18446744073709551616%N.
  rewrite (N.mod_small (md2_len d) 18446744073709551616) by (rewrite Hl; apply w64_lt).
  replace (copy_at (md2_dg r) 0 (md2_dg d)) with (md2_dg d)
    by (rewrite <- (app_nil_r (md2_dg d)) at 2; rewrite copy_at_0_app; auto; lia).
  eexists. split; [reflexivity|].
  split; [|split]; cbn [md2_s md2_dg md2_x md2_nx md2_len]; auto.
  assert (En : N.to_nat (md2_len d mod 16) = md2_nx d).
  { rewrite Hl, w64_mod16. destruct Hb as (_ & En & _). rewrite En, rest_length by lia.
    change 16%N with (N.of_nat 16). rewrite <- Nat2N.inj_mod. apply Nat2N.id. }
  rewrite En. destruct Hb as (_ & Eb & Fb). split; [auto|]. split; [auto|].
  transitivity (firstn (0 + length (firstn (md2_nx d) (md2_x d))) X).
  { f_equal. rewrite firstn_length. lia. }
  unfold X. rewrite copy_at_firstn by (rewrite ?firstn_length, ?zeros_length; lia). exact Fb.
Qed.

Lemma md2_exec_rel : forall ops, md2_rel (exec md2_impl md2_new ops) (history [] ops).
Proof.
  intros ops. apply (exec_refines _ md2_impl md2_rel); intros.
  - now apply md2_write_rel.
  - exact H.
  - apply md2_new_rel.
  - apply md2_new_rel.
Qed.
Lemma md2_roundtrip_lemma : forall before receiver_history,
  exists d', md2_unmarshal (exec md2_impl md2_new receiver_history)
                           (md2_marshal (exec md2_impl md2_new before)) = inl d' /\
  forall after, run md2_impl d' after = run md2_impl (exec md2_impl md2_new before) after /\
                run md2_impl d' after = ideal_run rfc1319_md2 (history [] before) after.
Proof.
  intros before rh.
  destruct (md2_rel_lengths _ _ (md2_exec_rel rh)) as (L1 & L2 & L3).
  destruct (md2_unmarshal_marshal_lemma _ _ _ (md2_exec_rel before) L1 L2 L3) as (d' & E & R).
  exists d'. split; [exact E|]. intros after.
  rewrite (md2_history_lemma after _ _ R), (md2_history_lemma after _ _ (md2_exec_rel before)). auto.
Qed.

Lemma md2_unmarshal_rejects_lemma : forall r b,
  (exists d', md2_unmarshal r b = inl d') <->
  (firstn 4 b = md2_magic /\ length b = 92).
Proof.
  intros r b. unfold md2_unmarshal. split.
  - intros (d' & E).
    destruct (length b <? 4) eqn:E1; cbn [orb] in E; [discriminate E|].
    destruct (list_eq_dec N.eq_dec (firstn 4 b) md2_magic); cbn [orb negb] in E; [|discriminate E].
    destruct (length b =? md2_marshaledSize) eqn:E2; cbn [orb negb] in E; [|discriminate E].
    apply Nat.eqb_eq in E2. auto.
  - intros (E & L). rewrite L, E. simpl Nat.ltb. simpl orb.
    destruct (list_eq_dec N.eq_dec md2_magic md2_magic); [|contradiction].
    simpl. eauto.
Qed.

(** ** The model computes the repository's test vectors (md2_test.go:20-21, 63-88). *)
From Coq Require Import String.
Example md2_vec_empty : md2_Sum [] = hex "8350e5a3e24c153df2275c9f80692773".
Proof. vm_compute. reflexivity. Qed.
Example md2_vec_abc : md2_Sum (bytes_of_string "abc") = hex "da853b0d3f88d99b30283a69e6ded6bb".
Proof. vm_compute. reflexivity. Qed.
Example md2_vec_62 :
  md2_Sum (bytes_of_string "ABCDEFGHIJKLMNOPQRSTUVWXYZabcdefghijklmnopqrstuvwxyz0123456789")
  = hex "da33def2a42df13975352846c30338cd".
Proof. vm_compute. reflexivity. Qed.
