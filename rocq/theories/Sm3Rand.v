(** Sm3Rand.v -- model of /repo/sm3/rand.go and /repo/sm3/rand_df.go (the SM3 DRBG), over the modelled
    sm3 digest object of Sm3.v.  The system clock and the entropy source are inputs of the model:
    a time is a number of seconds, its Second() is that number modulo 60. *)
From Coq Require Import List NArith ZArith Arith Lia Bool.
From Verif Require Import Base Words HashAPI MD Refine SpecSm3 Sm3.
Import ListNotations.

(** rand.go:143-157 beAdd, written on the reversed slices (the loops run from the last byte down).
    carry += int32(r[i] + a[j]): the inner sum is a byte sum.  None: a is longer than r, r[-1] panics. *)
Fixpoint beadd_loop (carry : N) (r a : list N) : list N :=
  match r, a with
  | x :: r, y :: a => let c := (carry + w8 (x + y))%N in w8 c :: beadd_loop (N.shiftr c 8) r a
  | x :: r, [] => let c := (carry + x)%N in w8 c :: beadd_loop (N.shiftr c 8) r []
  | [], _ => []
  end.
Definition beAdd (r a : list N) : list N := rev (beadd_loop 0 (rev r) (rev a)).

(** rand_df.go:13-15 *)
Record sm3df : Type := mkdf { df0 : dig (list N); df1 : dig (list N) }.
Definition wr (d : dig (list N)) (p : list N) : dig (list N) := fst (i_write sm3_impl d p).
(** rand_df.go:17-38 NewDF, Reset *)
Definition df_new : sm3df :=
  let seedlen := [0; 0; 440 / 256; 440 mod 256]%N in
  mkdf (wr (wr sm3_new [0; 0; 0; 1]%N) seedlen) (wr (wr sm3_new [0; 0; 0; 2]%N) seedlen).
(** rand_df.go:48-53 Write *)
Definition df_write (d : sm3df) (p : list N) : sm3df :=
  if 0 <? length p then mkdf (wr (df0 d) p) (wr (df1 d) p) else d.
(** rand_df.go:55-71 Sum, checkSum *)
Definition df_checkSum (d : sm3df) : list N :=
  let o := snd (i_sum sm3_impl (df0 d) []) in
  let buf := snd (i_sum sm3_impl (df1 d) []) in
  let out := zeros 55 in
  let out := copy_at out 0 o in
  copy_at (firstn 23 out) 0 buf ++ skipn 23 out.
Definition df_sum (d : sm3df) (inp : list N) : list N := inp ++ df_checkSum d.

(** rand.go:14-19 *)
Record sm3rand : Type := mkrand { rV : list N; rC : list N; rCtr : N; rTime : N }.
Definition df_of (parts : list (list N)) : list N := df_sum (fold_left df_write parts df_new) [].
(** rand.go:30-57 init (NewRand) with the 512 entropy bytes and the clock as arguments. *)
Definition rand_new (entropy nonce label : list N) (now : N) : sm3rand :=
  let V := df_of [entropy; nonce; label] in
  mkrand V (df_of [[0%N]; V]) 1 now.
(** rand.go:117-141 reseed *)
Definition rand_reseed (t : sm3rand) (entropy addin : list N) (now : N) : sm3rand :=
  let V := df_of [[1%N]; entropy; rV t; addin] in
  mkrand V (df_of [[0%N]; V]) 1 now.
Definition sm3_of (parts : list (list N)) : list N := snd (i_sum sm3_impl (fold_left wr parts sm3_new) []).
(** rand.go:63-64: reseedCounter > 1<<20 || time.Now().Second() - lastReseedTime.Second() > 600 *)
Definition needs_reseed (t : sm3rand) (now : N) : bool :=
  (1048576 <? rCtr t)%N || (600 <? Z.of_N (now mod 60) - Z.of_N (rTime t mod 60))%Z.
(** rand.go:59-115 Generate: result is the new state and the new contents of out. *)
Definition rand_generate (t : sm3rand) (out addin entropy : list N) (now : N) : sm3rand * list N :=
  let rs := needs_reseed t now in
  let t := if rs then rand_reseed t entropy addin now else t in
  let addin := if rs then [] else addin in
  let V := if 0 <? length addin then beAdd (rV t) (sm3_of [[2%N]; rV t; addin]) else rV t in
  let buf := sm3_of [V] in
  let out := if length out <? 32 then copy_at out 0 (firstn (length out) buf) else copy_at out 0 buf in
  let H := sm3_of [[3%N]; V] in
  let V := beAdd V H in
  let V := beAdd V (rC t) in
  let V := beAdd V (be_bytes 4 (rCtr t)) in
  (mkrand V (rC t) (w32 (rCtr t + 1)) (rTime t), out).

(** ** Proofs *)
Opaque sm3_spec.
Lemma wr_rel : forall d m p, sm3_rel d m -> sm3_rel (wr d p) (m ++ p).
Proof. intros. unfold wr. cbn [i_write sm3_impl]. now apply sm3_write_rel. Qed.
Lemma fold_wr : forall ps d m, sm3_rel d m -> sm3_rel (fold_left wr ps d) (m ++ concat ps).
Proof.
  induction ps as [|p ps IH]; intros d m H; cbn [fold_left concat]; [now rewrite app_nil_r|]. rewrite app_assoc. apply IH. now apply wr_rel.
Qed.
Lemma sm3_sum_out : forall d m, sm3_rel d m -> snd (i_sum sm3_impl d []) = sm3_spec m.
Proof. intros d m H. cbn [i_sum sm3_impl]. unfold sm3_sum. cbn [snd app]. now apply sm3_checkSum_ok. Qed.
Lemma sm3_of_ok : forall ps, sm3_of ps = sm3_spec (concat ps).
Proof. intros. unfold sm3_of. apply sm3_sum_out. apply (fold_wr ps sm3_new []). apply sm3_new_rel. Qed.
Definition df_prefix (k : N) : list N := [0; 0; 0; k; 0; 0; 1; 184]%N.
Definition df_rel (d : sm3df) (m : list N) : Prop := sm3_rel (df0 d) (df_prefix 1 ++ m) /\ sm3_rel (df1 d) (df_prefix 2 ++ m).
Lemma df_new_rel : df_rel df_new [].
Proof.
  split; cbn [df0 df1 df_new].
  - pose proof (wr_rel _ _ [0; 0; 440 / 256; 440 mod 256]%N (wr_rel _ _ [0; 0; 0; 1]%N sm3_new_rel)) as K. exact K.
  - pose proof (wr_rel _ _ [0; 0; 440 / 256; 440 mod 256]%N (wr_rel _ _ [0; 0; 0; 2]%N sm3_new_rel)) as K. exact K.
Qed.
Lemma df_write_rel : forall d m p, df_rel d m -> df_rel (df_write d p) (m ++ p).
Proof.
  intros d m p [H0 H1]. unfold df_write. destruct (Nat.ltb_spec 0 (length p)) as [H|H].
  - split; cbn [df0 df1]; rewrite app_assoc; now apply wr_rel.
  - destruct p; [|simpl in H; lia]. rewrite app_nil_r. split; assumption.
Qed.
Lemma df_fold_rel : forall ps d m, df_rel d m -> df_rel (fold_left df_write ps d) (m ++ concat ps).
Proof. induction ps as [|p ps IH]; intros d m H; cbn [fold_left concat]; [now rewrite app_nil_r|]. rewrite app_assoc. apply IH. now apply df_write_rel. Qed.
Transparent sm3_spec.
Lemma sm3_spec_len : forall m, length (sm3_spec m) = 32.
Proof.
  intros m. unfold sm3_spec. rewrite concat_be_length.
  assert (L : forall bl s, length s = 8 -> Forall (fun b : list N => length b = 64) bl -> length (fold_left sm3_block bl s) = 8).
  { induction bl as [|b bl IH]; intros s Hs HF; [exact Hs|]. rewrite fold_left_cons. apply IH; [apply sm3_block_length|now apply Forall_inv_tail in HF]. }
  pose proof (chunks_all_length _ 64 (gbt_pad m) ltac:(lia)) as HF.
  change gbt_iv with sm3_iv. rewrite <- (sm3_fold_ok (chunks 64 (gbt_pad m)) sm3_iv eq_refl HF). rewrite (L _ sm3_iv eq_refl HF). reflexivity.
Qed.
Opaque sm3_spec.
Lemma df_checkSum_ok : forall d m, df_rel d m ->
  df_checkSum d = firstn 23 (sm3_spec (df_prefix 2 ++ m)) ++ skipn 23 (sm3_spec (df_prefix 1 ++ m)) ++ zeros 23.
Proof.
  intros d m [H0 H1]. unfold df_checkSum. rewrite (sm3_sum_out _ _ H0), (sm3_sum_out _ _ H1). cbv zeta.
  pose proof (sm3_spec_len (df_prefix 1 ++ m)) as L0. pose proof (sm3_spec_len (df_prefix 2 ++ m)) as L1.
  set (o := sm3_spec (df_prefix 1 ++ m)) in *. set (b := sm3_spec (df_prefix 2 ++ m)) in *. clearbody o b.
  assert (E : copy_at (zeros 55) 0 o = o ++ zeros 23).
  { unfold copy_at. change (firstn 0 (zeros 55)) with (@nil N). rewrite zeros_length, (firstn_all2 (n := 55 - 0)) by lia. cbn [app]. f_equal. rewrite L0. reflexivity. }
  rewrite E. rewrite copy_at_full by (rewrite firstn_length, app_length, zeros_length; lia). change (firstn 0 _) with (@nil N). cbn [app].
  rewrite firstn_length, app_length, zeros_length, L0. change (Nat.min 23 (32 + 23) - 0) with 23. f_equal.
  rewrite skipn_app, L0. change (23 - 32) with 0. reflexivity.
Qed.
Lemma beadd_nocarry : forall r a, Forall isbyte r -> length a <= length r ->
  beadd_loop 0 r a = map (fun i => w8 (at_ r i + at_ a i)) (seq 0 (length r)).
Proof.
  induction r as [|x r IH]; intros a HF L; [reflexivity|]. pose proof (Forall_inv HF) as Hx. apply Forall_inv_tail in HF.
  cbn [length]. rewrite seq_cons. cbn [map]. rewrite <- seq_shift, map_map.
  assert (Z : forall c, (c < 256)%N -> N.shiftr c 8 = 0%N /\ w8 c = c).
  { intros c Hc. split; [rewrite N.shiftr_div_pow2; now apply N.div_small|now apply w8_small]. }
  destruct a as [|y a]; cbn [beadd_loop]; cbv zeta; rewrite N.add_0_l.
  - destruct (Z x Hx) as [Zs Zw]. rewrite Zs, Zw. cbn [length] in L. rewrite (IH [] HF) by (cbn [length]; lia).
    apply f_equal2. + unfold at_. cbn [nth]. rewrite N.add_0_r. now rewrite Zw.
    + apply map_ext. intros i. unfold at_. cbn [nth]. destruct i; reflexivity.
  - destruct (Z (w8 (x + y)) (w8_lt _)) as [Zs Zw]. rewrite Zs, Zw. cbn [length] in L. rewrite (IH a HF) by lia.
    apply f_equal2; [reflexivity|]. apply map_ext. intros i. reflexivity.
Qed.
