(** PropSimd.v -- C129, C130: the simd package. *)
From Coq Require Import Ascii String List NArith ZArith Arith Lia Bool.
Require Import Verif.Base Verif.Words Verif.HashAPI Verif.Buf Verif.Bytes Verif.MD Verif.Refine Verif.Threefish Verif.SpecSimd Verif.SimdTab Verif.Simd.
Import ListNotations.
Local Open Scope list_scope.
Local Open Scope nat_scope.

(** ** the transform over related arithmetics *)
Section Rel.
Context {T1 T2 : Type} (o1 : fop T1) (o2 : fop T2) (d1 : T1) (d2 : T2) (x1 : nat -> T1) (x2 : nat -> T2) (tab : list Z) (R : T1 -> T2 -> Prop).
Hypothesis Hadd : forall a b a' b', R a a' -> R b b' -> R (f_add o1 a b) (f_add o2 a' b').
Hypothesis Hsub : forall a b a' b', R a a' -> R b b' -> R (f_sub o1 a b) (f_sub o2 a' b').
Hypothesis Hshl : forall a a' k, R a a' -> R (f_shl o1 a k) (f_shl o2 a' k).
Hypothesis Hred : forall a a', R a a' -> R (f_red o1 a) (f_red o2 a').
Hypothesis Hmul : forall a a' k, R a a' -> R (f_mul o1 a k) (f_mul o2 a' k).
Hypothesis Hd : R d1 d2.
Hypothesis Hx : forall i, R (x1 i) (x2 i).
Notation RL := (Forall2 R).
Lemma rl_nth : forall l l' i, RL l l' -> R (nth i l d1) (nth i l' d2).
Proof. intros l l' i H. revert i. induction H; intros [|i]; cbn [nth]; auto. Qed.
Lemma rl_upd : forall l l' i v v', RL l l' -> R v v' -> RL (upd l i v) (upd l' i v').
Proof. intros l l' i v v' H HV. revert i. induction H; intros [|i]; cbn [upd]; constructor; auto. Qed.
Lemma rl_fold : forall A (f1 : list T1 -> A -> list T1) (f2 : list T2 -> A -> list T2) s q q', (forall l l' a, RL l l' -> RL (f1 l a) (f2 l' a)) ->
  RL q q' -> RL (fold_left f1 s q) (fold_left f2 s q').
Proof. intros A f1 f2. induction s as [|a s IH]; intros q q' HF H; cbn [fold_left]; auto. Qed.
Lemma rl_eight : forall a b c e a' b' c' e', R a a' -> R b b' -> R c c' -> R e e' -> RL (sd_eight o1 a b c e) (sd_eight o2 a' b' c' e').
Proof. intros. unfold sd_eight. cbv zeta. repeat constructor; auto 8. Qed.
Lemma rl_map : forall (g1 : nat -> T1) (g2 : nat -> T2) s, (forall k, R (g1 k) (g2 k)) -> RL (map g1 s) (map g2 s).
Proof. intros. induction s; cbn [map]; constructor; auto. Qed.
Lemma rl_sixteen : forall a b a' b', RL a a' -> RL b b' -> RL (sd_sixteen o1 d1 a b) (sd_sixteen o2 d2 a' b').
Proof. intros a b a' b' Ha Hb. unfold sd_sixteen. apply Forall2_app; apply rl_map; intro k; [apply Hadd|apply Hsub]; try (apply rl_nth; assumption); apply Hshl, rl_nth; assumption. Qed.
Lemma rl_put : forall q q' off l l', RL q q' -> RL l l' -> RL (sd_put d1 q off l) (sd_put d2 q' off l').
Proof.
  intros q q' off l l' Hq Hl. unfold sd_put. assert (E : length l = length l') by (clear - Hl; induction Hl; cbn [length]; congruence). rewrite <- E.
  apply rl_fold; [|exact Hq]. intros. apply rl_upd; [assumption|]. apply rl_nth. exact Hl.
Qed.
Lemma rl_bfly : forall q q' lo hi a, RL q q' -> RL (sd_bfly o1 d1 q lo hi a) (sd_bfly o2 d2 q' lo hi a).
Proof. intros. unfold sd_bfly. cbv zeta. apply rl_upd; [apply rl_upd; [assumption|]|]; [apply Hadd|apply Hsub]; try (apply rl_nth; assumption); apply Hmul, rl_nth; assumption. Qed.
Lemma rl_join : forall q q' b half step, RL q q' -> RL (sd_join o1 d1 tab q b half step) (sd_join o2 d2 tab q' b half step).
Proof.
  intros. unfold sd_join. cbv zeta. apply rl_fold.
  - intros l l' i HL. apply rl_fold; [|exact HL]. intros k k' j HK. destruct ((4 * i =? 0) && (j =? 0)); [exact HK|]. apply rl_bfly. exact HK.
  - apply rl_upd; [apply rl_upd; [assumption|]|]; [apply Hadd|apply Hsub]; apply rl_nth; assumption.
Qed.
Lemma rl_fft32 : forall q q' xb xs qo, RL q q' -> RL (sd_fft32 o1 d1 x1 tab q xb xs qo) (sd_fft32 o2 d2 x2 tab q' xb xs qo).
Proof. intros. unfold sd_fft32. cbv zeta. apply rl_join, rl_put; [apply rl_put; [assumption|]|]; apply rl_sixteen; apply rl_eight; apply Hx. Qed.
Lemma rl_fft64 : forall q q' xb xs qo, RL q q' -> RL (sd_fft64 o1 d1 x1 tab q xb xs qo) (sd_fft64 o2 d2 x2 tab q' xb xs qo).
Proof. intros. unfold sd_fft64. cbv zeta. apply rl_join, rl_fft32, rl_fft32. assumption. Qed.
Lemma rl_256 : forall q q', RL q q' -> RL (sd_trans256 o1 d1 x1 tab q) (sd_trans256 o2 d2 x2 tab q').
Proof. intros. unfold sd_trans256. cbv zeta. apply rl_join, rl_join, rl_fft32, rl_fft32, rl_join, rl_fft32, rl_fft32. assumption. Qed.
Lemma rl_512 : forall q q', RL q q' -> RL (sd_trans512 o1 d1 x1 tab q) (sd_trans512 o2 d2 x2 tab q').
Proof. intros. unfold sd_trans512. cbv zeta. apply rl_join, rl_join, rl_fft64, rl_fft64, rl_join, rl_fft64, rl_fft64. assumption. Qed.
End Rel.

(** ** the abstract arithmetic: a linear form in the bytes modulo 257, with a bound on the int32 value *)
Local Open Scope Z_scope.
Record av : Type := mkav { a_vec : list Z; a_bd : Z; a_ok : bool }.
Definition vop (f : Z -> Z -> Z) (a b : list Z) : list Z := map (fun p => f (fst p) (snd p) mod 257) (combine a b).
Definition smul (k : Z) (a : list Z) : list Z := map (fun z => (k * z) mod 257) a.
Definition aops : fop av := mkfop
  (fun a b => let bd := a_bd a + a_bd b in mkav (vop Z.add (a_vec a) (a_vec b)) bd (a_ok a && a_ok b && (bd <? 2147483648)))
  (fun a b => let bd := a_bd a + a_bd b in mkav (vop Z.sub (a_vec a) (a_vec b)) bd (a_ok a && a_ok b && (bd <? 2147483648)))
  (fun a k => let bd := a_bd a * 2 ^ Z.of_nat k in mkav (smul (2 ^ Z.of_nat k) (a_vec a)) bd (a_ok a && (bd <? 2147483648)))
  (fun a => mkav (a_vec a) (256 + a_bd a / 256) (a_ok a))
  (fun a k => let bd := a_bd a * Z.abs k in mkav (smul k (a_vec a)) (65536 + bd / 65536) (a_ok a && (bd <? 2147483648))).
Definition dot (v x : list Z) : Z := fold_right Z.add 0 (map (fun p => fst p * snd p) (combine v x)).
Lemma i32_small : forall z, -2147483648 <= z < 2147483648 -> i32 z = z.
Proof. intros z H. unfold i32. rewrite Z.mod_small by lia. lia. Qed.
Definition eqm (a b : Z) : Prop := a mod 257 = b mod 257.
Lemma eqm_of : forall a b k, a = b + 257 * k -> eqm a b.
Proof. intros a b k ->. unfold eqm. rewrite (Z.mul_comm 257). apply Z.mod_add. lia. Qed.
Lemma eqm_add : forall a b c d, eqm a b -> eqm c d -> eqm (a + c) (b + d).
Proof. unfold eqm. intros a b c d H1 H2. rewrite Z.add_mod, H1, H2, <- Z.add_mod by lia. reflexivity. Qed.
Lemma eqm_sub : forall a b c d, eqm a b -> eqm c d -> eqm (a - c) (b - d).
Proof. unfold eqm. intros a b c d H1 H2. rewrite Zminus_mod, H1, H2, <- Zminus_mod. reflexivity. Qed.
Lemma eqm_mul : forall a b c d, eqm a b -> eqm c d -> eqm (a * c) (b * d).
Proof. unfold eqm. intros a b c d H1 H2. rewrite Z.mul_mod, H1, H2, <- Z.mul_mod by lia. reflexivity. Qed.
Lemma eqm_mod : forall a, eqm (a mod 257) a.
Proof. intro a. unfold eqm. apply Z.mod_mod. lia. Qed.
Lemma eqm_trans : forall a b c, eqm a b -> eqm b c -> eqm a c.
Proof. unfold eqm. intros. congruence. Qed.
Lemma eqm_sym : forall a b, eqm a b -> eqm b a.
Proof. unfold eqm. intros. congruence. Qed.
Lemma eqm_refl : forall a, eqm a a.
Proof. reflexivity. Qed.
Lemma dot_add : forall a b x, length a = length b -> eqm (dot (vop Z.add a b) x) (dot a x + dot b x).
Proof.
  induction a as [|p a IH]; intros [|q b] x E; try discriminate E; [apply eqm_refl|]. destruct x as [|y x]; [apply eqm_refl|].
  injection E as E. specialize (IH b x E). unfold dot, vop in *. cbn [combine map fold_right fst snd].
  eapply eqm_trans; [apply eqm_add; [apply eqm_mul; [apply eqm_mod|apply eqm_refl]|apply IH]|]. unfold eqm. f_equal. ring.
Qed.
Lemma dot_sub : forall a b x, length a = length b -> eqm (dot (vop Z.sub a b) x) (dot a x - dot b x).
Proof.
  induction a as [|p a IH]; intros [|q b] x E; try discriminate E; [apply eqm_refl|]. destruct x as [|y x]; [apply eqm_refl|].
  injection E as E. specialize (IH b x E). unfold dot, vop in *. cbn [combine map fold_right fst snd].
  eapply eqm_trans; [apply eqm_add; [apply eqm_mul; [apply eqm_mod|apply eqm_refl]|apply IH]|]. unfold eqm. f_equal. ring.
Qed.
Lemma dot_smul : forall k a x, eqm (dot (smul k a) x) (k * dot a x).
Proof.
  intro k. induction a as [|p a IH]; intros [|y x]; try (unfold dot, smul; cbn [combine map fold_right]; rewrite Z.mul_0_r; apply eqm_refl).
  specialize (IH x). unfold dot, smul in *. cbn [combine map fold_right fst snd].
  eapply eqm_trans; [apply eqm_add; [apply eqm_mul; [apply eqm_mod|apply eqm_refl]|apply IH]|]. unfold eqm. f_equal. ring.
Qed.
Lemma land_mod : forall x k, 0 <= k -> Z.land x (Z.ones k) = x mod 2 ^ k.
Proof. intros. apply Z.land_ones. assumption. Qed.
Lemma l255 : forall x, Z.land x 255 = x mod 256.
Proof. intro x. change 255 with (Z.ones 8). rewrite Z.land_ones by lia. reflexivity. Qed.
Lemma l65535 : forall x, Z.land x 65535 = x mod 65536.
Proof. intro x. change 65535 with (Z.ones 16). rewrite Z.land_ones by lia. reflexivity. Qed.
Lemma s8 : forall x, Z.shiftr x 8 = x / 256.
Proof. intro x. rewrite Z.shiftr_div_pow2 by lia. reflexivity. Qed.
Lemma s16 : forall x, Z.shiftr x 16 = x / 65536.
Proof. intro x. rewrite Z.shiftr_div_pow2 by lia. reflexivity. Qed.
Lemma reds1 : forall x b, Z.abs x <= b -> b < 2147483648 -> sd_REDS1 x = x mod 256 - x / 256 /\ Z.abs (sd_REDS1 x) <= 256 + b / 256 /\ eqm (sd_REDS1 x) x.
Proof.
  intros x b H1 H2. pose proof (Z.div_mod x 256 ltac:(lia)). pose proof (Z.mod_pos_bound x 256 ltac:(lia)). pose proof (Z.div_mod b 256 ltac:(lia)). pose proof (Z.mod_pos_bound b 256 ltac:(lia)).
  assert (E : sd_REDS1 x = x mod 256 - x / 256) by (unfold sd_REDS1; rewrite l255, s8; apply i32_small; lia).
  split; [exact E|]. rewrite E. split; [lia|]. apply (eqm_of _ _ (- (x / 256))). lia.
Qed.
Lemma reds2 : forall x b, Z.abs x <= b -> b < 2147483648 -> sd_REDS2 x = x mod 65536 + x / 65536 /\ Z.abs (sd_REDS2 x) <= 65536 + b / 65536 /\ eqm (sd_REDS2 x) x.
Proof.
  intros x b H1 H2. pose proof (Z.div_mod x 65536 ltac:(lia)). pose proof (Z.mod_pos_bound x 65536 ltac:(lia)). pose proof (Z.div_mod b 65536 ltac:(lia)). pose proof (Z.mod_pos_bound b 65536 ltac:(lia)).
  assert (E : sd_REDS2 x = x mod 65536 + x / 65536) by (unfold sd_REDS2; rewrite l65535, s16; apply i32_small; lia).
  split; [exact E|]. rewrite E. split; [lia|]. apply (eqm_of _ _ (- 255 * (x / 65536))). lia.
Qed.
Definition rel (n : nat) (xs : list Z) (z : Z) (a : av) : Prop :=
  a_ok a = true -> length (a_vec a) = n /\ Z.abs z <= a_bd a /\ a_bd a < 2147483648 /\ eqm z (dot (a_vec a) xs).
Lemma vop_length : forall f a b, length a = length b -> length (vop f a b) = length a.
Proof. intros. unfold vop. rewrite map_length, combine_length. lia. Qed.
Section Ops.
Variable n : nat.
Variable xs : list Z.
Notation R := (rel n xs).
Lemma r_add : forall a b a' b', R a a' -> R b b' -> R (f_add i32ops a b) (f_add aops a' b').
Proof.
  intros a b a' b' Ha Hb. unfold rel. cbn [f_add i32ops aops a_ok a_bd a_vec]. intro E. apply andb_prop in E. destruct E as [E E3]. apply andb_prop in E. destruct E as [E1 E2].
  apply Z.ltb_lt in E3. destruct (Ha E1) as (L1 & B1 & _ & M1). destruct (Hb E2) as (L2 & B2 & _ & M2). rewrite vop_length by congruence. repeat split; [exact L1| | exact E3|]; rewrite i32_small by lia; [lia|].
  eapply eqm_trans; [apply eqm_add; eassumption|]. apply eqm_sym, dot_add. congruence.
Qed.
Lemma r_sub : forall a b a' b', R a a' -> R b b' -> R (f_sub i32ops a b) (f_sub aops a' b').
Proof.
  intros a b a' b' Ha Hb. unfold rel. cbn [f_sub i32ops aops a_ok a_bd a_vec]. intro E. apply andb_prop in E. destruct E as [E E3]. apply andb_prop in E. destruct E as [E1 E2].
  apply Z.ltb_lt in E3. destruct (Ha E1) as (L1 & B1 & _ & M1). destruct (Hb E2) as (L2 & B2 & _ & M2). rewrite vop_length by congruence. repeat split; [exact L1| | exact E3|]; rewrite i32_small by lia; [lia|].
  eapply eqm_trans; [apply eqm_sub; eassumption|]. apply eqm_sym, dot_sub. congruence.
Qed.
Lemma r_shl : forall a a' k, R a a' -> R (f_shl i32ops a k) (f_shl aops a' k).
Proof.
  intros a a' k Ha. unfold rel. cbn [f_shl i32ops aops a_ok a_bd a_vec]. intro E. apply andb_prop in E. destruct E as [E1 E3].
  apply Z.ltb_lt in E3. destruct (Ha E1) as (L1 & B1 & _ & M1). unfold smul at 1. rewrite map_length. pose proof (Z.pow_pos_nonneg 2 (Z.of_nat k) ltac:(lia) ltac:(lia)) as P.
  assert (B : Z.abs (a * 2 ^ Z.of_nat k) <= a_bd a' * 2 ^ Z.of_nat k) by (rewrite Z.abs_mul, (Z.abs_eq (2 ^ _)) by lia; apply Z.mul_le_mono_nonneg_r; lia).
  repeat split; [exact L1| | exact E3|]; rewrite i32_small by lia; [lia|].
  eapply eqm_trans; [|apply eqm_sym, dot_smul]. rewrite Z.mul_comm. apply eqm_mul; [apply eqm_refl|exact M1].
Qed.
Lemma r_red : forall a a', R a a' -> R (f_red i32ops a) (f_red aops a').
Proof.
  intros a a' Ha. unfold rel. cbn [f_red i32ops aops a_ok a_bd a_vec]. intro E. destruct (Ha E) as (L1 & B1 & B2 & M1). destruct (reds1 a _ B1 B2) as (_ & B & M).
  repeat split; [exact L1|exact B| |eapply eqm_trans; eassumption]. pose proof (Z.div_lt_upper_bound (a_bd a') 256 8388608 ltac:(lia) ltac:(lia)). lia.
Qed.
Lemma r_mul : forall a a' k, R a a' -> R (f_mul i32ops a k) (f_mul aops a' k).
Proof.
  intros a a' k Ha. unfold rel. cbn [f_mul i32ops aops a_ok a_bd a_vec]. intro E. apply andb_prop in E. destruct E as [E1 E3].
  apply Z.ltb_lt in E3. destruct (Ha E1) as (L1 & B1 & _ & M1). unfold smul at 1. rewrite map_length.
  assert (B : Z.abs (a * k) <= a_bd a' * Z.abs k) by (rewrite Z.abs_mul; apply Z.mul_le_mono_nonneg_r; lia).
  rewrite (i32_small (a * k)) by lia. destruct (reds2 _ _ B E3) as (_ & B' & M). repeat split; [exact L1|exact B'| |].
  - pose proof (Z.div_lt_upper_bound (a_bd a' * Z.abs k) 65536 32768 ltac:(lia) ltac:(lia)). lia.
  - eapply eqm_trans; [exact M|]. eapply eqm_trans; [|apply eqm_sym, dot_smul]. rewrite Z.mul_comm. apply eqm_mul; [apply eqm_refl|exact M1].
Qed.
End Ops.

(** ** the transform computes the number theoretic transform *)
Definition a_no : av := mkav [] 0 false.
Definition a_byte (n i : nat) : av := if (i <? n)%nat then mkav (map (fun j => if (j =? i)%nat then 1 else 0) (seq 0 n)) 255 true else a_no.
Fixpoint pows (n : nat) (b c : Z) : list Z := match n with O => [] | S n' => c :: pows n' b ((c * b) mod 257) end.
Fixpoint zl_eqb (a b : list Z) : bool := match a, b with [], [] => true | x :: a', y :: b' => (x =? y) && zl_eqb a' b' | _, _ => false end.
Definition a_trans (big : bool) : list av :=
  if big then sd_trans512 aops a_no (a_byte 128) sm_alphaTab512 (repeat a_no 256) else sd_trans256 aops a_no (a_byte 64) sm_alphaTab256 (repeat a_no 128).
Definition sd_n (big : bool) : nat := 16 * sm_L big.
Definition tailc (big last : bool) : list Z := repeat 0 (16 * sm_L big - 4) ++ [0; if last then 1 else 0; 0; 1].
Fixpoint sqm (k : nat) (b : Z) : Z := match k with O => b | S k' => sqm k' ((b * b) mod 257) end.
Definition a_check1 (n lg : nat) (p : Z * (av * (Z * Z))) : bool :=
  let b := fst p in let a := fst (snd p) in let f := fst (snd (snd p)) in let g := snd (snd (snd p)) in
  let e := sqm lg b * nth (n - 4) (a_vec a) 0 in
  a_ok a && (a_bd a <? 2147480000) && zl_eqb (a_vec a) (pows n b 1) &&
  ((f - e * (b * (b * b))) mod 257 =? 0) && (0 <=? f) && (f <=? 1000) && ((g - e * (b + b * (b * b))) mod 257 =? 0) && (0 <=? g) && (g <=? 1000).
Definition yoffs (big : bool) : list (Z * Z) := if big then combine sm_yoffN512 sm_yoffF512 else combine sm_yoffN256 sm_yoffF256.
Definition a_check (big : bool) : bool :=
  forallb (a_check1 (sd_n big) (if big then 7 else 6)) (combine (pows (32 * sm_L big) (sm_alpha big) 1) (combine (a_trans big) (yoffs big)))
  && (length (a_trans big) =? 32 * sm_L big)%nat && (length (yoffs big) =? 32 * sm_L big)%nat.
Lemma a_check_ok : forall big, a_check big = true.
Proof. intros [|]; vm_compute; reflexivity. Qed.
Lemma dot_unit' : forall i xs k n, (k <= i)%nat -> (length xs = n)%nat -> dot (map (fun j => if (j =? i)%nat then 1 else 0) (seq k n)) xs = nth (i - k) xs 0.
Proof.
  intros i xs. induction xs as [|x xs IH]; intros k n Hk <-; [destruct (i - k)%nat; reflexivity|]. cbn [length seq map]. unfold dot in *. cbn [combine map fold_right fst snd].
  destruct (Nat.eqb_spec k i) as [->|NE].
  - rewrite Nat.sub_diag. cbn [nth]. clear IH. assert (Z0 : forall l m, (i < m)%nat -> fold_right Z.add 0 (map (fun p : Z * Z => fst p * snd p) (combine (map (fun j => if (j =? i)%nat then 1 else 0) (seq m (length l))) l)) = 0).
    { induction l as [|y l IH]; intros m Hm; [reflexivity|]. cbn [length seq map combine fold_right fst snd]. rewrite IH by lia. destruct (Nat.eqb_spec m i); [lia|]. lia. }
    rewrite Z0 by lia. lia.
  - rewrite IH by (reflexivity || lia). replace (i - k)%nat with (S (i - S k)) by lia. cbn [nth]. lia.
Qed.
Lemma r_byte : forall b i, isbytes b -> rel (length b) (map Z.of_N b) (Z.of_N (at_ b i)) (a_byte (length b) i).
Proof.
  intros b i B. unfold a_byte, rel. destruct (Nat.ltb_spec i (length b)) as [H|H]; [|intro E; discriminate E].
  intros _. cbn [a_vec a_bd]. rewrite map_length, seq_length. split; [reflexivity|]. split; [|split; [lia|]].
  - pose proof (proj1 (Forall_forall _ _) B (at_ b i) ltac:(unfold at_; apply nth_In; exact H)) as L. change (at_ b i < 256)%N in L. lia.
  - rewrite dot_unit' by (lia || apply map_length). rewrite Nat.sub_0_r. unfold at_. change 0 with (Z.of_N 0). rewrite map_nth. apply eqm_refl.
Qed.
Lemma r_no : forall n xs z, rel n xs z a_no.
Proof. intros n xs z E. discriminate E. Qed.
Lemma r_init : forall n xs q, Forall2 (rel n xs) q (repeat a_no (length q)).
Proof. intros n xs. induction q as [|z q IH]; cbn [length repeat]; constructor; [apply r_no|exact IH]. Qed.
Definition c_trans (big : bool) (b : list N) (q : list Z) : list Z :=
  if big then sd_trans512 i32ops 0 (fun i => Z.of_N (at_ b i)) sm_alphaTab512 q else sd_trans256 i32ops 0 (fun i => Z.of_N (at_ b i)) sm_alphaTab256 q.
Lemma trans_rel : forall big b q, isbytes b -> (length b = sd_n big)%nat -> (length q = 32 * sm_L big)%nat ->
  Forall2 (rel (sd_n big) (map Z.of_N b)) (c_trans big b q) (a_trans big).
Proof.
  intros big b q B Lb Lq. unfold c_trans, a_trans. destruct big; cbn [sm_L] in *; unfold sd_n in *; cbn [sm_L] in *.
  - apply rl_512; [apply r_add|apply r_sub|apply r_shl|apply r_red|apply r_mul|apply r_no| |].
    + intro i. change (16 * 8)%nat with 128%nat in *. rewrite <- Lb. apply r_byte. exact B.
    + change (32 * 8)%nat with 256%nat in Lq. rewrite <- Lq. apply r_init.
  - apply rl_256; [apply r_add|apply r_sub|apply r_shl|apply r_red|apply r_mul|apply r_no| |].
    + intro i. change (16 * 4)%nat with 64%nat in *. rewrite <- Lb. apply r_byte. exact B.
    + change (32 * 4)%nat with 128%nat in Lq. rewrite <- Lq. apply r_init.
Qed.
Lemma eqm_pow : forall a b k, 0 <= k -> eqm a b -> eqm (a ^ k) (b ^ k).
Proof. intros a b k H E. revert k H. apply natlike_ind; [apply eqm_refl|]. intros k H IH. rewrite !Z.pow_succ_r by exact H. apply eqm_mul; assumption. Qed.
Lemma sqm_ok : forall k b, eqm (sqm k b) (b ^ 2 ^ Z.of_nat k).
Proof.
  induction k as [|k IH]; intro b; cbn [sqm]; [rewrite Z.pow_1_r; apply eqm_refl|]. eapply eqm_trans; [apply IH|].
  rewrite Nat2Z.inj_succ, Z.pow_succ_r, Z.pow_mul_r by lia. rewrite Z.pow_2_r. apply eqm_pow; [apply Z.pow_nonneg; lia|apply eqm_mod].
Qed.
Lemma pows_length : forall n b c, length (pows n b c) = n.
Proof. induction n as [|n IH]; intros; cbn [pows length]; [|rewrite IH]; reflexivity. Qed.
Lemma pows_nth : forall n b c j, (j < n)%nat -> eqm (nth j (pows n b c) 0) (c * b ^ Z.of_nat j).
Proof.
  induction n as [|n IH]; intros b c j H; [lia|]. destruct j as [|j]; cbn [pows nth]; [change (Z.of_nat 0) with 0; rewrite Z.pow_0_r, Z.mul_1_r; apply eqm_refl|].
  eapply eqm_trans; [apply IH; lia|]. rewrite Nat2Z.inj_succ, Z.pow_succ_r by lia. eapply eqm_trans; [apply eqm_mul; [apply eqm_mod|apply eqm_refl]|]. unfold eqm. f_equal. ring.
Qed.
Lemma pows_nth_lt : forall n b c j, 0 <= c < 257 -> (j < n)%nat -> 0 <= nth j (pows n b c) 0 < 257.
Proof. induction n as [|n IH]; intros b c j H Hj; [lia|]. destruct j as [|j]; cbn [pows nth]; [exact H|]. apply IH; [apply Z.mod_pos_bound; lia|lia]. Qed.
Lemma eval_dot : forall b x c, eqm (dot (pows (length x) b c) x) (c * sm_eval b x).
Proof.
  intro b. induction x as [|y x IH]; intro c; [unfold dot, sm_eval; cbn [length pows combine map fold_right]; rewrite Z.mul_0_r; apply eqm_refl|].
  specialize (IH ((c * b) mod 257)). unfold dot, sm_eval in *. cbn [length pows combine map fold_right fst snd].
  eapply eqm_trans; [apply eqm_add; [apply eqm_refl|exact IH]|]. apply eqm_sym. eapply eqm_trans; [apply eqm_mul; [apply eqm_refl|apply eqm_mod]|]. apply eqm_sym.
  eapply eqm_trans; [apply eqm_add; [apply eqm_refl|apply eqm_mul; [apply eqm_mod|apply eqm_refl]]|]. unfold eqm. f_equal. ring.
Qed.
Lemma eval_app : forall b u v, eqm (sm_eval b (u ++ v)) (sm_eval b u + b ^ Z.of_nat (length u) * sm_eval b v).
Proof.
  intros b u v. induction u as [|y u IH]; [cbn [app length]; change (Z.of_nat 0) with 0; rewrite Z.pow_0_r; unfold sm_eval at 2; cbn [fold_right]; rewrite Z.add_0_l, Z.mul_1_l; apply eqm_refl|].
  unfold sm_eval in *. cbn [app length fold_right]. rewrite Nat2Z.inj_succ, Z.pow_succ_r by lia. eapply eqm_trans; [apply eqm_mod|].
  eapply eqm_trans; [apply eqm_add; [apply eqm_refl|apply eqm_mul; [apply eqm_refl|exact IH]]|].
  apply eqm_sym. eapply eqm_trans; [apply eqm_add; [apply eqm_mod|apply eqm_refl]|]. unfold eqm. f_equal. ring.
Qed.
Lemma eval_zeros : forall b k, sm_eval b (repeat 0 k) = 0.
Proof. intros b k. induction k as [|k IH]; [reflexivity|]. unfold sm_eval in *. cbn [repeat fold_right]. rewrite IH. rewrite Z.mul_0_r. reflexivity. Qed.
Lemma eval_lt : forall b x, 0 <= sm_eval b x < 257.
Proof. intros b [|y x]; [split; reflexivity|]. unfold sm_eval. cbn [fold_right]. apply Z.mod_pos_bound. reflexivity. Qed.
Lemma eval_tail : forall b big last, eqm (sm_eval b (tailc big last)) (b ^ Z.of_nat (16 * sm_L big - 4) * ((if last then b else 0) + b * (b * b))).
Proof.
  intros b big last. unfold tailc. eapply eqm_trans; [apply eval_app|]. rewrite eval_zeros, repeat_length, Z.add_0_l. apply eqm_mul; [apply eqm_refl|].
  unfold sm_eval. cbn [fold_right]. rewrite Z.mul_0_r, Z.add_0_r. change (1 mod 257) with 1. rewrite Z.mul_1_r, Z.add_0_l.
  eapply eqm_trans; [apply eqm_mod|]. rewrite Z.add_0_l. eapply eqm_trans; [apply eqm_mul; [apply eqm_refl|apply eqm_mod]|].
  eapply eqm_trans; [apply eqm_mul; [apply eqm_refl|apply eqm_add; [apply eqm_refl|apply eqm_mul; [apply eqm_refl|apply eqm_mod]]]|]. unfold eqm. f_equal. destruct last; ring.
Qed.
Lemma fin_ok : forall t, Z.abs t <= 2147483000 -> sd_fin t = sm_signed (t mod 257).
Proof.
  intros t H. unfold sd_fin. cbv zeta. rewrite (i32_small t) by lia. destruct (reds2 t 2147483000 H ltac:(lia)) as (E1 & _ & M1).
  set (u := sd_REDS2 t) in *. clearbody u. pose proof (Z.mod_pos_bound t 65536 ltac:(lia)) as B1. pose proof (Z.div_lt_upper_bound t 65536 32768 ltac:(lia) ltac:(lia)) as B2. pose proof (Z.div_le_lower_bound t 65536 (-32768) ltac:(lia) ltac:(lia)) as B3.
  assert (U : -32768 <= u <= 98302) by lia. clear E1 B1 B2 B3.
  destruct (reds1 u 98302 ltac:(lia) ltac:(lia)) as (E2 & _ & M2). set (w := sd_REDS1 u) in *. clearbody w.
  pose proof (Z.mod_pos_bound u 256 ltac:(lia)) as B1. pose proof (Z.div_lt_upper_bound u 256 384 ltac:(lia) ltac:(lia)) as B2. pose proof (Z.div_le_lower_bound u 256 (-128) ltac:(lia) ltac:(lia)) as B3.
  assert (W : -383 <= w <= 383) by lia.
  destruct (reds1 w 383 ltac:(lia) ltac:(lia)) as (E3 & _ & M3). set (v := sd_REDS1 w) in *. clearbody v.
  pose proof (Z.div_mod w 256 ltac:(lia)) as D. pose proof (Z.mod_pos_bound w 256 ltac:(lia)) as B4.
  assert (V : -1 <= v <= 257) by lia. clear E2 E3 B1 B2 B3 B4 D W U.
  assert (M : eqm v t) by (eapply eqm_trans; [exact M3|eapply eqm_trans; [exact M2|exact M1]]). clear M1 M2 M3 u w H. unfold eqm in M.
  pose proof (Z.mod_pos_bound t 257 ltac:(lia)) as Bt. pose proof (Z.div_mod v 257 ltac:(lia)) as D. rewrite M in D. set (r := t mod 257) in *. clearbody r. clear M.
  set (k := v / 257) in *. clearbody k. unfold sm_signed.
  destruct (Z.leb_spec v 128); destruct (Z.leb_spec r 128); try rewrite i32_small by lia; lia.
Qed.
Lemma zl_eqb_eq : forall a b, zl_eqb a b = true -> a = b.
Proof. induction a as [|x a IH]; intros [|y b] E; try discriminate E; [reflexivity|]. cbn [zl_eqb] in E. apply andb_prop in E. destruct E as [E1 E2]. apply Z.eqb_eq in E1. subst y. f_equal. apply IH, E2. Qed.
Lemma check_at : forall big i, (i < 32 * sm_L big)%nat ->
  a_check1 (sd_n big) (if big then 7%nat else 6%nat) (nth i (pows (32 * sm_L big) (sm_alpha big) 1) 0, (nth i (a_trans big) a_no, nth i (yoffs big) (0, 0))) = true.
Proof.
  intros big i H. pose proof (a_check_ok big) as C. unfold a_check in C. apply andb_prop in C. destruct C as [C L2]. apply andb_prop in C. destruct C as [C L1].
  apply Nat.eqb_eq in L1, L2. revert C L1 L2. generalize (a_trans big) (yoffs big) (a_check1 (sd_n big) (if big then 7%nat else 6%nat)). intros A Y f C L1 L2. rewrite forallb_forall in C. apply C.
  rewrite <- combine_nth by congruence. rewrite <- combine_nth by (rewrite pows_length, combine_length, L1, L2; lia).
  apply nth_In. rewrite !combine_length, pows_length, L1, L2. lia.
Qed.
Lemma rl_nth' : forall A B (R : A -> B -> Prop) l l' d d' i, Forall2 R l l' -> R d d' -> R (nth i l d) (nth i l' d').
Proof. intros A B R l l' d d' i H HD. revert i. induction H; intros [|i]; cbn [nth]; auto. Qed.
Lemma coeffs_tail : forall big last b, sm_coeffs big last b = map Z.of_N b ++ tailc big last.
Proof. reflexivity. Qed.
Lemma eqm_zero : forall a b, (a - b) mod 257 = 0 -> eqm a b.
Proof. intros a b H. apply Z.mod_divide in H; [|lia]. destruct H as [k H]. apply (eqm_of _ _ k). lia. Qed.
Lemma q_at : forall (big last : bool) b q i, isbytes b -> (length b = sd_n big)%nat -> (length q = 32 * sm_L big)%nat -> (i < 32 * sm_L big)%nat ->
  sd_fin (nth i (c_trans big b q) 0 + (if last then snd (nth i (yoffs big) (0, 0)) else fst (nth i (yoffs big) (0, 0)))) = sm_y big last b i.
Proof.
  intros big last b q i B Lb Lq Hi. pose proof (rl_nth' Z av (rel (sd_n big) (map Z.of_N b)) (c_trans big b q) (a_trans big) 0 a_no i (trans_rel big b q B Lb Lq) (r_no _ _ _)) as R. pose proof (check_at big i Hi) as C.
  set (a := nth i (a_trans big) a_no) in *. set (t := nth i (c_trans big b q) 0) in *. set (fg := nth i (yoffs big) (0, 0)) in *. clearbody a t fg. clear Lq q.
  set (bb := nth i (pows (32 * sm_L big) (sm_alpha big) 1) 0) in *.
  assert (EB : bb = (sm_alpha big ^ Z.of_nat i) mod 257).
  { pose proof (pows_nth (32 * sm_L big) (sm_alpha big) 1 i Hi) as E. pose proof (pows_nth_lt (32 * sm_L big) (sm_alpha big) 1 i ltac:(lia) Hi) as E2. fold bb in E, E2. unfold eqm in E. rewrite Z.mul_1_l in E. rewrite (Z.mod_small bb) in E by exact E2. exact E. }
  unfold sm_y. rewrite <- EB, coeffs_tail. clearbody bb. clear EB Hi i.
  destruct fg as [f g]. unfold a_check1 in C. cbn [fst snd] in *.
  apply andb_prop in C. destruct C as [C G3]. apply andb_prop in C. destruct C as [C G2]. apply andb_prop in C. destruct C as [C G1].
  apply andb_prop in C. destruct C as [C F3]. apply andb_prop in C. destruct C as [C F2]. apply andb_prop in C. destruct C as [C F1].
  apply andb_prop in C. destruct C as [C EV]. apply andb_prop in C. destruct C as [OK BD].
  destruct (R OK) as (LV & BT & _ & MT). apply zl_eqb_eq in EV. apply Z.ltb_lt in BD. apply Z.leb_le in F2, F3, G2, G3. apply Z.eqb_eq in F1, G1. apply eqm_zero in F1, G1.
  rewrite fin_ok by (destruct last; lia). f_equal. rewrite <- (Z.mod_small (sm_eval bb (map Z.of_N b ++ tailc big last)) 257) by apply eval_lt. change (eqm (t + (if last then g else f)) (sm_eval bb (map Z.of_N b ++ tailc big last))).
  eapply eqm_trans; [|apply eqm_sym, eval_app]. apply eqm_add.
  - eapply eqm_trans; [exact MT|]. rewrite EV, <- Lb. rewrite <- (map_length Z.of_N b). eapply eqm_trans; [apply eval_dot|]. rewrite Z.mul_1_l. apply eqm_refl.
  - rewrite map_length, Lb. eapply eqm_trans; [|apply eqm_mul; [apply eqm_refl|apply eqm_sym, eval_tail]].
    assert (E4 : eqm (nth (sd_n big - 4) (a_vec a) 0) (bb ^ Z.of_nat (16 * sm_L big - 4))).
    { rewrite EV. eapply eqm_trans; [apply pows_nth; destruct big; unfold sd_n; cbn [sm_L]; lia|]. rewrite Z.mul_1_l. apply eqm_refl. }
    assert (ES : eqm (sqm (if big then 7%nat else 6%nat) bb) (bb ^ Z.of_nat (sd_n big))) by (destruct big; apply sqm_ok).
    assert (EE : eqm (sqm (if big then 7%nat else 6%nat) bb * nth (sd_n big - 4) (a_vec a) 0) (bb ^ Z.of_nat (sd_n big) * bb ^ Z.of_nat (16 * sm_L big - 4))) by (apply eqm_mul; assumption).
    destruct last.
    + eapply eqm_trans; [exact G1|]. eapply eqm_trans; [apply eqm_mul; [exact EE|apply eqm_refl]|]. unfold eqm. f_equal. cbv iota. ring.
    + eapply eqm_trans; [exact F1|]. eapply eqm_trans; [apply eqm_mul; [exact EE|apply eqm_refl]|]. unfold eqm. f_equal. cbv iota. ring.
Qed.
Lemma yoff_split : forall (big last : bool) i, (i < 32 * sm_L big)%nat ->
  nth i (if big then (if last then sm_yoffF512 else sm_yoffN512) else (if last then sm_yoffF256 else sm_yoffN256)) 0 = (if last then snd (nth i (yoffs big) (0, 0)) else fst (nth i (yoffs big) (0, 0))).
Proof.
  intros big last i H. unfold yoffs. destruct big; rewrite combine_nth by reflexivity; destruct last; reflexivity.
Qed.
(** ** the array q is the number theoretic transform of the block, whatever d.q held before *)
Lemma q_ok : forall big last b q, isbytes b -> (length b = sd_n big)%nat -> (length q = 32 * sm_L big)%nat ->
  sd_q big last b q = map (sm_y big last b) (seq 0 (32 * sm_L big)).
Proof.
  intros big last b q B Lb Lq. unfold sd_q. cbv zeta. change sd_L with sm_L. apply map_ext_in. intros i Hi. apply in_seq in Hi.
  rewrite yoff_split by lia. apply q_at; try assumption. lia.
Qed.
(** ** the expanded words *)
Lemma i32_mod : forall z, i32 z mod 4294967296 = z mod 4294967296.
Proof.
  intro z. unfold i32. rewrite Zminus_mod, Z.mod_mod, <- Zminus_mod by lia. f_equal. lia.
Qed.
Lemma inner_ok : forall l h mm, sd_inner l h mm = sm_I mm l h.
Proof.
  intros l h mm. unfold sd_inner, sm_I. rewrite !i32_mod, !(Z.mul_comm mm).
  set (a := l * mm). set (b := h * mm). clearbody a b.
  change 65535%N with (N.ones 16). rewrite N.land_ones, N.shiftl_mul_pow2. unfold add32, w32. change 4294967295%N with (N.ones 32). rewrite !N.land_ones.
  change (2 ^ 16)%N with 65536%N. change (2 ^ 32)%N with 4294967296%N.
  pose proof (Z.mod_pos_bound a 4294967296 ltac:(lia)) as Ba. pose proof (Z.mod_pos_bound b 4294967296 ltac:(lia)) as Bb.
  pose proof (Z.mod_pos_bound a 65536 ltac:(lia)) as Ca. pose proof (Z.mod_pos_bound b 65536 ltac:(lia)) as Cb.
  apply N2Z.inj. rewrite Z2N.id by lia. rewrite !N2Z.inj_mod, N2Z.inj_add, !N2Z.inj_mod, N2Z.inj_mul, !Z2N.id by lia. change (Z.of_N 65536) with 65536. change (Z.of_N 4294967296) with 4294967296.
  replace ((a mod 4294967296) mod 65536) with (a mod 65536) by (symmetry; change 4294967296 with (65536 * 65536); rewrite Z.rem_mul_r by lia; rewrite Z.add_mod, (Z.mul_comm 65536), Z.mod_mul, Z.add_0_r, !Z.mod_mod by lia; reflexivity).
  replace ((b mod 4294967296 * 65536) mod 4294967296) with (65536 * (b mod 65536)).
  - apply Z.mod_small. lia.
  - change 4294967296 with (65536 * 65536). rewrite (Z.mul_comm _ 65536), Z.mul_mod_distr_l by lia. f_equal. rewrite Z.rem_mul_r by lia. rewrite Z.add_mod, (Z.mul_comm 65536), Z.mod_mul, Z.add_0_r, !Z.mod_mod by lia. reflexivity.
Qed.
Local Open Scope nat_scope.
Lemma P_lt : forall t, nth t sm_P 0 < 32.
Proof. intro t. do 32 (destruct t as [|t]; [cbn; lia|]). destruct t; cbn; lia. Qed.
Lemma W_ext : forall big y y' t, (forall k, k < 32 * sm_L big -> y k = y' k) -> sm_W big y t = sm_W big y' t.
Proof.
  intros big y y' t H. unfold sm_W. apply map_ext_in. intros j Hj. apply in_seq in Hj. pose proof (P_lt t) as P. set (i := nth t sm_P 0) in *. clearbody i.
  unfold sm_Zw. cbv zeta. destruct (Nat.ltb_spec i 16); [|destruct (Nat.ltb_spec i 24)]; f_equal; apply H; destruct big; cbn [sm_L] in *; lia.
Qed.
Lemma W_length : forall big y t, length (sm_W big y t) = sm_L big.
Proof. intros. unfold sm_W. rewrite map_length, seq_length. reflexivity. Qed.
Definition sd_w' (big : bool) (g : nat -> Z) (rd : nat) (o1 o2 mm : Z) : list N :=
  let sp := if big then sm_wbp512 else sm_wsp256 in
  flat_map (fun u => let v := nth (u + 8 * rd) sp 0%Z in
    map (fun j => sm_I mm (g (Z.to_nat (v + 2 * Z.of_nat j + o1))) (g (Z.to_nat (v + 2 * Z.of_nat j + o2))))
        (seq 0 (sd_L big))) (seq 0 8).
Lemma w_w' : forall big q rd o1 o2 mm, sd_w big q rd o1 o2 mm = sd_w' big (fun k => nth k q 0%Z) rd o1 o2 mm.
Proof.
  intros. unfold sd_w, sd_w'. cbv zeta. rewrite !flat_map_concat_map. f_equal. apply map_ext. intro u. apply map_ext. intro j. apply inner_ok.
Qed.
Definition sd_wr (big : bool) (q : list Z) (rd : nat) : list N :=
  match rd with
  | 0 => sd_w big q 0 0 1 185 | 1 => sd_w big q 1 0 1 185
  | 2 => if big then sd_w big q 2 (-256) (-128) 233 else sd_w big q 2 (-128) (-64) 233
  | _ => if big then sd_w big q 3 (-383) (-255) 233 else sd_w big q 3 (-191) (-127) 233
  end.
Lemma w_ok : forall big y rd, rd < 4 -> sd_wr big (map y (seq 0 (32 * sm_L big))) rd = flat_map (fun k => sm_W big y (8 * rd + k)) (seq 0 8).
Proof.
  intros big y rd Hrd. set (q := map y (seq 0 (32 * sm_L big))). set (g := fun k => nth k q 0%Z).
  assert (E : flat_map (fun k => sm_W big y (8 * rd + k)) (seq 0 8) = flat_map (fun k => sm_W big g (8 * rd + k)) (seq 0 8)).
  { rewrite !flat_map_concat_map. f_equal. apply map_ext. intro k. apply W_ext. intros i Hi. unfold g, q. rewrite (nth_indep _ 0%Z (y 0)) by (rewrite map_length, seq_length; exact Hi).
    rewrite map_nth, seq_nth by exact Hi. reflexivity. }
  rewrite E. clear E. unfold sd_wr. rewrite !w_w'. fold g. clearbody g. clear q y.
  destruct big; do 4 (destruct rd as [|rd]; [lazy -[sm_I]; reflexivity|]); lia.
Qed.
(** ** the steps *)
Lemma if_ok : forall a b c, sd_if a b c = sm_IF a b c.
Proof. intros. unfold sd_if, sm_IF. apply N.bits_inj. intro i. rewrite N.lxor_spec, N.land_spec, N.lxor_spec, N.lor_spec, N.land_spec, N.ldiff_spec. destruct (N.testbit a i), (N.testbit b i), (N.testbit c i); reflexivity. Qed.
Lemma maj_ok : forall a b c, sd_maj a b c = sm_MAJ a b c.
Proof. intros. unfold sd_maj, sm_MAJ. apply N.bits_inj. intro i. rewrite !N.lor_spec, !N.land_spec, N.lor_spec. destruct (N.testbit a i), (N.testbit b i), (N.testbit c i); reflexivity. Qed.
Definition okS (big : bool) (S : sm_st) : Prop := let '(A, B, C, D) := S in length A = sm_L big /\ length B = sm_L big /\ length C = sm_L big /\ length D = sm_L big.
Definition cat (S : sm_st) : list N := let '(A, B, C, D) := S in A ++ B ++ C ++ D.
Definition sd_step' (L : nat) (F : N -> N -> N -> N) (ww : nat -> N) (p p' : N) (pp : nat) (state : list N) : list N :=
  let tA := map (fun i => rotl32 (at_ state i) p) (seq 0 L) in
  fold_left (fun s i =>
    let tmp := add32 (add32 (at_ s (3 * L + i)) (ww i)) (F (at_ s i) (at_ s (L + i)) (at_ s (2 * L + i))) in
    let s := upd s i (add32 (rotl32 tmp p') (at_ tA (Nat.lxor pp i))) in
    let s := upd s (3 * L + i) (at_ s (2 * L + i)) in
    let s := upd s (2 * L + i) (at_ s (L + i)) in
    upd s (L + i) (at_ tA i)) (seq 0 L) state.
Definition sm_step' (L : nat) (F : N -> N -> N -> N) (r s : N) (k : nat) (ww : nat -> N) (S : sm_st) : sm_st :=
  let '(A, B, C, D) := S in
  (map (fun j => add32 (rotl32 (add32 (add32 (at_ D j) (ww j)) (F (at_ A j) (at_ B j) (at_ C j))) s)
                       (rotl32 (at_ A (Nat.lxor j k)) r)) (seq 0 L),
   map (fun a => rotl32 a r) A, B, C).
Definition pp_ok (L pp : nat) : Prop := pp < L.
Lemma step'_ok : forall big F ww p p' pp S, okS big S -> pp < sm_L big ->
  sd_step' (sm_L big) F ww p p' pp (cat S) = cat (sm_step' (sm_L big) F p p' pp ww S).
Proof.
  intros big F ww p p' pp [[[A B] C] D] (LA & LB & LC & LD) HP. destruct big; cbn [sm_L] in *.
  - destr_list A LA 8. destr_list B LB 8. destr_list C LC 8. destr_list D LD 8. do 8 (destruct pp as [|pp]; [lazy -[add32 rotl32]; reflexivity|]). lia.
  - destr_list A LA 4. destr_list B LB 4. destr_list C LC 4. destr_list D LD 4. do 4 (destruct pp as [|pp]; [lazy -[add32 rotl32]; reflexivity|]). lia.
Qed.
Lemma fold_ext : forall A B (f g : A -> B -> A) l a, (forall x b, In b l -> f x b = g x b) -> fold_left f l a = fold_left g l a.
Proof. intros A B f g. induction l as [|b l IH]; intros a H; [reflexivity|]. cbn [fold_left]. rewrite H by (left; reflexivity). apply IH. intros. apply H. right. assumption. Qed.
Lemma step_ok : forall big Fm F w wr k p p' pp S, okS big S -> pp < sm_L big -> (forall a b c, Fm a b c = F a b c) -> (forall i, i < sm_L big -> at_ w (k * sm_L big + i) = at_ wr i) ->
  sd_step (sm_L big) Fm w k p p' pp (cat S) = cat (sm_step (sm_L big) F p p' pp wr S).
Proof.
  intros big Fm F w wr k p p' pp S HS HP HF HW. change (sm_step (sm_L big) F p p' pp wr S) with (sm_step' (sm_L big) F p p' pp (at_ wr) S). rewrite <- step'_ok by assumption.
  unfold sd_step, sd_step'. cbv zeta. apply fold_ext. intros s i Hi. apply in_seq in Hi. rewrite HF, HW by lia. reflexivity.
Qed.
Lemma okS_step : forall big F r s k w S, okS big S -> okS big (sm_step (sm_L big) F r s k w S).
Proof. intros big F r s k w [[[A B] C] D] (LA & LB & LC & LD). unfold sm_step, okS. rewrite !map_length, seq_length. auto. Qed.
Lemma at_flat : forall (g : nat -> list N) L n k i, (forall j, length (g j) = L) -> k < n -> i < L -> at_ (flat_map g (seq 0 n)) (k * L + i) = at_ (g k) i.
Proof.
  intros g L n k i HL. revert g k HL. induction n as [|n IH]; intros g k HL Hk Hi; [lia|]. cbn [seq flat_map]. unfold at_ in *. destruct k as [|k].
  - cbn [Nat.mul Nat.add]. rewrite app_nth1 by (rewrite HL; exact Hi). reflexivity.
  - rewrite app_nth2 by (rewrite HL; lia). rewrite HL. replace (S k * L + i - L) with (k * L + i) by lia. rewrite <- seq_shift, flat_map_concat_map, map_map, <- flat_map_concat_map.
    rewrite (IH (fun j => g (S j))) by (lia || intro; apply HL). reflexivity.
Qed.
Lemma at_slice : forall (h : list N) L k i, i < L -> at_ h (k * L + i) = at_ (firstn L (skipn (L * k) h)) i.
Proof.
  intros h L k i Hi. unfold at_. rewrite (Nat.mul_comm k L). destruct (Nat.lt_ge_cases (L * k + i) (length h)) as [H|H].
  - rewrite <- (firstn_skipn (L * k) h) at 1. rewrite app_nth2; rewrite firstn_length_le by lia; [|lia]. replace (L * k + i - L * k) with i by lia.
    rewrite <- (firstn_skipn L (skipn (L * k) h)) at 1. rewrite app_nth1; [reflexivity|]. rewrite firstn_length, skipn_length. lia.
  - rewrite (nth_overflow h) by exact H. symmetry. apply nth_overflow. rewrite firstn_length, skipn_length. lia.
Qed.
Lemma okS_t : forall big y h S t, okS big S -> okS big (sm_tstep big y h S t).
Proof. intros. unfold sm_tstep. cbv zeta. apply okS_step. assumption. Qed.
Lemma round_ok : forall big y h S rd, okS big S -> rd < 4 ->
  sd_oneRound big (flat_map (fun k => sm_W big y (8 * rd + k)) (seq 0 8)) (if big then rd else nth rd [0; 2; 1; 0] 0)
    (at_ (nth rd sm_rot []) 0) (at_ (nth rd sm_rot []) 1) (at_ (nth rd sm_rot []) 2) (at_ (nth rd sm_rot []) 3) (cat S) =
  cat (fold_left (sm_tstep big y h) (seq (8 * rd) 8) S).
Proof.
  intros big y h S rd HS Hrd. unfold sd_oneRound. cbv zeta. change (sd_L big) with (sm_L big). set (w := flat_map (fun k => sm_W big y (8 * rd + k)) (seq 0 8)).
  assert (HW : forall k i, k < 8 -> i < sm_L big -> at_ w (k * sm_L big + i) = at_ (sm_W big y (8 * rd + k)) i) by (intros; unfold w; exact (at_flat (fun k => sm_W big y (8 * rd + k)) (sm_L big) 8 k i ltac:(intro; apply W_length) ltac:(assumption) ltac:(assumption))).
  clearbody w.
  assert (G : forall S k Fm, okS big S -> k < 8 -> Fm = (if k <? 4 then sd_if else sd_maj) ->
     sd_step (sm_L big) Fm w k (at_ (nth rd sm_rot []) (k mod 4)) (at_ (nth rd sm_rot []) ((k + 1) mod 4)) (nth ((if big then rd else nth rd [0; 2; 1; 0] 0) + k) (if big then sm_pp8k512 else sm_pp4k256) 0) (cat S)
     = cat (sm_tstep big y h S (8 * rd + k))).
  { clear S HS. intros S k Fm HS Hk ->. unfold sm_tstep. cbv zeta.
    assert (E1 : nth (Nat.min ((8 * rd + k) / 8) 3) sm_rot [] = nth rd sm_rot []) by (replace ((8 * rd + k) / 8) with rd by (symmetry; rewrite Nat.mul_comm, Nat.div_add_l, Nat.div_small by lia; lia); rewrite Nat.min_l by lia; reflexivity).
    assert (E2 : (8 * rd + k) mod 4 = k mod 4) by (replace (8 * rd + k) with (k + (2 * rd) * 4) by lia; apply Nat.mod_add; lia).
    assert (E3 : (8 * rd + k + 1) mod 4 = (k + 1) mod 4) by (replace (8 * rd + k + 1) with (k + 1 + (2 * rd) * 4) by lia; apply Nat.mod_add; lia).
    assert (E4 : (8 * rd + k) mod 8 = k) by (replace (8 * rd + k) with (k + rd * 8) by lia; rewrite Nat.mod_add by lia; apply Nat.mod_small; lia).
    assert (E5 : (8 * rd + k <? 32) = true) by (apply Nat.ltb_lt; lia).
    rewrite E1, E2, E3, E4, E5. cbn [andb].
    assert (E6 : nth ((if big then rd else nth rd [0; 2; 1; 0] 0) + k) (if big then sm_pp8k512 else sm_pp4k256) 0 = nth ((8 * rd + k) mod length (sm_perm big)) (sm_perm big) 0 /\ nth ((8 * rd + k) mod length (sm_perm big)) (sm_perm big) 0 < sm_L big).
    { clear - Hrd Hk. destruct big; do 4 (destruct rd as [|rd]; [do 8 (destruct k as [|k]; [split; [reflexivity|apply Nat.ltb_lt; reflexivity]|]); lia|]); lia. }
    destruct E6 as [E6 E7]. rewrite E6. apply step_ok; [exact HS|exact E7| |intros i Hi; apply HW; assumption].
    intros a b c. destruct (Nat.ltb_spec k 4); destruct (Nat.leb_spec 4 k); try lia; [apply if_ok|apply maj_ok]. }
  assert (ES : seq (8 * rd) 8 = [8 * rd + 0; 8 * rd + 1; 8 * rd + 2; 8 * rd + 3; 8 * rd + 4; 8 * rd + 5; 8 * rd + 6; 8 * rd + 7]) by (cbn [seq]; repeat (apply f_equal2; [lia|]); reflexivity).
  rewrite ES. clear ES. cbn [fold_left].
  pose proof (G S 0 sd_if HS ltac:(lia) eq_refl) as G0. change (0 mod 4) with 0 in G0. change ((0 + 1) mod 4) with 1 in G0. rewrite G0. clear G0. pose proof (okS_t big y h S (8 * rd + 0) HS) as H1.
  set (S1 := sm_tstep big y h S (8 * rd + 0)) in *. clearbody S1. clear HS S.
  pose proof (G S1 1 sd_if H1 ltac:(lia) eq_refl) as G0. change (1 mod 4) with 1 in G0. change ((1 + 1) mod 4) with 2 in G0. rewrite G0. clear G0. pose proof (okS_t big y h S1 (8 * rd + 1) H1) as H2.
  set (S2 := sm_tstep big y h S1 (8 * rd + 1)) in *. clearbody S2. clear H1 S1.
  pose proof (G S2 2 sd_if H2 ltac:(lia) eq_refl) as G0. change (2 mod 4) with 2 in G0. change ((2 + 1) mod 4) with 3 in G0. rewrite G0. clear G0. pose proof (okS_t big y h S2 (8 * rd + 2) H2) as H3.
  set (S3 := sm_tstep big y h S2 (8 * rd + 2)) in *. clearbody S3. clear H2 S2.
  pose proof (G S3 3 sd_if H3 ltac:(lia) eq_refl) as G0. change (3 mod 4) with 3 in G0. change ((3 + 1) mod 4) with 0 in G0. rewrite G0. clear G0. pose proof (okS_t big y h S3 (8 * rd + 3) H3) as H4.
  set (S4 := sm_tstep big y h S3 (8 * rd + 3)) in *. clearbody S4. clear H3 S3.
  pose proof (G S4 4 sd_maj H4 ltac:(lia) eq_refl) as G0. change (4 mod 4) with 0 in G0. change ((4 + 1) mod 4) with 1 in G0. rewrite G0. clear G0. pose proof (okS_t big y h S4 (8 * rd + 4) H4) as H5.
  set (S5 := sm_tstep big y h S4 (8 * rd + 4)) in *. clearbody S5. clear H4 S4.
  pose proof (G S5 5 sd_maj H5 ltac:(lia) eq_refl) as G0. change (5 mod 4) with 1 in G0. change ((5 + 1) mod 4) with 2 in G0. rewrite G0. clear G0. pose proof (okS_t big y h S5 (8 * rd + 5) H5) as H6.
  set (S6 := sm_tstep big y h S5 (8 * rd + 5)) in *. clearbody S6. clear H5 S5.
  pose proof (G S6 6 sd_maj H6 ltac:(lia) eq_refl) as G0. change (6 mod 4) with 2 in G0. change ((6 + 1) mod 4) with 3 in G0. rewrite G0. clear G0. pose proof (okS_t big y h S6 (8 * rd + 6) H6) as H7.
  set (S7 := sm_tstep big y h S6 (8 * rd + 6)) in *. clearbody S7. clear H6 S6.
  pose proof (G S7 7 sd_maj H7 ltac:(lia) eq_refl) as G0. change (7 mod 4) with 3 in G0. change ((7 + 1) mod 4) with 0 in G0. exact G0.
Qed.
Lemma fold_okS : forall big y h l S, okS big S -> okS big (fold_left (sm_tstep big y h) l S).
Proof. intros big y h. induction l as [|t l IH]; intros S HS; [exact HS|]. cbn [fold_left]. apply IH, okS_t, HS. Qed.
Lemma final_ok : forall big y h S k, okS big S -> k < 4 ->
  sd_step (sm_L big) sd_if h k (at_ [4; 13; 10; 25]%N k) (at_ [4; 13; 10; 25]%N ((k + 1) mod 4)) (nth k (if big then [5; 7; 4; 1] else [3; 1; 2; 3]) 0) (cat S) = cat (sm_tstep big y h S (32 + k)).
Proof.
  intros big y h S k HS Hk. unfold sm_tstep. cbv zeta.
  assert (E1 : nth (Nat.min ((32 + k) / 8) 3) sm_rot [] = [4; 13; 10; 25]%N) by (do 4 (destruct k as [|k]; [reflexivity|]); lia).
  assert (E2 : (32 + k) mod 4 = k) by (do 4 (destruct k as [|k]; [reflexivity|]); lia).
  assert (E3 : (32 + k + 1) mod 4 = (k + 1) mod 4) by (do 4 (destruct k as [|k]; [reflexivity|]); lia).
  assert (E5 : (32 + k <? 32) = false) by (apply Nat.ltb_ge; lia).
  rewrite E1, E2, E3, E5. cbn [andb]. replace (32 + k - 32) with k by lia.
  assert (E6 : nth k (if big then [5; 7; 4; 1] else [3; 1; 2; 3]) 0 = nth ((32 + k) mod length (sm_perm big)) (sm_perm big) 0 /\ nth ((32 + k) mod length (sm_perm big)) (sm_perm big) 0 < sm_L big).
  { clear - Hk. destruct big; do 4 (destruct k as [|k]; [split; [reflexivity|apply Nat.ltb_lt; reflexivity]|]); lia. }
  destruct E6 as [E6 E7]. rewrite E6. apply step_ok; [exact HS|exact E7|apply if_ok|]. intros i Hi. apply at_slice. exact Hi.
Qed.
(** ** the compression function *)
Definition inv (big : bool) (st : list N * list Z) (h : list N) : Prop := fst st = h /\ length h = 4 * sm_L big /\ length (snd st) = 32 * sm_L big.
Lemma compress_ok : forall big st b last h, inv big st h -> isbytes b -> length b = sd_n big ->
  inv big (sd_compress big st b last) (sm_compress big h b last).
Proof.
  intros big [h0 q] b last h (<- & Lh & Lq) B Lb. cbn [fst snd] in *. unfold sd_compress. cbv zeta. cbn [fst snd].
  rewrite (q_ok big last b q B Lb Lq). clear Lq q. set (y := sm_y big last b). change (sd_L big) with (sm_L big).
  unfold sm_compress. cbv zeta. fold y. set (X := map (fun k => N.lxor (at_ h0 k) (le_val (firstn 4 (skipn (4 * k) b)))) (seq 0 (4 * sm_L big))).
  assert (LX : length X = 4 * sm_L big) by (unfold X; rewrite map_length, seq_length; reflexivity). clearbody X.
  set (S := (firstn (sm_L big) X, firstn (sm_L big) (skipn (sm_L big) X), firstn (sm_L big) (skipn (2 * sm_L big) X), skipn (3 * sm_L big) X)).
  assert (HS : okS big S) by (unfold S, okS; rewrite !firstn_length, !skipn_length; lia).
  assert (EX : X = cat S).
  { unfold S, cat. rewrite <- (firstn_skipn (sm_L big) X) at 1. f_equal. rewrite <- (firstn_skipn (sm_L big) (skipn (sm_L big) X)) at 1. f_equal.
    rewrite Base.skipn_skipn. replace (sm_L big + sm_L big) with (2 * sm_L big) by lia. rewrite <- (firstn_skipn (sm_L big) (skipn (2 * sm_L big) X)) at 1. f_equal. rewrite Base.skipn_skipn. f_equal. lia. }
  rewrite EX. clear EX LX. clearbody S. clear X.
  pose proof (w_ok big y 0 ltac:(lia)) as W0. pose proof (w_ok big y 1 ltac:(lia)) as W1. pose proof (w_ok big y 2 ltac:(lia)) as W2. pose proof (w_ok big y 3 ltac:(lia)) as W3.
  unfold sd_wr in W0, W1, W2, W3. set (Q := map y (seq 0 (32 * sm_L big))) in *.
  assert (LQ : length Q = 32 * sm_L big) by (unfold Q; rewrite map_length, seq_length; reflexivity). clearbody Q.
  rewrite W0, W1, W2, W3. clear W0 W1 W2 W3.
  assert (SQ : seq 0 36 = seq (8 * 0) 8 ++ seq (8 * 1) 8 ++ seq (8 * 2) 8 ++ seq (8 * 3) 8 ++ [32 + 0; 32 + 1; 32 + 2; 32 + 3]) by reflexivity. rewrite SQ, !fold_left_app. clear SQ.
  pose proof (round_ok big y h0 S 0 HS ltac:(lia)) as R. cbn [nth] in R. replace (if big then 0 else 0) with 0 in R by (destruct big; reflexivity). unfold sm_rot, at_ in R. cbn [nth] in R. rewrite R. clear R.
  pose proof (fold_okS big y h0 (seq (8 * 0) 8) S HS) as H1. set (S1 := fold_left (sm_tstep big y h0) (seq (8 * 0) 8) S) in *. clearbody S1. clear HS S.
  pose proof (round_ok big y h0 S1 1 H1 ltac:(lia)) as R. unfold sm_rot, at_ in R. cbn [nth] in R. rewrite R. clear R.
  pose proof (fold_okS big y h0 (seq (8 * 1) 8) S1 H1) as H2. set (S2 := fold_left (sm_tstep big y h0) (seq (8 * 1) 8) S1) in *. clearbody S2. clear H1 S1.
  pose proof (round_ok big y h0 S2 2 H2 ltac:(lia)) as R. unfold sm_rot, at_ in R. cbn [nth] in R. rewrite R. clear R.
  pose proof (fold_okS big y h0 (seq (8 * 2) 8) S2 H2) as H3. set (S3 := fold_left (sm_tstep big y h0) (seq (8 * 2) 8) S2) in *. clearbody S3. clear H2 S2.
  pose proof (round_ok big y h0 S3 3 H3 ltac:(lia)) as R. unfold sm_rot, at_ in R. cbn [nth] in R. rewrite R. clear R.
  pose proof (fold_okS big y h0 (seq (8 * 3) 8) S3 H3) as H4. set (S4 := fold_left (sm_tstep big y h0) (seq (8 * 3) 8) S3) in *. clearbody S4. clear H3 S3.
  cbn [fold_left].
  pose proof (final_ok big y h0 S4 0 H4 ltac:(lia)) as R. change ((0 + 1) mod 4) with 1 in R. unfold at_ in R. cbn [nth] in R. replace (nth 0 (if big then [5; 7; 4; 1] else [3; 1; 2; 3]) 0) with (if big then 5 else 3) in R by (destruct big; reflexivity). rewrite R. clear R.
  pose proof (okS_t big y h0 S4 (32 + 0) H4) as H5. set (S5 := sm_tstep big y h0 S4 (32 + 0)) in *. clearbody S5. clear H4 S4.
  pose proof (final_ok big y h0 S5 1 H5 ltac:(lia)) as R. change ((1 + 1) mod 4) with 2 in R. unfold at_ in R. cbn [nth] in R. replace (nth 1 (if big then [5; 7; 4; 1] else [3; 1; 2; 3]) 0) with (if big then 7 else 1) in R by (destruct big; reflexivity). rewrite R. clear R.
  pose proof (okS_t big y h0 S5 (32 + 1) H5) as H6. set (S6 := sm_tstep big y h0 S5 (32 + 1)) in *. clearbody S6. clear H5 S5.
  pose proof (final_ok big y h0 S6 2 H6 ltac:(lia)) as R. change ((2 + 1) mod 4) with 3 in R. unfold at_ in R. cbn [nth] in R. replace (nth 2 (if big then [5; 7; 4; 1] else [3; 1; 2; 3]) 0) with (if big then 4 else 2) in R by (destruct big; reflexivity). rewrite R. clear R.
  pose proof (okS_t big y h0 S6 (32 + 2) H6) as H7. set (S7 := sm_tstep big y h0 S6 (32 + 2)) in *. clearbody S7. clear H6 S6.
  pose proof (final_ok big y h0 S7 3 H7 ltac:(lia)) as R. change ((3 + 1) mod 4) with 0 in R. unfold at_ in R. cbn [nth] in R. replace (nth 3 (if big then [5; 7; 4; 1] else [3; 1; 2; 3]) 0) with (if big then 1 else 3) in R by (destruct big; reflexivity). rewrite R. clear R.
  pose proof (okS_t big y h0 S7 (32 + 3) H7) as H8. set (S8 := sm_tstep big y h0 S7 (32 + 3)) in *. clearbody S8. clear H7 S7.
  destruct S8 as [[[A Bb] C] D]. destruct H8 as (LA & LB & LC & LD). unfold inv. cbn [fst snd cat]. split; [reflexivity|]. split; [rewrite !app_length; lia|exact LQ].
Qed.
(** ** the initial values *)
Definition sd_n_ok (big : bool) (hs : nat) : Prop := (big = false /\ (hs = 28 \/ hs = 32)) \/ (big = true /\ (hs = 48 \/ hs = 64)).
Lemma iv_via_model : forall hs b, sm_ascii (sm_name hs) ++ zeros (16 * sm_L (sm_big hs) - 13) = b -> forallb (fun x => (x <? 256)%N) b = true -> length b = sd_n (sm_big hs) ->
  sm_iv hs = fst (sd_compress (sm_big hs) (repeat 0%N (4 * sm_L (sm_big hs)), repeat 0%Z (32 * sm_L (sm_big hs))) b false).
Proof.
  intros hs b E B L. unfold sm_iv. cbv zeta. rewrite E. symmetry.
  refine (proj1 (compress_ok (sm_big hs) _ b false _ _ _ L)).
  - split; [reflexivity|]. split; [apply repeat_length|]. cbn [snd]. apply repeat_length.
  - apply Forall_forall. intros x Hx. rewrite forallb_forall in B. apply N.ltb_lt, B, Hx.
Qed.
(** C130: the four initial values of sbox.go are the compression of the version strings *)
Theorem C130_simd_iv : sm_iv224 = sm_iv 28 /\ sm_iv256 = sm_iv 32 /\ sm_iv384 = sm_iv 48 /\ sm_iv512 = sm_iv 64.
Proof.
  split; [|split; [|split]].
  - rewrite (iv_via_model 28 _ eq_refl) by (vm_compute; reflexivity). vm_compute. reflexivity.
  - rewrite (iv_via_model 32 _ eq_refl) by (vm_compute; reflexivity). vm_compute. reflexivity.
  - rewrite (iv_via_model 48 _ eq_refl) by (vm_compute; reflexivity). vm_compute. reflexivity.
  - rewrite (iv_via_model 64 _ eq_refl) by (vm_compute; reflexivity). vm_compute. reflexivity.
Qed.
Lemma iv_ok : forall big hs, sd_n_ok big hs -> sd_iv hs = sm_iv hs /\ sm_big hs = big.
Proof.
  destruct C130_simd_iv as (E1 & E2 & E3 & E4). intros big hs [[-> [-> | ->]]|[-> [-> | ->]]]; (split; [unfold sd_iv; cbn [Nat.eqb]; assumption|reflexivity]).
Qed.
Lemma iv_length : forall big hs, sd_n_ok big hs -> length (sd_iv hs) = 4 * sm_L big.
Proof. intros big hs [[-> [-> | ->]]|[-> [-> | ->]]]; reflexivity. Qed.
(** ** the digests *)
Definition sd_rel (big : bool) (hs : nat) (d : dig (list N * list Z)) (m : list N) : Prop :=
  dig_rel (sd_bs big) (sd_block big) (sd_iv hs, repeat 0%Z (32 * sd_L big)) 1 d m.
Lemma bs_pos : forall big, 0 < sd_bs big.
Proof. intros [|]; unfold sd_bs; cbn [sd_L]; lia. Qed.
Lemma sd_n_bs : forall big, sd_n big = sd_bs big.
Proof. reflexivity. Qed.
Lemma fold_cons : forall A B (f : A -> B -> A) x l a, fold_left f (x :: l) a = fold_left f l (f a x).
Proof. reflexivity. Qed.
Lemma fold_inv : forall big l st h, inv big st h -> Forall (fun b => isbytes b /\ length b = sd_n big) l ->
  inv big (fold_left (sd_block big) l st) (fold_left (fun h b => sm_compress big h b false) l h).
Proof.
  intros big. induction l as [|b l IH]; intros st h HI F; [exact HI|]. apply Forall_cons_iff in F. destruct F as [[B L] F].
  assert (I1 : inv big (sd_block big st b) (sm_compress big h b false)) by exact (compress_ok big st b false h HI B L).
  rewrite !fold_cons. exact (IH _ _ I1 F).
Qed.
Lemma chunks_bl : forall n m, 0 < n -> isbytes m -> Forall (fun b => isbytes b /\ length b = n) (chunks n m).
Proof.
  intros n m Hn B. apply Forall_forall. intros c Hc. pose proof (chunks_all_length N n m Hn) as F. rewrite Forall_forall in F. split; [|apply F, Hc].
  unfold chunks in Hc. apply in_map_iff in Hc. destruct Hc as (i & <- & _). apply isbytes_firstn, isbytes_skipn, B.
Qed.
Lemma w64_shl : forall x k, w64 (N.shiftl (w64 x) k) = w64 (N.shiftl x k).
Proof. intros. rewrite !N.shiftl_mul_pow2. apply w64_mul_l. Qed.
Lemma count_ok : forall (big : bool) n,
  add64 (w64 (N.shiftl (w64 n / (if big then 128 else 64)) (if big then 10 else 9))) (w64 (N.shiftl (n mod (if big then 128 else 64)) 3)) = w64 (8 * n).
Proof.
  intros big n. unfold add64. rewrite w64_add_l, w64_add_r. rewrite !N.shiftl_mul_pow2. change (2 ^ 3)%N with 8%N.
  rewrite (w64_mod n). pose proof (N.div_mod n 18446744073709551616 ltac:(lia)) as D. set (n' := (n mod 18446744073709551616)%N) in *. set (q := (n / 18446744073709551616)%N) in *. clearbody n' q.
  rewrite !w64_mod. rewrite <- (N.mod_add (n' / _ * _ + _)%N (8 * q) 18446744073709551616) by lia. f_equal. subst n. destruct big.
  - replace (18446744073709551616 * q + n')%N with (n' + (144115188075855872 * q) * 128)%N by lia. rewrite N.mod_add by lia. change (2 ^ 10)%N with 1024%N. pose proof (N.div_mod n' 128 ltac:(lia)) as E. lia.
  - replace (18446744073709551616 * q + n')%N with (n' + (288230376151711744 * q) * 64)%N by lia. rewrite N.mod_add by lia. change (2 ^ 9)%N with 512%N. pose proof (N.div_mod n' 64 ltac:(lia)) as E. lia.
Qed.
Lemma last_block : forall buf a b, 8 <= length buf -> length a = 4 -> length b = 4 ->
  firstn 8 (copy_at (copy_at buf 0 a) 4 b) ++ zeros (length (copy_at (copy_at buf 0 a) 4 b) - 8) = a ++ b ++ zeros (length buf - 8).
Proof.
  intros buf a b H La Lb. assert (E : length (copy_at (copy_at buf 0 a) 4 b) = length buf) by (rewrite copy_at_length; rewrite copy_at_length; lia). rewrite E. rewrite app_assoc. apply f_equal2; [|reflexivity]. clear E.
  do 8 (destruct buf as [|? buf]; [cbn [length] in H; lia|]). destr_list a La 4. destr_list b Lb 4. reflexivity.
Qed.
Lemma pad_chunks : forall n m, 0 < n ->
  chunks n (m ++ zeros ((n - length m mod n) mod n)) = if length m mod n =? 0 then chunks n m else chunks n m ++ [rest n m ++ zeros (n - length m mod n)].
Proof.
  intros n m Hn. pose proof (Nat.mod_upper_bound (length m) n ltac:(lia)) as B. destruct (Nat.eqb_spec (length m mod n) 0) as [E|E].
  - rewrite E, Nat.sub_0_r, Nat.mod_same by lia. cbn [zeros repeat]. unfold zeros. cbn [repeat]. rewrite app_nil_r. reflexivity.
  - rewrite (Nat.mod_small (n - length m mod n)) by lia. rewrite chunks_app by lia. f_equal. apply chunks_one; [lia|]. rewrite app_length, zeros_length, rest_length by lia. lia.
Qed.
Lemma flat_firstn : forall h k, k <= length h -> flat_map (fun i => le_bytes 4 (at_ h i)) (seq 0 k) = firstn (4 * k) (flat_map (le_bytes 4) h).
Proof.
  induction h as [|x h IH]; intros k H; [cbn [length] in H; replace k with 0 by lia; reflexivity|]. destruct k as [|k]; [reflexivity|].
  cbn [seq flat_map]. rewrite <- seq_shift, flat_map_concat_map, map_map, <- flat_map_concat_map. change (fun i => le_bytes 4 (at_ (x :: h) (S i))) with (fun i => le_bytes 4 (at_ h i)). rewrite IH by (cbn [length] in H; lia).
  replace (4 * S k) with (length (le_bytes 4 (at_ (x :: h) 0)) + 4 * k) by (rewrite le_bytes_length; lia). change (at_ (x :: h) 0) with x. rewrite firstn_app_2. reflexivity.
Qed.
Lemma outs_len : forall h k a, length (flat_map (fun i => le_bytes 4 (at_ h i)) (seq a k)) = 4 * k.
Proof.
  intros h k. induction k as [|k IH]; intro a; [reflexivity|]. cbn [seq flat_map]. rewrite app_length, le_bytes_length, IH. lia.
Qed.
Lemma hs_div : forall big hs, sd_n_ok big hs -> hs = 4 * (hs / 4) /\ hs / 4 <= 4 * sm_L big.
Proof. intros big hs [[-> [-> | ->]]|[-> [-> | ->]]]; cbn [sm_L]; split; try reflexivity; apply Nat.leb_le; reflexivity. Qed.
Lemma checkSum_ok : forall big hs d m, sd_n_ok big hs -> sd_rel big hs d m -> isbytes m -> sd_checkSum big hs d = sm_hash hs m.
Proof.
  intros big hs d m HN (ED & (LX & EP & FX) & EL) B. destruct (iv_ok big hs HN) as [EI EB].
  unfold sd_checkSum, sm_hash. cbv zeta. rewrite EB, <- EI. rewrite EL, N.mul_1_l. change (16 * sm_L big) with (sd_bs big).
  pose proof (bs_pos big) as BP. rewrite rest_length in EP by lia. rewrite EP in *. clear EP. pose proof (Nat.mod_upper_bound (length m) (sd_bs big) ltac:(lia)) as MB.
  assert (CO : add64 (w64 (N.shiftl (w64 (N.of_nat (length m)) / N.of_nat (sd_bs big)) (if big then 10 else 9))) (w64 (N.shiftl (N.of_nat (length m mod sd_bs big)) 3)) = w64 (8 * N.of_nat (length m))).
  { rewrite <- (count_ok big). rewrite Nat2N.inj_mod. destruct big; reflexivity. }
  rewrite CO. clear CO EL.
  assert (E8 : 8 <= sd_bs big) by (destruct big; unfold sd_bs; cbn [sd_L]; lia).
  assert (LB : length (if length m mod sd_bs big =? 0 then dx d else firstn (length m mod sd_bs big) (dx d) ++ zeros (length (dx d) - length m mod sd_bs big)) = sd_bs big).
  { destruct (length m mod sd_bs big =? 0); [exact LX|]. rewrite app_length, zeros_length, firstn_length. lia. }
  rewrite last_block by (rewrite ?LB, ?le_bytes_length; auto). rewrite LB.
  assert (EC : le_bytes 4 (w32 (w64 (8 * N.of_nat (length m)))) ++ le_bytes 4 (w32 (N.shiftr (w64 (8 * N.of_nat (length m))) 32)) ++ zeros (sd_bs big - 8) = le_bytes 8 (8 * N.of_nat (length m)) ++ zeros (sd_bs big - 8)).
  { rewrite !le_bytes4_w32. rewrite <- (le_bytes8_w64 (8 * _)%N). rewrite app_assoc. apply f_equal2; [symmetry; apply (le_bytes_app 4 4)|reflexivity]. }
  rewrite EC. clear EC LB.
  set (lb := le_bytes 8 (8 * N.of_nat (length m)) ++ zeros (sd_bs big - 8)).
  assert (Llb : length lb = sd_n big) by (unfold lb; rewrite app_length, le_bytes_length, zeros_length; change (sd_n big) with (sd_bs big); lia).
  assert (Blb : isbytes lb) by (unfold lb; apply Forall_app; split; [apply le_bytes_isbytes|apply zeros_isbytes]). clearbody lb.
  assert (I0 : inv big (sd_iv hs, repeat 0%Z (32 * sd_L big)) (sd_iv hs)) by (split; [reflexivity|split; [apply iv_length; exact HN|cbn [snd]; apply repeat_length]]).
  pose proof (fold_inv big (chunks (sd_bs big) m) _ _ I0 (chunks_bl _ _ BP B)) as I1. rewrite <- ED in I1. clear ED I0.
  rewrite pad_chunks by exact BP. rewrite FX, LX. clear FX LX.
  set (h1 := fold_left (fun h b => sm_compress big h b false) (chunks (sd_bs big) m) (sd_iv hs)) in *.
  assert (I2 : inv big (if length m mod sd_bs big =? 0 then ds d else sd_compress big (ds d) (rest (sd_bs big) m ++ zeros (sd_bs big - length m mod sd_bs big)) false)
                 (fold_left (fun h b => sm_compress big h b false) (if length m mod sd_bs big =? 0 then chunks (sd_bs big) m else chunks (sd_bs big) m ++ [rest (sd_bs big) m ++ zeros (sd_bs big - length m mod sd_bs big)]) (sd_iv hs))).
  { destruct (length m mod sd_bs big =? 0); [exact I1|]. rewrite fold_left_app. fold h1. cbn [fold_left]. apply compress_ok; [exact I1| |].
    - apply Forall_app. split; [apply isbytes_rest; exact B|apply zeros_isbytes].
    - rewrite app_length, zeros_length, rest_length by lia. change (sd_n big) with (sd_bs big). lia. }
  clear I1. pose proof (compress_ok big _ lb true _ I2 Blb Llb) as (E3 & L3 & _). rewrite E3. clear E3 I2.
  set (h3 := sm_compress big _ lb true) in *. clearbody h3. destruct (hs_div big hs HN) as [H4 H5].
  assert (LF : length (firstn (4 * (hs / 4)) (flat_map (le_bytes 4) h3)) = hs) by (rewrite <- flat_firstn by lia; rewrite outs_len; lia).
  rewrite flat_firstn by lia. rewrite <- H4 in LF |- *. set (out := firstn hs _) in *. clearbody out. rewrite copy_at_full; rewrite ?zeros_length; try lia.
  rewrite firstn_O, Nat.sub_0_r. cbn [app]. apply firstn_all2. lia.
Qed.
Lemma write_sd : forall big hs d m p, sd_rel big hs d m -> sd_rel big hs (fst (sd_write big d p)) (m ++ p) /\ snd (sd_write big d p) = length p.
Proof. intros big hs d m p H. split; [apply (write_pre_rel (sd_bs big) (sd_block big) (bs_pos big)); exact H|apply write_pre_count]. Qed.
Lemma reset_sd : forall big hs, sd_rel big hs (sd_reset big hs) [].
Proof. intros. apply dig_rel_new; [apply bs_pos|apply zeros_length]. Qed.
(** C129: every history of the four SIMD digests *)
Theorem C129_simd_history : forall big hs ops, sd_n_ok big hs -> Forall op_bytes ops -> run (sd_impl big hs) (sd_reset big hs) ops = ideal_run (sm_hash hs) [] ops.
Proof.
  intros big hs ops HN HF. apply (run_refines_bytes _ (sd_impl big hs) (sm_hash hs) (fun d m => sd_rel big hs d m /\ isbytes m)).
  - intros d m p Bp [R B]. split; [apply (write_sd big hs d m p R)|apply Forall_app; split; assumption].
  - intros d m p Bp [R B]. apply (write_sd big hs d m p R).
  - intros d m i H. exact H.
  - intros d m i [R B]. cbn [sd_impl i_sum snd]. f_equal. apply checkSum_ok; assumption.
  - intros d m _. split; [apply reset_sd|apply Forall_nil].
  - exact HF.
  - split; [apply reset_sd|apply Forall_nil].
Qed.
(** Sum224 .. Sum512 *)
Theorem C129_simd_Sum : forall big hs data, sd_n_ok big hs -> isbytes data -> sd_Sum big hs data = sm_hash hs data.
Proof.
  intros big hs data HN B. unfold sd_Sum. destruct (write_sd big hs (sd_reset big hs) [] data (reset_sd big hs)) as [R _]. cbn [app] in R.
  assert (L : length (sd_checkSum big hs (fst (sd_write big (sd_reset big hs) data))) = hs).
  { unfold sd_checkSum. cbv zeta. rewrite copy_at_length by lia. apply zeros_length. }
  rewrite copy_at_full; rewrite ?zeros_length, ?L; try lia. rewrite firstn_O, Nat.sub_0_r. cbn [app]. rewrite firstn_all2 by lia. apply checkSum_ok; assumption.
Qed.
(** C130: the transform part of compress computes y_i for every block, whatever the scratch array d.q holds, without int32 overflow
    changing a value *)
Theorem C130_simd_transform : forall big last b q, isbytes b -> length b = 16 * sm_L big -> length q = 32 * sm_L big ->
  sd_q big last b q = map (sm_y big last b) (seq 0 (32 * sm_L big)) /\ (forall i, (-128 <= sm_y big last b i <= 128)%Z).
Proof.
  intros big last b q B L Q. split; [apply q_ok; assumption|]. intro i. unfold sm_y, sm_signed. pose proof (eval_lt ((sm_alpha big ^ Z.of_nat i) mod 257) (sm_coeffs big last b)) as H.
  destruct (Z.leb_spec (sm_eval ((sm_alpha big ^ Z.of_nat i) mod 257) (sm_coeffs big last b)) 128); lia.
Qed.
(** C130: one compression, from any chaining value *)
Theorem C130_simd_compress : forall big last h q b, isbytes b -> length b = 16 * sm_L big -> length q = 32 * sm_L big -> length h = 4 * sm_L big ->
  fst (sd_compress big (h, q) b last) = sm_compress big h b last.
Proof. intros big last h q b B L Q H. apply (compress_ok big (h, q) b last h); [split; [reflexivity|split; assumption]|exact B|exact L]. Qed.
(** Known answers (simd_test.go), by the theorem above: the specification computes them *)
Example simd_kat224 : sm_hash 28 [] = be_bytes 28 0x43e1d53656d7b85d10d5499e28afdef90bb497730d2853c8609b534b.
Proof. rewrite <- (checkSum_ok false 28 _ [] (or_introl (conj eq_refl (or_introl eq_refl))) (reset_sd false 28) (Forall_nil _)). vm_compute. reflexivity. Qed.
Example simd_kat512 : firstn 8 (sm_hash 64 []) = [0x51; 0xa5; 0xaf; 0x7e; 0x24; 0x3c; 0xd9; 0xa5]%N.
Proof. rewrite <- (checkSum_ok true 64 _ [] (or_intror (conj eq_refl (or_intror eq_refl))) (reset_sd true 64) (Forall_nil _)). vm_compute. reflexivity. Qed.
Example simd_hyp : sd_n_ok true 48 /\ Forall op_bytes [Write [1; 2]%N; Sum []; Write (repeat 7%N 200); Sum [9]%N; Reset; Sum []].
Proof. split; [right; auto|]. repeat constructor. Qed.
