(** K12P.v -- proofs about the tree part of K12.v (no model definitions here). *)
From Coq Require Import List NArith Arith Lia Bool.
From Verif Require Import Base Words Buf Stream SpecK12 K12 SpongeP.
Import ListNotations.

(** ** right_encode *)
Lemma be_zero : forall k, be_bytes k 0 = zeros k.
Proof.
  intros k. unfold be_bytes. assert (E : le_bytes k 0 = zeros k) by (induction k; [reflexivity|]; cbn [le_bytes]; change (N.shiftr 0 8) with 0%N; rewrite IHk; reflexivity).
  rewrite E. unfold zeros. clear E. induction k; [reflexivity|]. cbn [repeat rev]. rewrite IHk. symmetry. apply (repeat_cons k 0%N).
Qed.
Lemma be8_split : forall k v, k < 8 -> (v < 2 ^ N.of_nat (8 * S k))%N -> (2 ^ N.of_nat (8 * k) <= v)%N ->
  exists b, b <> 0%N /\ be_bytes 8 v = zeros (7 - k) ++ b :: be_bytes k v /\ be_bytes (S k) v = b :: be_bytes k v.
Proof.
  intros k v Hk Hv Hl. exists (N.shiftr v (8 * N.of_nat k)).
  assert (Q0 : N.shiftr v (8 * N.of_nat (S k)) = 0%N) by (rewrite N.shiftr_div_pow2; apply N.div_small; now rewrite Nat2N.inj_mul in Hv).
  assert (Q1 : (1 <= N.shiftr v (8 * N.of_nat k) < 256)%N).
  { rewrite N.shiftr_div_pow2. rewrite Nat2N.inj_mul in Hl, Hv. change (N.of_nat 8) with 8%N in *. split.
    - apply N.div_le_lower_bound; [now apply N.pow_nonzero|]. lia.
    - apply N.div_lt_upper_bound; [now apply N.pow_nonzero|]. replace (8 * N.of_nat (S k))%N with (8 * N.of_nat k + 8)%N in Hv by lia. rewrite N.pow_add_r in Hv. exact Hv. }
  assert (E : be_bytes (S k) v = N.shiftr v (8 * N.of_nat k) :: be_bytes k v).
  { change (S k) with (1 + k). rewrite be_bytes_app. unfold be_bytes at 1. cbn [le_bytes rev app]. f_equal. apply w8_small. lia. }
  split; [lia|]. split; [|exact E]. rewrite <- E. replace 8 with ((7 - k) + S k) by lia. rewrite be_bytes_app, Q0, be_zero. reflexivity.
Qed.
Lemma right_encode_ok : forall v, (v < 2 ^ 64)%N -> k12_rightEncode v = right_encode v.
Proof.
  intros v Hv. destruct (N.eq_dec v 0) as [->|NZ]; [reflexivity|].
  assert (S0 : (2 ^ (N.size v - 1) <= v < 2 ^ N.size v)%N).
  { rewrite N.size_log2 by exact NZ. rewrite N.pow_succ_r', <- N.pow_succ_r'. replace (N.succ (N.log2 v) - 1)%N with (N.log2 v) by lia. apply N.log2_spec. lia. }
  assert (S1 : (1 <= N.size v <= 64)%N).
  { rewrite N.size_log2 by exact NZ. assert (N.log2 v < 64)%N by (apply N.log2_lt_pow2; lia). lia. }
  set (k := byte_count v). assert (HK : 1 <= k <= 8 /\ (8 * (N.of_nat k - 1) <= N.size v - 1)%N /\ (N.size v <= 8 * N.of_nat k)%N).
  { unfold k, byte_count. rewrite N2Nat.id. pose proof (N.div_mod (N.size v + 7) 8 ltac:(lia)). pose proof (N.mod_lt (N.size v + 7) 8 ltac:(lia)).
    set (q := ((N.size v + 7) / 8)%N) in *. set (r := ((N.size v + 7) mod 8)%N) in *. clearbody q r. split; [|split]; lia. }
  unfold right_encode. fold k. clearbody k. destruct k as [|k]; [lia|]. destruct HK as (HK & K1 & K2).
  destruct (be8_split k v ltac:(lia)) as (b & Nb & E8 & EK).
  { apply N.lt_le_trans with (2 ^ N.size v)%N; [tauto|]. apply N.pow_le_mono_r; lia. }
  { apply N.le_trans with (2 ^ (N.size v - 1))%N; [|tauto]. apply N.pow_le_mono_r; lia. }
  rewrite EK. unfold k12_rightEncode. rewrite E8. apply N.eqb_neq in NZ. rewrite NZ. apply N.eqb_neq in Nb.
  assert (LK : length (be_bytes k v) = k) by apply be_bytes_length. set (t := be_bytes k v) in *. clearbody t. clear -LK Nb HK.
  assert (HC : k = 0 \/ k = 1 \/ k = 2 \/ k = 3 \/ k = 4 \/ k = 5 \/ k = 6 \/ k = 7) by lia.
  repeat (destruct HC as [HC|HC]); rewrite HC in *; clear HC;
    repeat (destruct t as [|? t]; [first [discriminate LK | idtac]|first [discriminate LK | cbn [length] in LK; apply Nat.succ_inj in LK]]); try discriminate LK;
    lazy -[N.eqb N.of_nat]; change (0 =? 0)%N with true; rewrite Nb; reflexivity.
Qed.

(** ** The tree *)
Local Notation B := k12_B.
Lemma B_pos : 0 < B.
Proof. vm_compute. lia. Qed.
Lemma BlockSize_B : K12_BlockSize = B.
Proof. reflexivity. Qed.
Global Opaque k12_B K12_BlockSize.

Section K12P.
Variable F : list N -> list N.
Hypothesis HF : forall a, length a = 25 -> length (F a) = 25.
Local Notation srel := (srel F).

Lemma k12_n_unique : forall s n, n * B <= length s - 1 -> length s - 1 < S n * B -> k12_n s = n.
Proof.
  intros s n H1 H2. unfold k12_n. symmetry. apply Nat.div_unique with (r := length s - 1 - n * B); [|rewrite (Nat.mul_comm B n)]; cbn [Nat.mul] in H2; lia.
Qed.
Lemma k12_n_bounds : forall s, k12_n s * B <= length s - 1 < S (k12_n s) * B.
Proof.
  intros s. unfold k12_n. pose proof (Nat.div_mod (length s - 1) B ltac:(pose proof B_pos; lia)) as D. pose proof (Nat.mod_upper_bound (length s - 1) B ltac:(pose proof B_pos; lia)) as M.
  rewrite (Nat.mul_comm B) in D. cbn [Nat.mul]. lia.
Qed.
Definition hdr : list N := [3; 0; 0; 0; 0; 0; 0; 0]%N.
Definition cvs (s : list N) (n : nat) : list N := flat_map (fun i => k12_cv F (k12_chunk s i)) (seq 1 n).
Definition pre (s : list N) (n : nat) : list N := firstn B s ++ hdr ++ cvs s (n - 1).
Lemma chunk_ext : forall m q i, S i * B <= length m -> k12_chunk (m ++ q) i = k12_chunk m i.
Proof.
  intros m q i H. unfold k12_chunk. rewrite skipn_app, firstn_app, skipn_length. cbn [Nat.mul] in H.
  replace (B - (length m - i * B)) with 0 by lia. now rewrite firstn_O, app_nil_r.
Qed.
Lemma cvs_ext : forall m q n, S n * B <= length m -> cvs (m ++ q) n = cvs m n.
Proof.
  intros m q n H. unfold cvs. rewrite !flat_map_concat_map. f_equal. apply map_ext_in. intros i Hi. apply in_seq in Hi.
  rewrite chunk_ext; [reflexivity|]. apply Nat.le_trans with (S n * B); [|exact H]. apply Nat.mul_le_mono_r. lia.
Qed.
Lemma pre_ext : forall m q n, 1 <= n -> n * B <= length m -> pre (m ++ q) n = pre m n.
Proof.
  intros m q n Hn H. unfold pre. assert (B <= length m) by (apply Nat.le_trans with (n * B); [|exact H]; rewrite <- (Nat.mul_1_l B) at 1; now apply Nat.mul_le_mono_r).
  rewrite firstn_app. replace (B - length m) with 0 by lia. rewrite firstn_O, app_nil_r. rewrite cvs_ext; [reflexivity|]. replace (S (n - 1)) with n by lia. exact H.
Qed.
Lemma cvs_S : forall s n, cvs s (S n) = cvs s n ++ k12_cv F (k12_chunk s (S n)).
Proof. intros. unfold cvs. rewrite seq_S, flat_map_app. cbn [flat_map]. now rewrite app_nil_r. Qed.

Definition krel (t : kd) (m : list N) : Prop :=
  kd_sq t = false /\ kd_n t = k12_n m /\ sp_ds (kd_k t) = 0x0b%N /\ kd_w t = length m - k12_n m * B /\
  (k12_n m = 0 -> srel (kd_s t) m /\ srel (kd_k t) []) /\
  (1 <= k12_n m -> srel (kd_s t) (pre m (k12_n m)) /\ srel (kd_k t) (skipn (k12_n m * B) m)).

Lemma krel_new : forall c hs, krel (k12_new c hs) [].
Proof.
  intros c hs. assert (E : k12_n [] = 0) by (apply k12_n_unique; cbn [length Nat.mul]; pose proof B_pos; lia).
  unfold krel. rewrite E. unfold k12_new, k12_Reset. cbn [kd_sq kd_n kd_k kd_w kd_s]. repeat split; try lia; try (intros; lia).
Qed.
Lemma kd_w_le : forall t m, krel t m -> kd_w t <= B.
Proof. intros t m (_ & _ & _ & W & _). pose proof (k12_n_bounds m). cbn [Nat.mul] in *. lia. Qed.

Lemma permute_ds : forall d, sp_ds (sp_permute F d) = sp_ds d.
Proof. intros d. unfold sp_permute. destruct (sp_sq d); reflexivity. Qed.
Lemma pad_ds : forall d, sp_ds (padAndPermute F d) = sp_ds d.
Proof.
  intros d. unfold padAndPermute. set (st := fold_left _ _ _). clearbody st. cbv zeta. cbn [sp_ds]. rewrite permute_ds. reflexivity.
Qed.
Lemma rloop_ds : forall fuel d n, sp_ds (fst (sp_rloop F fuel d n)) = sp_ds d.
Proof.
  clear HF. induction fuel as [|fuel IH]; intros d n; [reflexivity|]. cbn [sp_rloop]. destruct (n =? 0); [reflexivity|].
  match goal with |- sp_ds (fst (let '(_, _) := sp_rloop F fuel ?D ?M in _)) = _ => specialize (IH D M); destruct (sp_rloop F fuel D M) as [d2 r]; cbn [fst snd] in *; rewrite IH end.
  cbn [sp_i]. destruct (_ =? K_rate); [rewrite permute_ds|]; reflexivity.
Qed.
Lemma Read_ds : forall d n, sp_ds (fst (sp_Read F d n)) = sp_ds d.
Proof. intros d n. unfold sp_Read. rewrite rloop_ds. destruct (sp_sq d); [reflexivity|apply pad_ds]. Qed.
Lemma cv_unfold : forall m, k12_cv F m = squeeze (sponge F 0x0b m) 0 32.
Proof. reflexivity. Qed.
Lemma Reset_ds : forall d, sp_ds (sp_Reset d) = sp_ds d.
Proof. reflexivity. Qed.
Lemma sp_Read_cv : forall d m, srel d m -> sp_ds d = 0x0b%N -> snd (sp_Read F d 32) = k12_cv F m /\ srel (sp_Reset (fst (sp_Read F d 32))) [] /\ sp_ds (sp_Reset (fst (sp_Read F d 32))) = 0x0b%N.
Proof.
  intros d m H Hd. destruct (sp_Read_first F HF d m 32 H) as [A Q]. rewrite Reset_ds, Read_ds. split; [rewrite A, Hd; symmetry; apply cv_unfold|].
  split; [eapply qrel_Reset; [exact HF|apply (fin_length F HF (sp_ds d) m)|exact Q]|exact Hd].
Qed.
Opaque sp_Read sp_Write sp_Reset sponge.

(** One iteration of the loop. *)
Lemma part_ok : forall t m q, q <> [] -> krel t m -> kd_w t < B -> kd_w t + length q <= B -> krel (k12_part F t q) (m ++ q) /\ kd_c (k12_part F t q) = kd_c t /\ kd_h (k12_part F t q) = kd_h t.
Proof.
  intros t m q Hq (Hsq & Hn & Hds & Hw & H0 & H1) HB HL. assert (1 <= length q) by (destruct q; [congruence|cbn [length]; lia]).
  pose proof (k12_n_bounds m) as Bd. cbn [Nat.mul] in Bd.
  assert (En : k12_n (m ++ q) = k12_n m) by (apply k12_n_unique; rewrite app_length; cbn [Nat.mul]; lia).
  unfold k12_part. rewrite Hn. destruct (Nat.eqb_spec (k12_n m) 0) as [Z|Z].
  - destruct (H0 Z) as [A C]. destruct (sp_Write_ok F HF _ q _ A) as (W1 & W2 & W3). destruct (sp_Write F (kd_s t) q) as [s w]. cbn [fst snd] in *.
    split; [|split; reflexivity]. unfold krel. cbn [kd_sq kd_n kd_k kd_w kd_s]. rewrite En, Z, app_length. cbn [Nat.mul]. rewrite Z in Hw. cbn [Nat.mul] in Hw. split; [exact Hsq|]. split; [reflexivity|]. split; [exact Hds|]. split; [lia|]. split; [|intros; lia]. intros _. split; assumption.
  - destruct (H1 ltac:(lia)) as [A C]. destruct (sp_Write_ok F HF _ q _ C) as (W1 & W2 & W3). destruct (sp_Write F (kd_k t) q) as [s w]. cbn [fst snd] in *.
    split; [|split; reflexivity]. unfold krel. cbn [kd_sq kd_n kd_k kd_w kd_s]. rewrite En, app_length. split; [exact Hsq|]. split; [reflexivity|]. split; [congruence|]. split; [lia|]. split; [lia|].
    intros _. assert (k12_n m * B <= length m) by lia. rewrite pre_ext by lia. rewrite skipn_app. replace (k12_n m * B - length m) with 0 by lia. split; [exact A|exact W1].
Qed.
Lemma step_ok : forall t m p q r, p <> [] -> krel t m ->
  p = q ++ r -> length q = Nat.min (length p) (K12_BlockSize - kd_w (k12_switch F t)) ->
  krel (k12_part F (k12_switch F t) q) (m ++ q) /\ q <> [] /\ kd_c (k12_part F (k12_switch F t) q) = kd_c t /\ kd_h (k12_part F (k12_switch F t) q) = kd_h t.
Proof.
  intros t m p q r Hp HR E HL. rewrite BlockSize_B in HL. assert (1 <= length p) by (destruct p; [congruence|cbn [length]; lia]).
  pose proof (kd_w_le t m HR) as HW. unfold k12_switch in *. rewrite BlockSize_B in *. destruct (Nat.eqb_spec (kd_w t) B) as [G|G].
  2:{ assert (Q : q <> []) by (intros ->; cbn [length] in HL; lia). destruct (part_ok t m q Q HR ltac:(lia) ltac:(lia)) as (A & C & D). auto. }
  destruct HR as (Hsq & Hn & Hds & Hw & H0 & H1). pose proof B_pos as BP. pose proof (k12_n_bounds m) as Bd. cbn [Nat.mul] in Bd.
  assert (Em : length m = S (k12_n m) * B) by (cbn [Nat.mul]; lia).
  assert (Lq : 1 <= length q <= B).
  { destruct (kd_n t =? 0); [|destruct (sp_Read F (kd_k t) 32)]; cbn [kd_w] in HL; lia. }
  assert (Q : q <> []) by (intros ->; cbn [length] in Lq; lia).
  assert (En : k12_n (m ++ q) = S (k12_n m)) by (apply k12_n_unique; rewrite app_length; cbn [Nat.mul] in *; lia).
  assert (Esk : skipn (S (k12_n m) * B) (m ++ q) = q) by (rewrite skipn_app, <- Em, Nat.sub_diag, skipn_all2 by lia; reflexivity).
  rewrite Hn in *. destruct (Nat.eqb_spec (k12_n m) 0) as [Z|Z].
  - destruct (H0 Z) as [A C]. destruct (sp_Write_ok F HF _ hdr _ A) as (W1 & _ & _). fold hdr. unfold k12_part. cbn [kd_n kd_k kd_w kd_s kd_sq kd_c kd_h]. cbn [Nat.eqb].
    destruct (sp_Write_ok F HF _ q _ C) as (V1 & V2 & V3). destruct (sp_Write F (kd_k t) q) as [s w]. cbn [fst snd] in *.
    split; [|split; [exact Q|split; reflexivity]]. unfold krel. cbn [kd_sq kd_n kd_k kd_w kd_s]. rewrite En, Esk, app_length, Em, Z in *.
    split; [exact Hsq|]. split; [reflexivity|]. split; [congruence|]. split; [lia|]. split; [lia|]. intros _.
    rewrite pre_ext by (lia || (rewrite Em; lia)). unfold pre. cbn [Nat.sub cvs seq flat_map]. rewrite app_nil_r. rewrite firstn_all2 by lia. split; [exact W1|exact V1].
  - destruct (H1 ltac:(lia)) as [A C]. destruct (sp_Read_cv _ _ C Hds) as (O & K1 & K2). destruct (sp_Read F (kd_k t) 32) as [k o]. cbn [fst snd] in *.
    destruct (sp_Write_ok F HF _ o _ A) as (W1 & _ & _). unfold k12_part. cbn [kd_n kd_k kd_w kd_s kd_sq kd_c kd_h]. cbn [Nat.eqb].
    destruct (sp_Write_ok F HF _ q _ K1) as (V1 & V2 & V3). destruct (sp_Write F (sp_Reset k) q) as [s w]. cbn [fst snd app] in *.
    split; [|split; [exact Q|split; reflexivity]]. unfold krel. cbn [kd_sq kd_n kd_k kd_w kd_s]. rewrite En, Esk, app_length.
    split; [exact Hsq|]. split; [reflexivity|]. split; [congruence|]. split; [lia|]. split; [lia|]. intros _. split; [|exact V1].
    rewrite pre_ext by lia. unfold pre. replace (S (k12_n m) - 1) with (S (k12_n m - 1)) by lia. rewrite cvs_S. replace (S (k12_n m - 1)) with (k12_n m) by lia.
    unfold pre in W1. rewrite <- !app_assoc in W1. rewrite O in W1.
    assert (EC : k12_chunk m (k12_n m) = skipn (k12_n m * B) m) by (unfold k12_chunk; apply firstn_all2; rewrite skipn_length; cbn [Nat.mul] in Em; lia).
    rewrite EC, O. exact W1.
Qed.
Lemma wloop_ok : forall fuel t m p, krel t m -> length p < fuel ->
  krel (k12_wloop F fuel t p) (m ++ p) /\ kd_c (k12_wloop F fuel t p) = kd_c t /\ kd_h (k12_wloop F fuel t p) = kd_h t.
Proof.
  induction fuel as [|fuel IH]; intros t m p HR HL; [lia|]. cbn [k12_wloop]. destruct (Nat.eqb_spec (length p) 0) as [E|E].
  { apply length_zero_iff_nil in E. subst p. rewrite app_nil_r. auto. }
  set (x := K12_BlockSize - kd_w (k12_switch F t)). set (xx := if length p <? x then length p else x).
  assert (Hx : xx = Nat.min (length p) x) by (unfold xx; destruct (Nat.ltb_spec (length p) x); lia).
  destruct (step_ok t m p (firstn xx p) (skipn xx p)) as (A & Q & C & D); [intros ->; apply E; reflexivity|exact HR|symmetry; apply firstn_skipn|rewrite firstn_length; fold x; lia|].
  assert (1 <= length (firstn xx p)) by (destruct (firstn xx p); [congruence|cbn [length]; lia]). rewrite firstn_length in *.
  destruct (IH _ _ (skipn xx p) A) as (I1 & I2 & I3); [rewrite skipn_length; lia|]. rewrite <- app_assoc, firstn_skipn in I1. split; [exact I1|]. split; congruence.
Qed.
Lemma Write_ok : forall t m p, krel t m ->
  krel (fst (k12_Write F t p)) (m ++ p) /\ kd_c (fst (k12_Write F t p)) = kd_c t /\ kd_h (fst (k12_Write F t p)) = kd_h t /\ snd (k12_Write F t p) = (length p, false).
Proof.
  intros t m p H. unfold k12_Write. pose proof H as (Hsq & _). rewrite Hsq. cbn [fst snd].
  destruct (wloop_ok (S (length p)) t m p H ltac:(lia)) as (A & C & D). auto.
Qed.

(** After the first Read: the main sponge is being squeezed. *)
Definition final_ds (s : list N) : N := if k12_n s =? 0 then 0x07%N else 0x06%N.
Definition final_msg (s : list N) : list N :=
  if k12_n s =? 0 then s else pre s (S (k12_n s)) ++ right_encode (N.of_nat (k12_n s)) ++ [255; 255]%N.
Lemma tree_final : forall s, k12_tree F s = sponge F (final_ds s) (final_msg s).
Proof.
  intros s. unfold k12_tree, final_ds, final_msg. destruct (k12_n s =? 0); [reflexivity|]. unfold pre, cvs. replace (S (k12_n s) - 1) with (k12_n s) by lia.
  rewrite <- !app_assoc. reflexivity.
Qed.
Definition full (c m : list N) : list N := m ++ c ++ right_encode (N.of_nat (length c)).
Definition qk (t : kd) (s : list N) (pos : nat) : Prop := kd_sq t = true /\ qrel F (kd_s t) (fin F (final_ds s) (final_msg s)) pos.
Lemma finish_ok : forall t m, krel t m -> (N.of_nat (length (kd_c t)) < 2 ^ 64)%N -> (N.of_nat (k12_n (full (kd_c t) m)) < 2 ^ 64)%N ->
  let t' := k12_finish F t in kd_sq t' = true /\ srel (kd_s t') (final_msg (full (kd_c t) m)) /\ sp_ds (kd_s t') = final_ds (full (kd_c t) m) /\ kd_c t' = kd_c t /\ kd_h t' = kd_h t.
Proof.
  intros t m HR HC HN. unfold k12_finish. destruct (Write_ok t m (kd_c t) HR) as (A1 & A2 & A3 & _). set (t1 := fst (k12_Write F t (kd_c t))) in *. clearbody t1.
  rewrite A2. destruct (Write_ok t1 _ (k12_rightEncode (N.of_nat (length (kd_c t)))) A1) as (B1 & B2 & B3 & _). set (t2 := fst (k12_Write F t1 _)) in *. clearbody t2.
  rewrite right_encode_ok in B1 by exact HC. rewrite <- app_assoc in B1. fold (full (kd_c t) m) in B1. set (s := full (kd_c t) m) in *. clearbody s. clear A1 HR.
  destruct B1 as (Hsq & Hn & Hds & Hw & H0 & H1). rewrite Hn. unfold final_msg, final_ds. destruct (Nat.eqb_spec (k12_n s) 0) as [Z|Z].
  - cbv zeta. cbn [kd_sq kd_s kd_c kd_h]. destruct (H0 Z) as [S1 _]. split; [reflexivity|]. split; [exact S1|]. split; [reflexivity|]. split; congruence.
  - destruct (H1 ltac:(lia)) as [S1 S2]. destruct (sp_Read_cv _ _ S2 Hds) as (O & _ & _). destruct (sp_Read F (kd_k t2) 32) as [k o]. cbn [fst snd] in *.
    destruct (sp_Write_ok F HF _ o _ S1) as (W1 & _ & _). set (s1 := fst (sp_Write F (kd_s t2) o)) in *. clearbody s1.
    destruct (sp_Write_ok F HF _ (k12_rightEncode (N.of_nat (k12_n s))) _ W1) as (W2 & _ & _). set (s2 := fst (sp_Write F s1 _)) in *. clearbody s2.
    destruct (sp_Write_ok F HF _ [255; 255]%N _ W2) as (W3 & _ & _). set (s3 := fst (sp_Write F s2 _)) in *. clearbody s3.
    cbv zeta. cbn [kd_sq kd_s kd_c kd_h]. split; [reflexivity|]. split; [|split; [reflexivity|split; congruence]].
    rewrite right_encode_ok in W3 by exact HN. rewrite O in W3. apply srel_set.
    assert (EP : pre s (k12_n s) ++ k12_cv F (skipn (k12_n s * B) s) = pre s (S (k12_n s))).
    { unfold pre. replace (S (k12_n s) - 1) with (S (k12_n s - 1)) by lia. rewrite cvs_S. replace (S (k12_n s - 1)) with (k12_n s) by lia. rewrite <- !app_assoc. f_equal. f_equal. f_equal. f_equal.
      unfold k12_chunk. symmetry. apply firstn_all2. rewrite skipn_length. pose proof (k12_n_bounds s) as Bd. cbn [Nat.mul] in Bd. lia. }
    rewrite EP, <- app_assoc in W3. exact W3.
Qed.
Lemma Read_first : forall t m n, krel t m -> (N.of_nat (length (kd_c t)) < 2 ^ 64)%N -> (N.of_nat (k12_n (full (kd_c t) m)) < 2 ^ 64)%N ->
  snd (k12_Read F t n) = squeeze (k12_stream F (kd_c t) m) 0 n /\ qk (fst (k12_Read F t n)) (full (kd_c t) m) n /\ kd_c (fst (k12_Read F t n)) = kd_c t /\ kd_h (fst (k12_Read F t n)) = kd_h t.
Proof.
  intros t m n HR HC HN. destruct (finish_ok t m HR HC HN) as (A & S1 & D & C1 & C2). unfold k12_Read. pose proof HR as (Hsq & _). rewrite Hsq.
  set (t1 := k12_finish F t) in *. clearbody t1. destruct (sp_Read_first F HF _ _ n S1) as [R1 R2]. rewrite D in R1, R2.
  destruct (sp_Read F (kd_s t1) n) as [s o]. cbn [fst snd kd_c kd_h] in *. split; [|split; [split; [exact A|exact R2]|auto]].
  rewrite R1. unfold k12_stream. fold (full (kd_c t) m). now rewrite tree_final.
Qed.
Lemma Read_next : forall t m pos n, qk t (full (kd_c t) m) pos ->
  snd (k12_Read F t n) = squeeze (k12_stream F (kd_c t) m) pos n /\ qk (fst (k12_Read F t n)) (full (kd_c t) m) (pos + n) /\ kd_c (fst (k12_Read F t n)) = kd_c t /\ kd_h (fst (k12_Read F t n)) = kd_h t.
Proof.
  intros t m pos n [A Q]. unfold k12_Read. rewrite A. destruct (sp_Read_next F HF _ _ _ pos n Q) as [R1 R2].
  destruct (sp_Read F (kd_s t) n) as [s o]. cbn [fst snd kd_c kd_h] in *. split; [|split; [split; [exact A|exact R2]|auto]].
  rewrite R1. unfold k12_stream. fold (full (kd_c t) m). now rewrite tree_final.
Qed.
Lemma right_encode_length : forall v, (v < 2 ^ 64)%N -> length (right_encode v) <= 9.
Proof.
  intros v H. unfold right_encode. rewrite app_length, be_bytes_length. cbn [length]. enough (byte_count v <= 8) by lia. unfold byte_count.
  destruct (N.eq_dec v 0) as [->|NZ]; [vm_compute; lia|]. assert (N.log2 v < 64)%N by (apply N.log2_lt_pow2; lia). rewrite N.size_log2 by exact NZ.
  assert ((N.succ (N.log2 v) + 7) / 8 <= 8)%N by (apply N.lt_succ_r, N.div_lt_upper_bound; lia). lia.
Qed.
Lemma n_bound : forall c m, (N.of_nat (length c) + N.of_nat (length m) < 2 ^ 63)%N -> (N.of_nat (k12_n (full c m)) < 2 ^ 64)%N.
Proof.
  intros c m H. pose proof (k12_n_bounds (full c m)) as [Bd _]. pose proof (right_encode_length (N.of_nat (length c)) ltac:(lia)) as L. unfold full in *. rewrite !app_length in Bd.
  set (x := k12_n _) in *. clearbody x. pose proof B_pos. assert (x <= x * B) by (rewrite <- (Nat.mul_1_r x) at 1; apply Nat.mul_le_mono_l; lia). lia.
Qed.
End K12P.
