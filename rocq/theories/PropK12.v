(** PropK12.v -- properties C33, C80: package k12 (KangarooTwelve). *)
From Coq Require Import List NArith Arith Lia Bool String.
From Coq Require Import List.
From Verif Require Import Base Words Buf Stream SpecK12 K12 KeccakP SpongeP K12P.
Import ListNotations.
Local Notation length := Datatypes.length.

(** ** C80: without Reset, the object is KangarooTwelve *)
Section Generic.
Variable F : list N -> list N.
Hypothesis HF : forall a, length a = 25 -> length (F a) = 25.
Lemma generic_history : forall ops t m pos c hs, Forall (fun o => o <> KReset) ops ->
  (N.of_nat (length c) + N.of_nat (length m) + kops_total ops < 2 ^ 63)%N -> kd_c t = c -> kd_h t = hs ->
  match pos with None => krel F t m | Some q => qk F t (full c m) q end ->
  k12_run F t ops = kideal (k12_stream F c) hs m pos ops.
Proof.
  induction ops as [|o ops IH]; intros t m pos c hs HR HT Ec Eh HS; [reflexivity|].
  inversion HR as [|? ? Ho HR']; subst x l. destruct o as [p|i|n|]; cbn [k12_run kideal kops_total] in *.
  - destruct pos as [q|].
    + unfold k12_Write. destruct HS as [A Q]. rewrite A. f_equal. apply IH; auto; [lia|split; assumption].
    + destruct (Write_ok F HF t m p HS) as (W1 & W2 & W3 & W4). destruct (k12_Write F t p) as [t' [n e]]. cbn [fst snd] in *. injection W4 as -> ->. f_equal.
      apply IH; auto; [rewrite app_length; lia|congruence|congruence].
  - f_equal; [|apply IH; auto]. f_equal. unfold k12_Sum. f_equal. rewrite Eh. destruct pos as [q|].
    + subst c. destruct (Read_next F HF t m q hs HS) as (A & _). exact A.
    + subst c. destruct (Read_first F HF t m hs HS) as (A & _); [lia|apply n_bound; lia|]. exact A.
  - destruct pos as [q|].
    + subst c. destruct (Read_next F HF t m q n HS) as (A & Q & C1 & C2). destruct (k12_Read F t n) as [t' o]. cbn [fst snd] in *. rewrite A. f_equal. apply IH; auto; congruence.
    + subst c. destruct (Read_first F HF t m n HS) as (A & Q & C1 & C2); [lia|apply n_bound; lia|]. destruct (k12_Read F t n) as [t' o]. cbn [fst snd] in *. rewrite A. f_equal. apply IH; auto; congruence.
  - congruence.
Qed.
End Generic.

(** Whatever permutation of 25 words is used (the portable one or the assembly), every sequence of Write, Sum and Read
    calls behaves as the extendable-output object of the K12 tree over that permutation. *)
Theorem C80_any_permutation : forall F, (forall a, length a = 25 -> length (F a) = 25) ->
  forall c hs ops, Forall (fun o => o <> KReset) ops -> (N.of_nat (length c) + kops_total ops < 2 ^ 63)%N ->
  k12_run F (k12_new c hs) ops = kideal (k12_stream F c) hs [] None ops.
Proof. intros F HF c hs ops HR HT. apply generic_history; auto; [cbn [Datatypes.length]; lia|]. apply (krel_new F c hs). Qed.

(** The portable permutation is Keccak-p[1600, 12] (FIPS 202). *)
Theorem C80_permutation : forall a, length a = 25 -> keccakF1600 12 a = keccak_p 12 a /\ length (keccakF1600 12 a) = 25.
Proof. intros a L. exact (keccakF_ok 3 a ltac:(lia) L). Qed.
Theorem C80_permutation_24 : forall a, length a = 25 -> keccakF1600 24 a = keccak_p 24 a.
Proof. intros a L. exact (proj1 (keccakF_ok 6 a ltac:(lia) L)). Qed.

Section Ext.
Variables F G : list N -> list N.
Hypothesis HF : forall a, length a = 25 -> length (F a) = 25.
Hypothesis FG : forall a, length a = 25 -> F a = G a.
Lemma absorb_ext : forall bs a, length a = 25 -> sp_absorb F a bs = sp_absorb G a bs.
Proof.
  induction bs as [|b bs IH]; intros a L; [reflexivity|]. cbn [sp_absorb fold_left]. rewrite <- FG by apply sp_xor_length. apply IH, HF, sp_xor_length.
Qed.
Lemma iter_ext : forall q a, length a = 25 -> Nat.iter q F a = Nat.iter q G a.
Proof. induction q as [|q IH]; intros a L; [reflexivity|]. cbn [Nat.iter nat_rect]. change (F (Nat.iter q F a) = G (Nat.iter q G a)). rewrite <- IH by exact L. apply FG. now apply iter_length. Qed.
Lemma sponge_ext : forall ds m j, sponge F ds m j = sponge G ds m j.
Proof.
  intros ds m j. unfold sponge. rewrite <- absorb_ext by apply repeat_length. rewrite <- iter_ext by (apply absorb_length; [exact HF|apply repeat_length]). reflexivity.
Qed.
Lemma stream_ext : forall c m j, k12_stream F c m j = k12_stream G c m j.
Proof.
  intros c m j. unfold k12_stream, k12_tree. set (s := m ++ _). clearbody s. destruct (k12_n s =? 0); [apply sponge_ext|].
  assert (E : flat_map (fun i => k12_cv F (k12_chunk s i)) (seq 1 (k12_n s)) = flat_map (fun i => k12_cv G (k12_chunk s i)) (seq 1 (k12_n s))).
  { rewrite !flat_map_concat_map. f_equal. apply map_ext. intros i. unfold k12_cv. apply squeeze_ext. intros. apply sponge_ext. }
  rewrite E. apply sponge_ext.
Qed.
End Ext.
Lemma kideal_ext : forall h h' hs, (forall m j, h m j = h' m j) -> forall ops m pos, kideal h hs m pos ops = kideal h' hs m pos ops.
Proof.
  intros h h' hs E. induction ops as [|[p|i|n|] ops IH]; intros m pos; cbn [kideal]; [reflexivity| | | |apply IH].
  - destruct pos; now rewrite IH.
  - rewrite IH. f_equal. f_equal. f_equal. apply squeeze_ext. auto.
  - rewrite IH. f_equal. f_equal. apply squeeze_ext. auto.
Qed.
(** Together: every history of Write, Sum and Read on a new object with customization string c and digest size hs is
    KangarooTwelve's. *)
Theorem C80_kangarootwelve : forall c hs ops, Forall (fun o => o <> KReset) ops -> (N.of_nat (length c) + kops_total ops < 2 ^ 63)%N ->
  k12_run (keccakF1600 12) (k12_new c hs) ops = kideal (k12_stream (keccak_p 12) c) hs [] None ops.
Proof.
  intros c hs ops HR HT. rewrite C80_any_permutation by (auto; intros; now apply C80_permutation). apply kideal_ext. intros.
  apply stream_ext; intros; now apply C80_permutation.
Qed.
Theorem C80_one_shot : forall c data hs, (N.of_nat (length c) + N.of_nat (length data) < 2 ^ 63)%N -> k12_SumWithSize c data hs = KangarooTwelve c data hs.
Proof.
  intros c data hs H. pose proof (C80_kangarootwelve c hs [KWrite data; KSum []]) as K. cbn [k12_run kideal kops_total] in K.
  unfold k12_SumWithSize. destruct (k12_Write (keccakF1600 12) (k12_new c hs) data) as [t [n e]]. cbn [fst].
  specialize (K ltac:(repeat constructor; discriminate) ltac:(lia)). injection K as _ _ K. exact K.
Qed.
Example C80_vector_empty : k12_SumWithSize [] [] 32 = hex "1ac2d450fc3b4205d19da7bfca1b37513c0803577ac7167f06fe2ce1f0ef39e5".
Proof. vm_compute. reflexivity. Qed.
Example C80_nonvacuous : Forall (fun o => o <> KReset) [KWrite (repeat 7%N 9); KSum []; KRead 5; KWrite [1%N]; KSum [2%N]; KRead 3] /\
  (N.of_nat (length [1%N]) + kops_total [KWrite (repeat 7%N 9); KSum []; KRead 5; KWrite [1%N]; KSum [2%N]; KRead 3] < 2 ^ 63)%N.
Proof. split; [repeat constructor; discriminate|reflexivity]. Qed.

(** ** C33: Reset *)
(** After writing one byte and Reset, a message of 8192 bytes gets another digest than on a new object: Reset leaves the
    counter of the current chunk. *)
Theorem C33_reset_refuted : exists m, length m = 64 * 128 /\
  k12_run (keccakF1600 12) (k12_new [] 32) [KWrite [0%N]; KReset; KWrite m; KSum []] <>
  KWrote 1 false :: k12_run (keccakF1600 12) (k12_new [] 32) [KWrite m; KSum []].
Proof. exists (zeros (64 * 128)). split; [apply repeat_length|]. vm_compute. discriminate. Qed.

(** What holds: while everything written since creation (across Resets) stays within the first chunk, Reset is sound. *)
Section Small.
Variable F : list N -> list N.
Hypothesis HF : forall a, length a = 25 -> length (F a) = 25.
Definition small (t : kd) (m : list N) (pos : option nat) : Prop :=
  kd_n t = 0 /\ srel F (kd_k t) [] /\
  match pos with
  | None => kd_sq t = false /\ srel F (kd_s t) m /\ length m <= kd_w t
  | Some q => qk F t (full (kd_c t) m) q
  end.
Lemma small_loop : forall fuel t m p, length p < fuel -> kd_n t = 0 -> srel F (kd_s t) m -> kd_w t + length p <= k12_B ->
  exists s, k12_wloop F fuel t p = mkkd (kd_c t) (kd_sq t) s 0 (kd_k t) (kd_w t + length p) (kd_h t) /\ srel F s (m ++ p).
Proof.
  intros fuel t m p HL Hn HS HB. destruct fuel as [|fuel]; [lia|]. cbn [k12_wloop]. destruct (Nat.eqb_spec (length p) 0) as [E|E].
  { apply length_zero_iff_nil in E. subst p. exists (kd_s t). rewrite app_nil_r. cbn [Datatypes.length]. rewrite Nat.add_0_r, <- Hn. split; [now destruct t|exact HS]. }
  unfold k12_switch. rewrite BlockSize_B. destruct (Nat.eqb_spec (kd_w t) k12_B) as [G|G]; [lia|].
  assert (Ex : (if length p <? k12_B - kd_w t then length p else k12_B - kd_w t) = length p) by (destruct (Nat.ltb_spec (length p) (k12_B - kd_w t)); lia).
  rewrite Ex, firstn_all, skipn_all. unfold k12_part. rewrite Hn. cbn [Nat.eqb]. destruct (sp_Write_ok F HF _ p _ HS) as (W1 & W2 & _).
  destruct (sp_Write F (kd_s t) p) as [s w]. cbn [fst snd] in *. exists s. subst w. split; [|exact W1]. destruct fuel; reflexivity.
Qed.
Lemma small_n : forall s, length s <= k12_B -> k12_n s = 0.
Proof. intros s H. apply k12_n_unique; pose proof B_pos; cbn [Nat.mul]; lia. Qed.
Lemma small_read : forall t m n, kd_sq t = false -> kd_n t = 0 -> srel F (kd_k t) [] -> srel F (kd_s t) m -> length m <= kd_w t -> kd_w t + length (kd_c t) + 9 <= k12_B -> (N.of_nat (length (kd_c t)) < 2 ^ 64)%N ->
  snd (k12_Read F t n) = squeeze (k12_stream F (kd_c t) m) 0 n /\ small (fst (k12_Read F t n)) m (Some n) /\ kd_c (fst (k12_Read F t n)) = kd_c t /\ kd_h (fst (k12_Read F t n)) = kd_h t /\ kd_w (fst (k12_Read F t n)) <= kd_w t + length (kd_c t) + 9.
Proof.
  intros t m n Hsq Hn HK HS HM HB HC. pose proof (right_encode_length _ HC) as LE. unfold k12_Read, k12_finish, k12_Write. rewrite Hsq. cbn [fst].
  destruct (small_loop (S (length (kd_c t))) t m (kd_c t) ltac:(lia) Hn HS ltac:(lia)) as (s1 & E1 & S1). rewrite E1. cbn [kd_sq kd_c]. rewrite Hsq. cbn [fst].
  rewrite right_encode_ok by exact HC. set (re := right_encode (N.of_nat (length (kd_c t)))) in *.
  destruct (small_loop (S (length re)) (mkkd (kd_c t) false s1 0 (kd_k t) (kd_w t + length (kd_c t)) (kd_h t)) (m ++ kd_c t) re ltac:(lia) eq_refl S1) as (s2 & E2 & S2); [cbn [kd_w]; lia|].
  rewrite E2. cbn [kd_n kd_c kd_k kd_s kd_w kd_h kd_sq]. cbn [Nat.eqb]. cbn [kd_n kd_c kd_k kd_s kd_w kd_h kd_sq].
  rewrite <- app_assoc in S2. change (m ++ kd_c t ++ re) with (full (kd_c t) m) in S2.
  assert (Z : k12_n (full (kd_c t) m) = 0) by (apply small_n; unfold full; fold re; rewrite !app_length; lia).
  assert (ED : final_ds (full (kd_c t) m) = 7%N) by (unfold final_ds; rewrite Z; reflexivity).
  assert (EM : final_msg F (full (kd_c t) m) = full (kd_c t) m) by (unfold final_msg; rewrite Z; reflexivity).
  pose proof (srel_set F s2 _ 7%N S2) as S3. destruct (sp_Read_first F HF _ _ n S3) as [R1 R2].
  change (sp_ds (sp_set_ds s2 7)) with 7%N in R1, R2. destruct (sp_Read F (sp_set_ds s2 7) n) as [s3 o]. cbn [fst snd kd_c kd_h kd_w] in *.
  split; [|split; [|split; [reflexivity|split; [reflexivity|lia]]]].
  - rewrite R1. unfold k12_stream. fold (full (kd_c t) m). now rewrite tree_final, ED, EM.
  - split; [reflexivity|]. split; [exact HK|]. cbn [kd_c]. split; [reflexivity|]. cbn [kd_s]. rewrite ED, EM. exact R2.
Qed.
Lemma small_history : forall ops t m pos, small t m pos -> kd_w t + length (kd_c t) + 9 + kops_cost (kd_c t) ops <= k12_B -> (N.of_nat (length (kd_c t)) < 2 ^ 64)%N ->
  k12_run F t ops = kideal (k12_stream F (kd_c t)) (kd_h t) m pos ops.
Proof.
  induction ops as [|o ops IH]; intros t m pos HS HB HC; [reflexivity|]. pose proof HS as (Hn & HK & HP).
  destruct o as [p|i|n|]; cbn [k12_run kideal kops_cost] in *.
  - destruct pos as [q|].
    + unfold k12_Write. destruct HP as [A Q]. rewrite A. f_equal. apply IH; auto. lia.
    + destruct HP as (Hsq & S1 & HM). unfold k12_Write. rewrite Hsq. destruct (small_loop (S (length p)) t m p ltac:(lia) Hn S1 ltac:(lia)) as (s & E & S2). rewrite E. f_equal.
      specialize (IH (mkkd (kd_c t) (kd_sq t) s 0 (kd_k t) (kd_w t + length p) (kd_h t)) (m ++ p) None). cbn [kd_c kd_h kd_w] in IH. apply IH; [|lia|exact HC].
      split; [reflexivity|]. split; [exact HK|]. split; [exact Hsq|]. split; [exact S2|]. cbn [kd_w]. rewrite app_length. lia.
  - f_equal; [|apply IH; auto]. f_equal. unfold k12_Sum. f_equal. destruct pos as [q|].
    + destruct (Read_next F HF t m q (kd_h t) HP) as (A & _). exact A.
    + destruct HP as (Hsq & S1 & HM). destruct (small_read t m (kd_h t) Hsq Hn HK S1 HM ltac:(lia) HC) as (A & _). exact A.
  - destruct pos as [q|].
    + destruct (Read_next F HF t m q n HP) as (A & Q & C1 & C2).
      assert (KW : kd_w (fst (k12_Read F t n)) = kd_w t /\ kd_n (fst (k12_Read F t n)) = kd_n t /\ kd_k (fst (k12_Read F t n)) = kd_k t).
      { unfold k12_Read. destruct HP as [B _]. rewrite B. destruct (sp_Read F (kd_s t) n). auto. }
      destruct KW as (K1 & K2 & K3). destruct (k12_Read F t n) as [t' o]. cbn [fst snd] in *. rewrite A. f_equal. rewrite <- C1, <- C2. apply IH; [|rewrite K1, C1; lia|now rewrite C1].
      split; [congruence|]. split; [now rewrite K3|]. rewrite C1. exact Q.
    + destruct HP as (Hsq & S1 & HM). destruct (small_read t m n Hsq Hn HK S1 HM ltac:(lia) HC) as (A & Q & C1 & C2 & C3). destruct (k12_Read F t n) as [t' o]. cbn [fst snd] in *.
      rewrite A. f_equal. rewrite <- C1, <- C2. apply IH; [exact Q|rewrite C1; lia|now rewrite C1].
  - specialize (IH (k12_Reset t) [] None). cbn [k12_Reset kd_c kd_h kd_w] in IH. apply IH; [|lia|exact HC].
    split; [exact Hn|]. cbn [k12_Reset kd_k kd_sq kd_s kd_w]. split; [eapply srel_Reset'; [exact HF|exact HK]|]. split; [reflexivity|]. split; [|cbn [Datatypes.length]; lia].
    destruct pos as [q|]; [destruct HP as [_ Q]; eapply qrel_Reset; [exact HF|apply (fin_length F HF (final_ds (full (kd_c t) m)) (final_msg F (full (kd_c t) m)))|exact Q]|].
    destruct HP as (_ & S1 & _). eapply srel_Reset'; [exact HF|exact S1].
Qed.
End Small.
Theorem C33_within_first_chunk : forall c hs ops, length c + 9 + kops_cost c ops <= k12_B ->
  k12_run (keccakF1600 12) (k12_new c hs) ops = kideal (k12_stream (keccak_p 12) c) hs [] None ops.
Proof.
  intros c hs ops H. assert (HF : forall a, length a = 25 -> length (keccakF1600 12 a) = 25) by (intros; now apply C80_permutation).
  transitivity (kideal (k12_stream (keccakF1600 12) c) hs [] None ops).
  - apply (small_history _ HF ops (k12_new c hs) [] None).
    + split; [reflexivity|]. split; [apply (srel_new _ 0x0b)|]. split; [reflexivity|]. split; [apply (srel_new _ 0)|]. cbn [Datatypes.length]. lia.
    + exact H.
    + assert (Z : (N.of_nat k12_B < 2 ^ 64)%N) by (vm_compute; reflexivity). change (kd_c (k12_new c hs)) with c. lia.
  - apply kideal_ext. intros. apply stream_ext; intros; now apply C80_permutation.
Qed.
Example C33_within_first_chunk_nonvacuous : length [1%N] + 9 + kops_cost [1%N] [KWrite (zeros 100); KRead 7; KReset; KWrite (zeros 500); KSum []; KReset; KWrite [3%N]; KRead 200] <= k12_B.
Proof. vm_compute. lia. Qed.
