(** PropComp.v -- property C54: package hash_composition. *)
From Coq Require Import List NArith Arith Lia Bool.
From Verif Require Import Base HashAPI SpecMd2 Md2 SpecSm3 Sm3 PropHash HashComp.
Import ListNotations.

(** A digest object is a correct implementation of H: every history gives what the client expects. *)
Definition correct {D} (I : impl D) (d : D) (H : list N -> list N) : Prop := forall ops, Forall op_bytes ops -> run I d ops = ideal_run H [] ops.

Lemma run_app : forall D (I : impl D) a b d, run I d (a ++ b) = run I d a ++ run I (exec I d a) b.
Proof.
  intros D I. induction a as [|[p|i|] a IH]; intros b d; cbn [app run exec]; [reflexivity| | |apply IH].
  - destruct (i_write I d p) as [d' n]. cbn [fst app]. now rewrite IH.
  - destruct (i_sum I d i) as [d' o]. cbn [fst app]. now rewrite IH.
Qed.
Lemma ideal_app : forall H a b m, ideal_run H m (a ++ b) = ideal_run H m a ++ ideal_run H (history m a) b.
Proof. intros H. induction a as [|[p|i|] a IH]; intros b m; cbn [app ideal_run history]; [reflexivity| | |apply IH]; now rewrite IH. Qed.
Lemma exec_app : forall D (I : impl D) a b d, exec I d (a ++ b) = exec I (exec I d a) b.
Proof. intros D I. induction a as [|[p|i|] a IH]; intros b d; cbn [app exec]; [reflexivity| | |]; apply IH. Qed.
Lemma history_app : forall a b m, history m (a ++ b) = history (history m a) b.
Proof. induction a as [|[p|i|] a IH]; intros b m; cbn [app history]; [reflexivity| | |]; apply IH. Qed.
(** [reach I d H d' m]: d' is reached from d by calls after which m has been written. *)
Definition reach {D} (I : impl D) (d d' : D) (m : list N) : Prop := exists ops, Forall op_bytes ops /\ exec I d ops = d' /\ history [] ops = m.
Section Correct.
Context {D : Type}.
Variables (I : impl D) (d : D) (H : list N -> list N).
Hypothesis HC : correct I d H.
Lemma reach_next : forall ops o, Forall op_bytes ops -> op_bytes o -> run I (exec I d ops) [o] = ideal_run H (history [] ops) [o].
Proof.
  intros ops o B1 B2. assert (B : Forall op_bytes (ops ++ [o])) by (apply Forall_app; auto).
  pose proof (HC _ B) as K. rewrite run_app, ideal_app, (HC _ B1) in K. now apply app_inv_head in K.
Qed.
Lemma reach_write : forall d' m p, reach I d d' m -> isbytes p -> reach I d (fst (i_write I d' p)) (m ++ p) /\ snd (i_write I d' p) = length p.
Proof.
  intros d' m p (ops & B & <- & <-) Hp. split.
  - exists (ops ++ [Write p]). rewrite exec_app, history_app. repeat split; auto. apply Forall_app; auto.
  - pose proof (reach_next ops (Write p) B Hp) as K. cbn [run ideal_run] in K. destruct (i_write I (exec I d ops) p) as [d2 n]. cbn [snd]. now injection K.
Qed.
Lemma reach_sum : forall d' m i, reach I d d' m -> reach I d (fst (i_sum I d' i)) m /\ snd (i_sum I d' i) = i ++ H m.
Proof.
  intros d' m i (ops & B & <- & <-). split.
  - exists (ops ++ [Sum i]). rewrite exec_app, history_app. repeat split; auto. apply Forall_app; split; auto. constructor; [exact Logic.I|constructor].
  - pose proof (reach_next ops (Sum i) B Logic.I) as K. cbn [run ideal_run] in K. destruct (i_sum I (exec I d ops) i) as [d2 n]. cbn [snd]. now injection K.
Qed.
Lemma reach_reset : forall d' m, reach I d d' m -> reach I d (i_reset I d') [].
Proof.
  intros d' m (ops & B & <- & <-). exists (ops ++ [Reset]). rewrite exec_app, history_app. repeat split; auto. apply Forall_app; split; auto. constructor; [exact Logic.I|constructor].
Qed.
Lemma reach_refl : reach I d d [].
Proof. exists []. repeat split; auto. Qed.
End Correct.

(** What the object does in fact, for all inner hashes and histories: [acc] collects the inner digests of all the Sums
    since the last Reset, and Sum returns the outer hash of all of them. *)
Fixpoint comp_actual (H1 H2 : list N -> list N) (acc m : list N) (ops : list op) : list obs :=
  match ops with
  | [] => []
  | Write p :: t => Wrote (length p) :: comp_actual H1 H2 acc (m ++ p) t
  | Sum i :: t => Summed (i ++ H1 (acc ++ H2 m)) :: comp_actual H1 H2 (acc ++ H2 m) m t
  | Reset :: t => comp_actual H1 H2 [] [] t
  end.
Theorem C54_actual : forall D1 D2 (I1 : impl D1) (I2 : impl D2) d1 d2 H1 H2,
  correct I1 d1 H1 -> correct I2 d2 H2 -> (forall m, isbytes (H2 m)) ->
  forall ops, Forall op_bytes ops -> run (comp_impl I1 I2) (comp_new I1 I2 d1 d2) ops = comp_actual H1 H2 [] [] ops.
Proof.
  intros D1 D2 I1 I2 d1 d2 H1 H2 C1 C2 HB ops B.
  assert (G : forall ops, Forall op_bytes ops -> forall e acc m, reach I1 d1 (fst e) acc -> reach I2 d2 (snd e) m -> run (comp_impl I1 I2) e ops = comp_actual H1 H2 acc m ops).
  { clear ops B. intros ops B. induction B as [|o ops Ho B IH]; intros [e1 e2] acc m R1 R2; [reflexivity|]. cbn [fst snd] in *. destruct o as [p|i|]; cbn [run comp_actual comp_impl i_write i_sum i_reset].
    - unfold comp_write. cbn [fst snd]. destruct (reach_write I2 d2 H2 C2 e2 m p R2 Ho) as [W1 W2]. destruct (i_write I2 e2 p) as [e2' n]. cbn [fst snd] in *. subst n. f_equal. apply IH; auto.
    - unfold comp_sum. cbn [fst snd]. destruct (reach_sum I2 d2 H2 C2 e2 m [] R2) as [S1 S2]. destruct (i_sum I2 e2 []) as [e2' h2]. cbn [fst snd app] in *. subst h2.
      destruct (reach_write I1 d1 H1 C1 e1 acc (H2 m) R1 (HB m)) as [W1 _]. destruct (i_write I1 e1 (H2 m)) as [e1' n]. cbn [fst snd] in *.
      destruct (reach_sum I1 d1 H1 C1 e1' _ [] W1) as [T1 T2]. destruct (i_sum I1 e1' []) as [e1'' h]. cbn [fst snd app] in *. subst h. f_equal. apply IH; auto.
    - apply IH; cbn [comp_reset fst snd]; eapply reach_reset; eauto. }
  apply G; auto; cbn [comp_new comp_reset fst snd]; eapply reach_reset; apply reach_refl.
Qed.
(** So one Sum per Reset is right ... *)
Fixpoint one_sum (used : bool) (ops : list op) : Prop :=
  match ops with
  | [] => True
  | Write _ :: t => one_sum used t
  | Sum _ :: t => used = false /\ one_sum true t
  | Reset :: t => one_sum false t
  end.
Theorem C54_one_sum_per_reset : forall D1 D2 (I1 : impl D1) (I2 : impl D2) d1 d2 H1 H2,
  correct I1 d1 H1 -> correct I2 d2 H2 -> (forall m, isbytes (H2 m)) ->
  forall ops, Forall op_bytes ops -> one_sum false ops -> run (comp_impl I1 I2) (comp_new I1 I2 d1 d2) ops = ideal_run (fun m => H1 (H2 m)) [] ops.
Proof.
  intros D1 D2 I1 I2 d1 d2 H1 H2 C1 C2 HB ops B O. rewrite (C54_actual D1 D2 I1 I2 d1 d2 H1 H2) by auto. clear B.
  assert (G : forall ops used acc m, one_sum used ops -> (used = false -> acc = []) -> comp_actual H1 H2 acc m ops = ideal_run (fun m => H1 (H2 m)) m ops).
  { clear ops O. induction ops as [|[p|i|] ops IH]; intros used acc m O A; cbn [comp_actual ideal_run one_sum] in *; [reflexivity| | |].
    - f_equal. eapply IH; eauto.
    - destruct O as [-> O]. rewrite (A eq_refl). cbn [app]. f_equal. eapply IH; eauto. discriminate.
    - eapply IH; eauto. }
  eapply G; eauto.
Qed.
Theorem C54_one_shot : forall D1 D2 (I1 : impl D1) (I2 : impl D2) d1 d2 H1 H2,
  correct I1 d1 H1 -> correct I2 d2 H2 -> (forall m, isbytes (H2 m)) ->
  forall data, isbytes data -> comp_Sum I1 I2 d1 d2 data = H1 (H2 data).
Proof.
  intros D1 D2 I1 I2 d1 d2 H1 H2 C1 C2 HB data Hd.
  pose proof (C54_one_sum_per_reset D1 D2 I1 I2 d1 d2 H1 H2 C1 C2 HB [Write data; Sum []]) as K. cbn [run ideal_run one_sum comp_impl i_write i_sum i_reset app] in K.
  unfold comp_Sum. destruct (comp_write I2 (comp_new I1 I2 d1 d2) data) as [e n]. cbn [fst]. destruct (comp_sum I1 I2 e []) as [e' o]. cbn [snd].
  specialize (K ltac:(repeat constructor; exact Hd) ltac:(auto)). now injection K.
Qed.
(** ... and a second Sum is wrong whenever the outer hash separates h and h ++ h. *)
Theorem C54_sum_twice_refuted : exists m, isbytes m /\
  run (comp_impl md2_impl md2_impl) (comp_new md2_impl md2_impl md2_new md2_new) [Write m; Sum []; Sum []] <>
  ideal_run (fun m => rfc1319_md2 (rfc1319_md2 m)) [] [Write m; Sum []; Sum []].
Proof. exists [97%N]. split; [repeat constructor|]. vm_compute. discriminate. Qed.
(** The hypotheses are met by the modelled sm3 and md2 (C01, C04). *)
Theorem C54_sm3_of_md2 : forall ops, Forall op_bytes ops -> one_sum false ops ->
  run (comp_impl md2_impl sm3_impl) (comp_new md2_impl sm3_impl md2_new sm3_new) ops = ideal_run (fun m => rfc1319_md2 (sm3_spec m)) [] ops.
Proof.
  intros ops B O. apply C54_one_sum_per_reset; auto.
  - intros x _. apply C01_md2_hash_contract.
  - intros x _. apply C04_sm3_hash_contract.
  - intros m. unfold sm3_spec. apply Forall_concat. apply Forall_map. apply Forall_forall. intros x _. apply be_bytes_isbytes.
Qed.
