(** PropHavalM.v -- lemmas for C108: the haval package computes HAVAL, all fifteen variants, on every history. *)
From Coq Require Import List NArith Arith Lia Bool.
Require Import Verif.Base Verif.Words Verif.HashAPI Verif.Buf Verif.MD Verif.Bytes Verif.Refine Verif.LshP Verif.Md6P Verif.Kupyna Verif.PropRadio Verif.SpecHaval Verif.Haval.
Import ListNotations.
Local Open Scope nat_scope.

(** ** The constants are pi *)
Definition const_of (pi : N) (i : nat) : N := N.land (N.shiftr pi (32 * (135 - N.of_nat i))) 0xffffffff.
Definition consts : list N := hvt_iv ++ hvt_K2 ++ hvt_K3 ++ hvt_K4 ++ hvt_K5.
Lemma pi_ok : (fun pi => map (const_of pi) (seq 0 136)) hv_pi = consts.
Proof. vm_compute. reflexivity. Qed.
Opaque hv_pi.
Lemma const_ok : forall i, i < 136 -> hv_const i = at_ consts i.
Proof. intros i H. rewrite <- pi_ok. cbv beta. now rewrite at_map_seq. Qed.
Lemma iv_ok : hv_iv = hvt_iv.
Proof. unfold hv_iv. change hvt_iv with (map (at_ consts) (seq 0 8)). apply map_ext_in. intros i H. apply in_seq in H. apply const_ok. lia. Qed.
Lemma K_gen : forall j n (a b : list N), consts = a ++ b -> length a = 8 + 32 * (j - 2) -> n < 32 -> 2 <= j <= 5 -> hv_K j n = at_ b n.
Proof.
  intros j n a b E L Hn Hj. unfold hv_K. rewrite const_ok by lia. rewrite E. unfold at_. rewrite app_nth2 by lia. f_equal. lia.
Qed.
Lemma at_l : forall (a b : list N) n, n < length a -> at_ (a ++ b) n = at_ a n.
Proof. intros. unfold at_. now rewrite app_nth1. Qed.
Lemma K2_ok : forall n, n < 32 -> hv_K 2 n = at_ hvt_K2 n.
Proof. intros n H. rewrite (K_gen 2 n hvt_iv (hvt_K2 ++ hvt_K3 ++ hvt_K4 ++ hvt_K5)) by (try reflexivity; lia). now apply at_l. Qed.
Lemma K3_ok : forall n, n < 32 -> hv_K 3 n = at_ hvt_K3 n.
Proof. intros n H. rewrite (K_gen 3 n (hvt_iv ++ hvt_K2) (hvt_K3 ++ hvt_K4 ++ hvt_K5)) by (try reflexivity; lia). now apply at_l. Qed.
Lemma K4_ok : forall n, n < 32 -> hv_K 4 n = at_ hvt_K4 n.
Proof. intros n H. rewrite (K_gen 4 n (hvt_iv ++ hvt_K2 ++ hvt_K3) (hvt_K4 ++ hvt_K5)) by (try reflexivity; lia). now apply at_l. Qed.
Lemma K5_ok : forall n, n < 32 -> hv_K 5 n = at_ hvt_K5 n.
Proof. intros n H. rewrite (K_gen 5 n (hvt_iv ++ hvt_K2 ++ hvt_K3 ++ hvt_K4) hvt_K5) by (try reflexivity; lia). reflexivity. Qed.

(** ** The boolean functions *)
Lemma bits32 : forall a b, is32 a -> is32 b -> (forall i, (i < 32)%N -> N.testbit a i = N.testbit b i) -> a = b.
Proof.
  intros a b Ha Hb H. apply N.bits_inj. intro i. destruct (N.ltb_spec i 32) as [L|L]; [now apply H|].
  rewrite (proj1 (lt_pow2_bits 32 a) Ha i L), (proj1 (lt_pow2_bits 32 b) Hb i L). reflexivity.
Qed.
Lemma not32_bit : forall a i, (i < 32)%N -> N.testbit (not32 a) i = negb (N.testbit a i).
Proof. intros a i H. unfold not32. rewrite N.lxor_spec. change 4294967295%N with (N.ones 32). rewrite N.ones_spec_low by exact H. now destruct (N.testbit a i). Qed.
Lemma land_is32 : forall a b, is32 a -> is32 (N.land a b).
Proof. intros. now apply land_lt_l. Qed.
Lemma lor_is32 : forall a b, is32 a -> is32 b -> is32 (N.lor a b).
Proof. intros. now apply lor_lt. Qed.
Lemma not32_is32 : forall a, is32 a -> is32 (not32 a).
Proof. intros. apply lxor_is32; [assumption|reflexivity]. Qed.
Ltac i32 := repeat first [assumption | apply lxor_is32 | apply land_is32 | apply lor_is32 | apply not32_is32 | reflexivity].
Ltac boolf := intros; unfold hv_sum; cbn [hv_anf map hv_and fold_left at_ nth]; apply bits32; [i32|i32|];
  let i := fresh in let Hi := fresh in intros i Hi; unfold at_; cbn [nth];
  repeat first [rewrite N.lxor_spec | rewrite N.land_spec | rewrite N.lor_spec | rewrite (not32_bit _ _ Hi)]; rewrite N.bits_0;
  repeat match goal with |- context [N.testbit ?a i] => destruct (N.testbit a i) end; reflexivity.
Lemma F1_ok : forall a0 a1 a2 a3 a4 a5 a6, is32 a0 -> is32 a1 -> is32 a2 -> is32 a3 -> is32 a4 -> is32 a5 -> is32 a6 ->
  hv_sum [a0; a1; a2; a3; a4; a5; a6] (hv_anf 1) = hvF1 a6 a5 a4 a3 a2 a1 a0.
Proof. unfold hvF1. boolf. Qed.
Lemma F2_ok : forall a0 a1 a2 a3 a4 a5 a6, is32 a0 -> is32 a1 -> is32 a2 -> is32 a3 -> is32 a4 -> is32 a5 -> is32 a6 ->
  hv_sum [a0; a1; a2; a3; a4; a5; a6] (hv_anf 2) = hvF2 a6 a5 a4 a3 a2 a1 a0.
Proof. unfold hvF2. boolf. Qed.
Lemma F3_ok : forall a0 a1 a2 a3 a4 a5 a6, is32 a0 -> is32 a1 -> is32 a2 -> is32 a3 -> is32 a4 -> is32 a5 -> is32 a6 ->
  hv_sum [a0; a1; a2; a3; a4; a5; a6] (hv_anf 3) = hvF3 a6 a5 a4 a3 a2 a1 a0.
Proof. unfold hvF3. boolf. Qed.
Lemma F4_ok : forall a0 a1 a2 a3 a4 a5 a6, is32 a0 -> is32 a1 -> is32 a2 -> is32 a3 -> is32 a4 -> is32 a5 -> is32 a6 ->
  hv_sum [a0; a1; a2; a3; a4; a5; a6] (hv_anf 4) = hvF4 a6 a5 a4 a3 a2 a1 a0.
Proof. unfold hvF4. boolf. Qed.
Lemma F5_ok : forall a0 a1 a2 a3 a4 a5 a6, is32 a0 -> is32 a1 -> is32 a2 -> is32 a3 -> is32 a4 -> is32 a5 -> is32 a6 ->
  hv_sum [a0; a1; a2; a3; a4; a5; a6] (hv_anf 5) = hvF5 a6 a5 a4 a3 a2 a1 a0.
Proof. unfold hvF5. boolf. Qed.

(** ** One step *)
Lemma s31_ok : forall w n x0 x1 x2 x3 x4 x5 x6 x7, is32 x0 -> is32 x1 -> is32 x2 -> is32 x3 -> is32 x4 -> is32 x5 -> is32 x6 -> is32 x7 -> n < 32 ->
  hv_step 3 1 w [x0; x1; x2; x3; x4; x5; x6; x7] n = [add32 (add32 (rotl32 (hvF1 x1 x0 x3 x5 x6 x2 x4) 25) (rotl32 x7 21)) (at_ w n); x0; x1; x2; x3; x4; x5; x6].
Proof.
  intros w n x0 x1 x2 x3 x4 x5 x6 x7. intros. unfold hv_step. cbv zeta. change (rev (map (at_ [x0; x1; x2; x3; x4; x5; x6; x7]) (hv_phi 3 1))) with [x4; x2; x6; x5; x3; x0; x1].
  rewrite F1_ok by assumption. change (at_ [x0; x1; x2; x3; x4; x5; x6; x7] 7) with x7. change (firstn 7 [x0; x1; x2; x3; x4; x5; x6; x7]) with [x0; x1; x2; x3; x4; x5; x6]. change (1 =? 1) with true. cbv iota.
  unfold Base.rotr32. change (32 - 7)%N with 25%N. change (32 - 11)%N with 21%N. unfold hv_ord. rewrite seq_nth by assumption. change (0 + n) with n. reflexivity.
Qed.
Lemma s32_ok : forall w n x0 x1 x2 x3 x4 x5 x6 x7, is32 x0 -> is32 x1 -> is32 x2 -> is32 x3 -> is32 x4 -> is32 x5 -> is32 x6 -> is32 x7 -> n < 32 ->
  hv_step 3 2 w [x0; x1; x2; x3; x4; x5; x6; x7] n = [add32 (add32 (add32 (rotl32 (hvF2 x4 x2 x1 x0 x5 x3 x6) 25) (rotl32 x7 21)) (at_ w (nth n hvt_wp2 0))) (at_ hvt_K2 n); x0; x1; x2; x3; x4; x5; x6].
Proof.
  intros w n x0 x1 x2 x3 x4 x5 x6 x7. intros. unfold hv_step. cbv zeta. change (rev (map (at_ [x0; x1; x2; x3; x4; x5; x6; x7]) (hv_phi 3 2))) with [x6; x3; x5; x0; x1; x2; x4].
  rewrite F2_ok by assumption. change (at_ [x0; x1; x2; x3; x4; x5; x6; x7] 7) with x7. change (firstn 7 [x0; x1; x2; x3; x4; x5; x6; x7]) with [x0; x1; x2; x3; x4; x5; x6]. change (2 =? 1) with false. cbv iota.
  unfold Base.rotr32. change (32 - 7)%N with 25%N. change (32 - 11)%N with 21%N. rewrite K2_ok by assumption. reflexivity.
Qed.
Lemma s33_ok : forall w n x0 x1 x2 x3 x4 x5 x6 x7, is32 x0 -> is32 x1 -> is32 x2 -> is32 x3 -> is32 x4 -> is32 x5 -> is32 x6 -> is32 x7 -> n < 32 ->
  hv_step 3 3 w [x0; x1; x2; x3; x4; x5; x6; x7] n = [add32 (add32 (add32 (rotl32 (hvF3 x6 x1 x2 x3 x4 x5 x0) 25) (rotl32 x7 21)) (at_ w (nth n hvt_wp3 0))) (at_ hvt_K3 n); x0; x1; x2; x3; x4; x5; x6].
Proof.
  intros w n x0 x1 x2 x3 x4 x5 x6 x7. intros. unfold hv_step. cbv zeta. change (rev (map (at_ [x0; x1; x2; x3; x4; x5; x6; x7]) (hv_phi 3 3))) with [x0; x5; x4; x3; x2; x1; x6].
  rewrite F3_ok by assumption. change (at_ [x0; x1; x2; x3; x4; x5; x6; x7] 7) with x7. change (firstn 7 [x0; x1; x2; x3; x4; x5; x6; x7]) with [x0; x1; x2; x3; x4; x5; x6]. change (3 =? 1) with false. cbv iota.
  unfold Base.rotr32. change (32 - 7)%N with 25%N. change (32 - 11)%N with 21%N. rewrite K3_ok by assumption. reflexivity.
Qed.
Lemma s41_ok : forall w n x0 x1 x2 x3 x4 x5 x6 x7, is32 x0 -> is32 x1 -> is32 x2 -> is32 x3 -> is32 x4 -> is32 x5 -> is32 x6 -> is32 x7 -> n < 32 ->
  hv_step 4 1 w [x0; x1; x2; x3; x4; x5; x6; x7] n = [add32 (add32 (rotl32 (hvF1 x2 x6 x1 x4 x5 x3 x0) 25) (rotl32 x7 21)) (at_ w n); x0; x1; x2; x3; x4; x5; x6].
Proof.
  intros w n x0 x1 x2 x3 x4 x5 x6 x7. intros. unfold hv_step. cbv zeta. change (rev (map (at_ [x0; x1; x2; x3; x4; x5; x6; x7]) (hv_phi 4 1))) with [x0; x3; x5; x4; x1; x6; x2].
  rewrite F1_ok by assumption. change (at_ [x0; x1; x2; x3; x4; x5; x6; x7] 7) with x7. change (firstn 7 [x0; x1; x2; x3; x4; x5; x6; x7]) with [x0; x1; x2; x3; x4; x5; x6]. change (1 =? 1) with true. cbv iota.
  unfold Base.rotr32. change (32 - 7)%N with 25%N. change (32 - 11)%N with 21%N. unfold hv_ord. rewrite seq_nth by assumption. change (0 + n) with n. reflexivity.
Qed.
Lemma s42_ok : forall w n x0 x1 x2 x3 x4 x5 x6 x7, is32 x0 -> is32 x1 -> is32 x2 -> is32 x3 -> is32 x4 -> is32 x5 -> is32 x6 -> is32 x7 -> n < 32 ->
  hv_step 4 2 w [x0; x1; x2; x3; x4; x5; x6; x7] n = [add32 (add32 (add32 (rotl32 (hvF2 x3 x5 x2 x0 x1 x6 x4) 25) (rotl32 x7 21)) (at_ w (nth n hvt_wp2 0))) (at_ hvt_K2 n); x0; x1; x2; x3; x4; x5; x6].
Proof.
  intros w n x0 x1 x2 x3 x4 x5 x6 x7. intros. unfold hv_step. cbv zeta. change (rev (map (at_ [x0; x1; x2; x3; x4; x5; x6; x7]) (hv_phi 4 2))) with [x4; x6; x1; x0; x2; x5; x3].
  rewrite F2_ok by assumption. change (at_ [x0; x1; x2; x3; x4; x5; x6; x7] 7) with x7. change (firstn 7 [x0; x1; x2; x3; x4; x5; x6; x7]) with [x0; x1; x2; x3; x4; x5; x6]. change (2 =? 1) with false. cbv iota.
  unfold Base.rotr32. change (32 - 7)%N with 25%N. change (32 - 11)%N with 21%N. rewrite K2_ok by assumption. reflexivity.
Qed.
Lemma s43_ok : forall w n x0 x1 x2 x3 x4 x5 x6 x7, is32 x0 -> is32 x1 -> is32 x2 -> is32 x3 -> is32 x4 -> is32 x5 -> is32 x6 -> is32 x7 -> n < 32 ->
  hv_step 4 3 w [x0; x1; x2; x3; x4; x5; x6; x7] n = [add32 (add32 (add32 (rotl32 (hvF3 x1 x4 x3 x6 x0 x2 x5) 25) (rotl32 x7 21)) (at_ w (nth n hvt_wp3 0))) (at_ hvt_K3 n); x0; x1; x2; x3; x4; x5; x6].
Proof.
  intros w n x0 x1 x2 x3 x4 x5 x6 x7. intros. unfold hv_step. cbv zeta. change (rev (map (at_ [x0; x1; x2; x3; x4; x5; x6; x7]) (hv_phi 4 3))) with [x5; x2; x0; x6; x3; x4; x1].
  rewrite F3_ok by assumption. change (at_ [x0; x1; x2; x3; x4; x5; x6; x7] 7) with x7. change (firstn 7 [x0; x1; x2; x3; x4; x5; x6; x7]) with [x0; x1; x2; x3; x4; x5; x6]. change (3 =? 1) with false. cbv iota.
  unfold Base.rotr32. change (32 - 7)%N with 25%N. change (32 - 11)%N with 21%N. rewrite K3_ok by assumption. reflexivity.
Qed.
Lemma s44_ok : forall w n x0 x1 x2 x3 x4 x5 x6 x7, is32 x0 -> is32 x1 -> is32 x2 -> is32 x3 -> is32 x4 -> is32 x5 -> is32 x6 -> is32 x7 -> n < 32 ->
  hv_step 4 4 w [x0; x1; x2; x3; x4; x5; x6; x7] n = [add32 (add32 (add32 (rotl32 (hvF4 x6 x4 x0 x5 x2 x1 x3) 25) (rotl32 x7 21)) (at_ w (nth n hvt_wp4 0))) (at_ hvt_K4 n); x0; x1; x2; x3; x4; x5; x6].
Proof.
  intros w n x0 x1 x2 x3 x4 x5 x6 x7. intros. unfold hv_step. cbv zeta. change (rev (map (at_ [x0; x1; x2; x3; x4; x5; x6; x7]) (hv_phi 4 4))) with [x3; x1; x2; x5; x0; x4; x6].
  rewrite F4_ok by assumption. change (at_ [x0; x1; x2; x3; x4; x5; x6; x7] 7) with x7. change (firstn 7 [x0; x1; x2; x3; x4; x5; x6; x7]) with [x0; x1; x2; x3; x4; x5; x6]. change (4 =? 1) with false. cbv iota.
  unfold Base.rotr32. change (32 - 7)%N with 25%N. change (32 - 11)%N with 21%N. rewrite K4_ok by assumption. reflexivity.
Qed.
Lemma s51_ok : forall w n x0 x1 x2 x3 x4 x5 x6 x7, is32 x0 -> is32 x1 -> is32 x2 -> is32 x3 -> is32 x4 -> is32 x5 -> is32 x6 -> is32 x7 -> n < 32 ->
  hv_step 5 1 w [x0; x1; x2; x3; x4; x5; x6; x7] n = [add32 (add32 (rotl32 (hvF1 x3 x4 x1 x0 x5 x2 x6) 25) (rotl32 x7 21)) (at_ w n); x0; x1; x2; x3; x4; x5; x6].
Proof.
  intros w n x0 x1 x2 x3 x4 x5 x6 x7. intros. unfold hv_step. cbv zeta. change (rev (map (at_ [x0; x1; x2; x3; x4; x5; x6; x7]) (hv_phi 5 1))) with [x6; x2; x5; x0; x1; x4; x3].
  rewrite F1_ok by assumption. change (at_ [x0; x1; x2; x3; x4; x5; x6; x7] 7) with x7. change (firstn 7 [x0; x1; x2; x3; x4; x5; x6; x7]) with [x0; x1; x2; x3; x4; x5; x6]. change (1 =? 1) with true. cbv iota.
  unfold Base.rotr32. change (32 - 7)%N with 25%N. change (32 - 11)%N with 21%N. unfold hv_ord. rewrite seq_nth by assumption. change (0 + n) with n. reflexivity.
Qed.
Lemma s52_ok : forall w n x0 x1 x2 x3 x4 x5 x6 x7, is32 x0 -> is32 x1 -> is32 x2 -> is32 x3 -> is32 x4 -> is32 x5 -> is32 x6 -> is32 x7 -> n < 32 ->
  hv_step 5 2 w [x0; x1; x2; x3; x4; x5; x6; x7] n = [add32 (add32 (add32 (rotl32 (hvF2 x6 x2 x1 x0 x3 x4 x5) 25) (rotl32 x7 21)) (at_ w (nth n hvt_wp2 0))) (at_ hvt_K2 n); x0; x1; x2; x3; x4; x5; x6].
Proof.
  intros w n x0 x1 x2 x3 x4 x5 x6 x7. intros. unfold hv_step. cbv zeta. change (rev (map (at_ [x0; x1; x2; x3; x4; x5; x6; x7]) (hv_phi 5 2))) with [x5; x4; x3; x0; x1; x2; x6].
  rewrite F2_ok by assumption. change (at_ [x0; x1; x2; x3; x4; x5; x6; x7] 7) with x7. change (firstn 7 [x0; x1; x2; x3; x4; x5; x6; x7]) with [x0; x1; x2; x3; x4; x5; x6]. change (2 =? 1) with false. cbv iota.
  unfold Base.rotr32. change (32 - 7)%N with 25%N. change (32 - 11)%N with 21%N. rewrite K2_ok by assumption. reflexivity.
Qed.
Lemma s53_ok : forall w n x0 x1 x2 x3 x4 x5 x6 x7, is32 x0 -> is32 x1 -> is32 x2 -> is32 x3 -> is32 x4 -> is32 x5 -> is32 x6 -> is32 x7 -> n < 32 ->
  hv_step 5 3 w [x0; x1; x2; x3; x4; x5; x6; x7] n = [add32 (add32 (add32 (rotl32 (hvF3 x2 x6 x0 x4 x3 x1 x5) 25) (rotl32 x7 21)) (at_ w (nth n hvt_wp3 0))) (at_ hvt_K3 n); x0; x1; x2; x3; x4; x5; x6].
Proof.
  intros w n x0 x1 x2 x3 x4 x5 x6 x7. intros. unfold hv_step. cbv zeta. change (rev (map (at_ [x0; x1; x2; x3; x4; x5; x6; x7]) (hv_phi 5 3))) with [x5; x1; x3; x4; x0; x6; x2].
  rewrite F3_ok by assumption. change (at_ [x0; x1; x2; x3; x4; x5; x6; x7] 7) with x7. change (firstn 7 [x0; x1; x2; x3; x4; x5; x6; x7]) with [x0; x1; x2; x3; x4; x5; x6]. change (3 =? 1) with false. cbv iota.
  unfold Base.rotr32. change (32 - 7)%N with 25%N. change (32 - 11)%N with 21%N. rewrite K3_ok by assumption. reflexivity.
Qed.
Lemma s54_ok : forall w n x0 x1 x2 x3 x4 x5 x6 x7, is32 x0 -> is32 x1 -> is32 x2 -> is32 x3 -> is32 x4 -> is32 x5 -> is32 x6 -> is32 x7 -> n < 32 ->
  hv_step 5 4 w [x0; x1; x2; x3; x4; x5; x6; x7] n = [add32 (add32 (add32 (rotl32 (hvF4 x1 x5 x3 x2 x0 x4 x6) 25) (rotl32 x7 21)) (at_ w (nth n hvt_wp4 0))) (at_ hvt_K4 n); x0; x1; x2; x3; x4; x5; x6].
Proof.
  intros w n x0 x1 x2 x3 x4 x5 x6 x7. intros. unfold hv_step. cbv zeta. change (rev (map (at_ [x0; x1; x2; x3; x4; x5; x6; x7]) (hv_phi 5 4))) with [x6; x4; x0; x2; x3; x5; x1].
  rewrite F4_ok by assumption. change (at_ [x0; x1; x2; x3; x4; x5; x6; x7] 7) with x7. change (firstn 7 [x0; x1; x2; x3; x4; x5; x6; x7]) with [x0; x1; x2; x3; x4; x5; x6]. change (4 =? 1) with false. cbv iota.
  unfold Base.rotr32. change (32 - 7)%N with 25%N. change (32 - 11)%N with 21%N. rewrite K4_ok by assumption. reflexivity.
Qed.
Lemma s55_ok : forall w n x0 x1 x2 x3 x4 x5 x6 x7, is32 x0 -> is32 x1 -> is32 x2 -> is32 x3 -> is32 x4 -> is32 x5 -> is32 x6 -> is32 x7 -> n < 32 ->
  hv_step 5 5 w [x0; x1; x2; x3; x4; x5; x6; x7] n = [add32 (add32 (add32 (rotl32 (hvF5 x2 x5 x0 x6 x4 x3 x1) 25) (rotl32 x7 21)) (at_ w (nth n hvt_wp5 0))) (at_ hvt_K5 n); x0; x1; x2; x3; x4; x5; x6].
Proof.
  intros w n x0 x1 x2 x3 x4 x5 x6 x7. intros. unfold hv_step. cbv zeta. change (rev (map (at_ [x0; x1; x2; x3; x4; x5; x6; x7]) (hv_phi 5 5))) with [x1; x3; x4; x6; x0; x5; x2].
  rewrite F5_ok by assumption. change (at_ [x0; x1; x2; x3; x4; x5; x6; x7] 7) with x7. change (firstn 7 [x0; x1; x2; x3; x4; x5; x6; x7]) with [x0; x1; x2; x3; x4; x5; x6]. change (5 =? 1) with false. cbv iota.
  unfold Base.rotr32. change (32 - 7)%N with 25%N. change (32 - 11)%N with 21%N. rewrite K5_ok by assumption. reflexivity.
Qed.

(** ** The unrolled groups of eight steps *)
Definition st32 (v : list N) : Prop := length v = 8 /\ Forall is32 v.
Lemma body_cons : forall a p v, hv_body (a :: p) v = hv_body p (hv_asg v a).
Proof. reflexivity. Qed.
Lemma seq8 : forall i, seq i 8 = [i + 0; i + 1; i + 2; i + 3; i + 4; i + 5; i + 6; i + 7].
Proof. intro i. cbn [seq]. repeat (f_equal; try lia). Qed.
Ltac line s :=
  rewrite fl_cons; rewrite s by (assumption || lia);
  rewrite body_cons; cbn [hv_asg fst snd upd];
  match goal with |- context [fold_left _ _ (?r :: _)] =>
    let y := fresh "y" in let Hy := fresh "Hy" in
    generalize (add32_is32 _ _ : is32 r); generalize r; intros y Hy end.
Lemma st8 : forall x0 x1 x2 x3 x4 x5 x6 x7, is32 x0 -> is32 x1 -> is32 x2 -> is32 x3 -> is32 x4 -> is32 x5 -> is32 x6 -> is32 x7 -> st32 [x0; x1; x2; x3; x4; x5; x6; x7].
Proof. intros. split; [reflexivity|]. repeat constructor; assumption. Qed.
Ltac group b s :=
  let w := fresh "w" in let v := fresh "v" in let i := fresh "i" in let L := fresh in let F := fresh in let Hi := fresh in
  intros w v i [L F] Hi; do 8 (destruct v as [|? v]; [discriminate|]); destruct v; [|discriminate];
  repeat match goal with H : Forall _ (_ :: _) |- _ => inversion H; clear H; subst end;
  rewrite seq8; unfold b; do 8 line s; cbn [fold_left]; split; [reflexivity|]; apply st8; assumption.
Lemma b31_ok : forall w v i, st32 v -> i + 8 <= 32 -> hv_b31 w v i = fold_left (hv_step 3 1 w) (seq i 8) v /\ st32 (hv_b31 w v i).
Proof. group hv_b31 s31_ok. Qed.
Lemma b32_ok : forall w v i, st32 v -> i + 8 <= 32 -> hv_b32 w v i = fold_left (hv_step 3 2 w) (seq i 8) v /\ st32 (hv_b32 w v i).
Proof. group hv_b32 s32_ok. Qed.
Lemma b33_ok : forall w v i, st32 v -> i + 8 <= 32 -> hv_b33 w v i = fold_left (hv_step 3 3 w) (seq i 8) v /\ st32 (hv_b33 w v i).
Proof. group hv_b33 s33_ok. Qed.
Lemma b41_ok : forall w v i, st32 v -> i + 8 <= 32 -> hv_b41 w v i = fold_left (hv_step 4 1 w) (seq i 8) v /\ st32 (hv_b41 w v i).
Proof. group hv_b41 s41_ok. Qed.
Lemma b42_ok : forall w v i, st32 v -> i + 8 <= 32 -> hv_b42 w v i = fold_left (hv_step 4 2 w) (seq i 8) v /\ st32 (hv_b42 w v i).
Proof. group hv_b42 s42_ok. Qed.
Lemma b43_ok : forall w v i, st32 v -> i + 8 <= 32 -> hv_b43 w v i = fold_left (hv_step 4 3 w) (seq i 8) v /\ st32 (hv_b43 w v i).
Proof. group hv_b43 s43_ok. Qed.
Lemma b44_ok : forall w v i, st32 v -> i + 8 <= 32 -> hv_b44 w v i = fold_left (hv_step 4 4 w) (seq i 8) v /\ st32 (hv_b44 w v i).
Proof. group hv_b44 s44_ok. Qed.
Lemma b51_ok : forall w v i, st32 v -> i + 8 <= 32 -> hv_b51 w v i = fold_left (hv_step 5 1 w) (seq i 8) v /\ st32 (hv_b51 w v i).
Proof. group hv_b51 s51_ok. Qed.
Lemma b52_ok : forall w v i, st32 v -> i + 8 <= 32 -> hv_b52 w v i = fold_left (hv_step 5 2 w) (seq i 8) v /\ st32 (hv_b52 w v i).
Proof. group hv_b52 s52_ok. Qed.
Lemma b53_ok : forall w v i, st32 v -> i + 8 <= 32 -> hv_b53 w v i = fold_left (hv_step 5 3 w) (seq i 8) v /\ st32 (hv_b53 w v i).
Proof. group hv_b53 s53_ok. Qed.
Lemma b54_ok : forall w v i, st32 v -> i + 8 <= 32 -> hv_b54 w v i = fold_left (hv_step 5 4 w) (seq i 8) v /\ st32 (hv_b54 w v i).
Proof. group hv_b54 s54_ok. Qed.
Lemma b55_ok : forall w v i, st32 v -> i + 8 <= 32 -> hv_b55 w v i = fold_left (hv_step 5 5 w) (seq i 8) v /\ st32 (hv_b55 w v i).
Proof. group hv_b55 s55_ok. Qed.

Lemma seq32 : seq 0 32 = seq 0 8 ++ seq 8 8 ++ seq 16 8 ++ seq 24 8.
Proof. reflexivity. Qed.
Lemma loop4 : forall (b : list N -> list N -> nat -> list N) P j w v,
  (forall w v i, st32 v -> i + 8 <= 32 -> b w v i = fold_left (hv_step P j w) (seq i 8) v /\ st32 (b w v i)) ->
  st32 v -> fold_left (b w) [0; 8; 16; 24] v = hv_pass P w v j /\ st32 (fold_left (b w) [0; 8; 16; 24] v).
Proof.
  intros b P j w v H Hv. unfold hv_pass. rewrite seq32, !fold_left_app. rewrite !fl_cons. change (fold_left (b w) [] ?x) with x.
  destruct (H w v 0 Hv ltac:(lia)) as [E1 S1]. rewrite <- E1.
  destruct (H w _ 8 S1 ltac:(lia)) as [E2 S2]. rewrite <- E2.
  destruct (H w _ 16 S2 ltac:(lia)) as [E3 S3]. rewrite <- E3.
  destruct (H w _ 24 S3 ltac:(lia)) as [E4 S4]. rewrite <- E4. split; [reflexivity|exact S4].
Qed.
Lemma p31_ok : forall w v, st32 v -> hv_p31 w v = hv_pass 3 w v 1 /\ st32 (hv_p31 w v).
Proof. intros w v. exact (loop4 hv_b31 3 1 w v b31_ok). Qed.
Lemma p32_ok : forall w v, st32 v -> hv_p32 w v = hv_pass 3 w v 2 /\ st32 (hv_p32 w v).
Proof. intros w v. exact (loop4 hv_b32 3 2 w v b32_ok). Qed.
Lemma p33_ok : forall w v, st32 v -> hv_p33 w v = hv_pass 3 w v 3 /\ st32 (hv_p33 w v).
Proof. intros w v. exact (loop4 hv_b33 3 3 w v b33_ok). Qed.
Lemma p41_ok : forall w v, st32 v -> hv_p41 w v = hv_pass 4 w v 1 /\ st32 (hv_p41 w v).
Proof. intros w v. exact (loop4 hv_b41 4 1 w v b41_ok). Qed.
Lemma p42_ok : forall w v, st32 v -> hv_p42 w v = hv_pass 4 w v 2 /\ st32 (hv_p42 w v).
Proof. intros w v. exact (loop4 hv_b42 4 2 w v b42_ok). Qed.
Lemma p43_ok : forall w v, st32 v -> hv_p43 w v = hv_pass 4 w v 3 /\ st32 (hv_p43 w v).
Proof. intros w v. exact (loop4 hv_b43 4 3 w v b43_ok). Qed.
Lemma p44_ok : forall w v, st32 v -> hv_p44 w v = hv_pass 4 w v 4 /\ st32 (hv_p44 w v).
Proof. intros w v. exact (loop4 hv_b44 4 4 w v b44_ok). Qed.
Lemma p51_ok : forall w v, st32 v -> hv_p51 w v = hv_pass 5 w v 1 /\ st32 (hv_p51 w v).
Proof. intros w v. exact (loop4 hv_b51 5 1 w v b51_ok). Qed.
Lemma p52_ok : forall w v, st32 v -> hv_p52 w v = hv_pass 5 w v 2 /\ st32 (hv_p52 w v).
Proof. intros w v. exact (loop4 hv_b52 5 2 w v b52_ok). Qed.
Lemma p53_ok : forall w v, st32 v -> hv_p53 w v = hv_pass 5 w v 3 /\ st32 (hv_p53 w v).
Proof. intros w v. exact (loop4 hv_b53 5 3 w v b53_ok). Qed.
Lemma p54_ok : forall w v, st32 v -> hv_p54 w v = hv_pass 5 w v 4 /\ st32 (hv_p54 w v).
Proof. intros w v. exact (loop4 hv_b54 5 4 w v b54_ok). Qed.
Lemma p55_ok : forall w v, st32 v -> hv_p55 w v = hv_pass 5 w v 5 /\ st32 (hv_p55 w v).
Proof. intros w v. exact (loop4 hv_b55 5 5 w v b55_ok). Qed.

(** ** The block function *)
Lemma zipadd : forall v s, length v = 8 -> length s = 8 -> map (fun k => add32 (at_ v k) (at_ s k)) (seq 0 8) = map (fun p => add32 (fst p) (snd p)) (combine v s).
Proof.
  intros v s. do 8 (destruct v as [|? v]; [discriminate|]). destruct v; [|discriminate]. do 8 (destruct s as [|? s]; [discriminate|]). destruct s; [|discriminate].
  intros _ _. reflexivity.
Qed.
Lemma inw_ok : forall data, length data = 128 -> map (fun i => le_val (slice data (4 * i) (4 * i + 4))) (seq 0 32) = map le_val (chunks 4 data).
Proof.
  intros data L. unfold chunks. rewrite L, map_map. change (128 / 4) with 32. apply map_ext. intro i. unfold slice.
  replace (4 * i + 4 - 4 * i) with 4 by lia. now rewrite (Nat.mul_comm 4 i).
Qed.
Definition pass_ok (p : nat) : Prop := p = 3 \/ p = 4 \/ p = 5.
Lemma passes_ok : forall p w v, pass_ok p -> st32 v -> hv_passes p w v = fold_left (hv_pass p w) (seq 1 p) v /\ st32 (hv_passes p w v).
Proof.
  intros p w v [->|[->| ->]] H; cbn [hv_passes seq]; rewrite ?fl_cons; cbn [fold_left].
  - destruct (p31_ok w v H) as [E1 S1]. rewrite <- E1. destruct (p32_ok w _ S1) as [E2 S2]. rewrite <- E2. destruct (p33_ok w _ S2) as [E3 S3]. rewrite <- E3. now split.
  - destruct (p41_ok w v H) as [E1 S1]. rewrite <- E1. destruct (p42_ok w _ S1) as [E2 S2]. rewrite <- E2. destruct (p43_ok w _ S2) as [E3 S3]. rewrite <- E3.
    destruct (p44_ok w _ S3) as [E4 S4]. rewrite <- E4. now split.
  - destruct (p51_ok w v H) as [E1 S1]. rewrite <- E1. destruct (p52_ok w _ S1) as [E2 S2]. rewrite <- E2. destruct (p53_ok w _ S2) as [E3 S3]. rewrite <- E3.
    destruct (p54_ok w _ S3) as [E4 S4]. rewrite <- E4. destruct (p55_ok w _ S4) as [E5 S5]. rewrite <- E5. now split.
Qed.
Lemma block_ok : forall p s data, pass_ok p -> st32 s -> length data = 128 -> hv_block p s data = hv_f p s data /\ st32 (hv_block p s data).
Proof.
  intros p s data Hp Hs L. unfold hv_block, hv_f. rewrite inw_ok by exact L. cbv zeta.
  destruct (passes_ok p (map le_val (chunks 4 data)) s Hp Hs) as [E [S1 S2]]. rewrite <- E. split.
  - apply zipadd; [exact S1|apply Hs].
  - split; [now rewrite map_length, seq_length|]. apply Forall_map. apply Forall_forall. intros. apply add32_is32.
Qed.

(** ** The output *)
Lemma add32_w : forall a b c, w32 b = w32 c -> add32 a b = add32 a c.
Proof.
  intros a b c H. unfold add32. rewrite !w32_mod in *. rewrite (N.add_mod a b), (N.add_mod a c) by discriminate. now rewrite H.
Qed.
Lemma juxt_lor : forall a w f, (f < 2 ^ w)%N -> (a * 2 ^ w + f)%N = N.lor (N.shiftl a w) f.
Proof.
  intros a w f H. rewrite <- N.shiftl_mul_pow2.
  assert (E : N.land (N.shiftl a w) f = 0%N).
  { apply N.bits_inj_0. intro i. rewrite N.land_spec. destruct (N.ltb_spec i w) as [L|L]; [now rewrite N.shiftl_spec_low by exact L|].
    rewrite (proj1 (lt_pow2_bits w f) H i L). apply andb_false_r. }
  rewrite N.add_nocarry_lxor by exact E. apply N.bits_inj. intro i. rewrite N.lxor_spec, N.lor_spec.
  assert (B := N.land_spec (N.shiftl a w) f i). rewrite E, N.bits_0 in B. now destruct (N.testbit (N.shiftl a w) i), (N.testbit f i).
Qed.
Lemma shl_bit : forall a k i, N.testbit (N.shiftl a k) i = ((k <=? i)%N && N.testbit a (i - k))%bool.
Proof. intros a k i. destruct (N.leb_spec k i) as [L|L]; [now rewrite N.shiftl_spec_high' by exact L|now rewrite N.shiftl_spec_low by exact L]. Qed.
Lemma juxt_step : forall olen T a p, (a * 2 ^ nth (snd p) (hv_width olen) 0 + hv_field olen (at_ T (fst p)) (snd p))%N
  = N.lor (N.shiftl a (nth (snd p) (hv_width olen) 0%N)) (N.land (N.shiftr (at_ T (fst p)) (hv_lo olen (snd p))) (N.ones (nth (snd p) (hv_width olen) 0%N))).
Proof. intros olen T a p. rewrite juxt_lor; unfold hv_field; [now rewrite N.land_ones|]. apply N.mod_lt. apply N.pow_nonzero. discriminate. Qed.
Lemma bits_w32 : forall a b, (forall i, i < 32 -> N.testbit a (N.of_nat i) = N.testbit b (N.of_nat i)) -> w32 a = w32 b.
Proof.
  intros a b H. apply N.bits_inj. intro i. rewrite !w32_bit. destruct (N.ltb_spec i 32) as [L|L]; cbn [andb]; [|reflexivity].
  specialize (H (N.to_nat i) ltac:(lia)). now rewrite N2Nat.id in H.
Qed.
Ltac onebit x4 x5 x6 x7 :=
  cbn [N.of_nat Pos.of_succ_nat Pos.succ];
  repeat first [rewrite N.lor_spec | rewrite N.land_spec | rewrite N.shiftr_spec' | rewrite shl_bit | rewrite w32_bit];
  generalize (N.testbit x4), (N.testbit x5), (N.testbit x6), (N.testbit x7);
  let f4 := fresh in let f5 := fresh in let f6 := fresh in let f7 := fresh in intros f4 f5 f6 f7; vm_compute;
  repeat match goal with |- context [?f ?n] => match f with f4 => destruct (f n) | f5 => destruct (f n) | f6 => destruct (f n) | f7 => destruct (f n) end end; reflexivity.
Ltac mixbits olen i l := intros x0 x1 x2 x3 x4 x5 x6 x7;
  change (hv_fields olen i) with l; unfold hv_juxt; cbn [fold_left]; rewrite !juxt_step; cbn [fst snd];
  change (at_ [x0; x1; x2; x3; x4; x5; x6; x7] 4) with x4; change (at_ [x0; x1; x2; x3; x4; x5; x6; x7] 5) with x5;
  change (at_ [x0; x1; x2; x3; x4; x5; x6; x7] 6) with x6; change (at_ [x0; x1; x2; x3; x4; x5; x6; x7] 7) with x7;
  apply bits_w32; let k := fresh "k" in intros k ?;
  unfold hv_mix128, hv_mix160_0, hv_mix160_1, hv_mix160_2, hv_mix160_3, hv_mix160_4, hv_mix192_0, hv_mix192_1, hv_mix192_2, hv_mix192_3, hv_mix192_4, hv_mix192_5, rotl32;
  cbv zeta; cbn [N.ltb N.compare Pos.compare Pos.compare_cont];
  do 32 (destruct k as [|k]; [onebit x4 x5 x6 x7|]); lia.
Lemma m4_0 : forall x0 x1 x2 x3 x4 x5 x6 x7, w32 (hv_mix128 x7 x4 x5 x6 24) = w32 (hv_juxt 4 [x0; x1; x2; x3; x4; x5; x6; x7] (hv_fields 4 0)).
Proof. mixbits 4 0 [(7, 0); (6, 3); (5, 2); (4, 1)]. Qed.
Lemma m4_1 : forall x0 x1 x2 x3 x4 x5 x6 x7, w32 (hv_mix128 x6 x7 x4 x5 16) = w32 (hv_juxt 4 [x0; x1; x2; x3; x4; x5; x6; x7] (hv_fields 4 1)).
Proof. mixbits 4 1 [(7, 1); (6, 0); (5, 3); (4, 2)]. Qed.
Lemma m4_2 : forall x0 x1 x2 x3 x4 x5 x6 x7, w32 (hv_mix128 x5 x6 x7 x4 8) = w32 (hv_juxt 4 [x0; x1; x2; x3; x4; x5; x6; x7] (hv_fields 4 2)).
Proof. mixbits 4 2 [(7, 2); (6, 1); (5, 0); (4, 3)]. Qed.
Lemma m4_3 : forall x0 x1 x2 x3 x4 x5 x6 x7, w32 (hv_mix128 x4 x5 x6 x7 0) = w32 (hv_juxt 4 [x0; x1; x2; x3; x4; x5; x6; x7] (hv_fields 4 3)).
Proof. mixbits 4 3 [(7, 3); (6, 2); (5, 1); (4, 0)]. Qed.
Lemma m5_0 : forall x0 x1 x2 x3 x4 x5 x6 x7, w32 (hv_mix160_0 x5 x6 x7) = w32 (hv_juxt 5 [x0; x1; x2; x3; x4; x5; x6; x7] (hv_fields 5 0)).
Proof. mixbits 5 0 [(7, 0); (6, 4); (5, 3)]. Qed.
Lemma m5_1 : forall x0 x1 x2 x3 x4 x5 x6 x7, w32 (hv_mix160_1 x5 x6 x7) = w32 (hv_juxt 5 [x0; x1; x2; x3; x4; x5; x6; x7] (hv_fields 5 1)).
Proof. mixbits 5 1 [(7, 1); (6, 0); (5, 4)]. Qed.
Lemma m5_2 : forall x0 x1 x2 x3 x4 x5 x6 x7, w32 (hv_mix160_2 x5 x6 x7) = w32 (hv_juxt 5 [x0; x1; x2; x3; x4; x5; x6; x7] (hv_fields 5 2)).
Proof. mixbits 5 2 [(7, 2); (6, 1); (5, 0)]. Qed.
Lemma m5_3 : forall x0 x1 x2 x3 x4 x5 x6 x7, w32 (hv_mix160_3 x5 x6 x7) = w32 (hv_juxt 5 [x0; x1; x2; x3; x4; x5; x6; x7] (hv_fields 5 3)).
Proof. mixbits 5 3 [(7, 3); (6, 2); (5, 1)]. Qed.
Lemma m5_4 : forall x0 x1 x2 x3 x4 x5 x6 x7, w32 (hv_mix160_4 x5 x6 x7) = w32 (hv_juxt 5 [x0; x1; x2; x3; x4; x5; x6; x7] (hv_fields 5 4)).
Proof. mixbits 5 4 [(7, 4); (6, 3); (5, 2)]. Qed.
Lemma m6_0 : forall x0 x1 x2 x3 x4 x5 x6 x7, w32 (hv_mix192_0 x6 x7) = w32 (hv_juxt 6 [x0; x1; x2; x3; x4; x5; x6; x7] (hv_fields 6 0)).
Proof. mixbits 6 0 [(7, 0); (6, 5)]. Qed.
Lemma m6_1 : forall x0 x1 x2 x3 x4 x5 x6 x7, w32 (hv_mix192_1 x6 x7) = w32 (hv_juxt 6 [x0; x1; x2; x3; x4; x5; x6; x7] (hv_fields 6 1)).
Proof. mixbits 6 1 [(7, 1); (6, 0)]. Qed.
Lemma m6_2 : forall x0 x1 x2 x3 x4 x5 x6 x7, w32 (hv_mix192_2 x6 x7) = w32 (hv_juxt 6 [x0; x1; x2; x3; x4; x5; x6; x7] (hv_fields 6 2)).
Proof. mixbits 6 2 [(7, 2); (6, 1)]. Qed.
Lemma m6_3 : forall x0 x1 x2 x3 x4 x5 x6 x7, w32 (hv_mix192_3 x6 x7) = w32 (hv_juxt 6 [x0; x1; x2; x3; x4; x5; x6; x7] (hv_fields 6 3)).
Proof. mixbits 6 3 [(7, 3); (6, 2)]. Qed.
Lemma m6_4 : forall x0 x1 x2 x3 x4 x5 x6 x7, w32 (hv_mix192_4 x6 x7) = w32 (hv_juxt 6 [x0; x1; x2; x3; x4; x5; x6; x7] (hv_fields 6 4)).
Proof. mixbits 6 4 [(7, 4); (6, 3)]. Qed.
Lemma m6_5 : forall x0 x1 x2 x3 x4 x5 x6 x7, w32 (hv_mix192_5 x6 x7) = w32 (hv_juxt 6 [x0; x1; x2; x3; x4; x5; x6; x7] (hv_fields 6 5)).
Proof. mixbits 6 5 [(7, 5); (6, 4)]. Qed.
Lemma m7_0 : forall x0 x1 x2 x3 x4 x5 x6 x7, w32 (N.land (N.shiftr x7 27) 0x1F) = w32 (hv_juxt 7 [x0; x1; x2; x3; x4; x5; x6; x7] (hv_fields 7 0)).
Proof. mixbits 7 0 [(7, 6)]. Qed.
Lemma m7_1 : forall x0 x1 x2 x3 x4 x5 x6 x7, w32 (N.land (N.shiftr x7 22) 0x1F) = w32 (hv_juxt 7 [x0; x1; x2; x3; x4; x5; x6; x7] (hv_fields 7 1)).
Proof. mixbits 7 1 [(7, 5)]. Qed.
Lemma m7_2 : forall x0 x1 x2 x3 x4 x5 x6 x7, w32 (N.land (N.shiftr x7 18) 0x0F) = w32 (hv_juxt 7 [x0; x1; x2; x3; x4; x5; x6; x7] (hv_fields 7 2)).
Proof. mixbits 7 2 [(7, 4)]. Qed.
Lemma m7_3 : forall x0 x1 x2 x3 x4 x5 x6 x7, w32 (N.land (N.shiftr x7 13) 0x1F) = w32 (hv_juxt 7 [x0; x1; x2; x3; x4; x5; x6; x7] (hv_fields 7 3)).
Proof. mixbits 7 3 [(7, 3)]. Qed.
Lemma m7_4 : forall x0 x1 x2 x3 x4 x5 x6 x7, w32 (N.land (N.shiftr x7 9) 0x0F) = w32 (hv_juxt 7 [x0; x1; x2; x3; x4; x5; x6; x7] (hv_fields 7 4)).
Proof. mixbits 7 4 [(7, 2)]. Qed.
Lemma m7_5 : forall x0 x1 x2 x3 x4 x5 x6 x7, w32 (N.land (N.shiftr x7 4) 0x1F) = w32 (hv_juxt 7 [x0; x1; x2; x3; x4; x5; x6; x7] (hv_fields 7 5)).
Proof. mixbits 7 5 [(7, 1)]. Qed.
Lemma m7_6 : forall x0 x1 x2 x3 x4 x5 x6 x7, w32 (N.land x7 0x0F) = w32 (hv_juxt 7 [x0; x1; x2; x3; x4; x5; x6; x7] (hv_fields 7 6)).
Proof. mixbits 7 6 [(7, 0)]. Qed.

Definition olen_ok (o : nat) : Prop := o = 4 \/ o = 5 \/ o = 6 \/ o = 7 \/ o = 8.
Lemma out_ok : forall o s, olen_ok o -> st32 s -> hv_writeOutput o s = hv_out o s.
Proof.
  intros o s Ho [L F]. do 8 (destruct s as [|? s]; [discriminate|]). destruct s; [|discriminate]. unfold hv_out. rewrite <- (map_map _ (le_bytes 4)).
  unfold hv_writeOutput. cbv zeta. do 2 f_equal.
  destruct Ho as [->|[->|[->|[->| ->]]]]; cbn [seq map]; cbn [at_ nth].
  - rewrite (add32_w _ _ _ (m4_0 n n0 n1 n2 n3 n4 n5 n6)), (add32_w _ _ _ (m4_1 n n0 n1 n2 n3 n4 n5 n6)), (add32_w _ _ _ (m4_2 n n0 n1 n2 n3 n4 n5 n6)), (add32_w _ _ _ (m4_3 n n0 n1 n2 n3 n4 n5 n6)). reflexivity.
  - rewrite (add32_w _ _ _ (m5_0 n n0 n1 n2 n3 n4 n5 n6)), (add32_w _ _ _ (m5_1 n n0 n1 n2 n3 n4 n5 n6)), (add32_w _ _ _ (m5_2 n n0 n1 n2 n3 n4 n5 n6)), (add32_w _ _ _ (m5_3 n n0 n1 n2 n3 n4 n5 n6)), (add32_w _ _ _ (m5_4 n n0 n1 n2 n3 n4 n5 n6)). reflexivity.
  - rewrite (add32_w _ _ _ (m6_0 n n0 n1 n2 n3 n4 n5 n6)), (add32_w _ _ _ (m6_1 n n0 n1 n2 n3 n4 n5 n6)), (add32_w _ _ _ (m6_2 n n0 n1 n2 n3 n4 n5 n6)), (add32_w _ _ _ (m6_3 n n0 n1 n2 n3 n4 n5 n6)), (add32_w _ _ _ (m6_4 n n0 n1 n2 n3 n4 n5 n6)), (add32_w _ _ _ (m6_5 n n0 n1 n2 n3 n4 n5 n6)). reflexivity.
  - rewrite (add32_w _ _ _ (m7_0 n n0 n1 n2 n3 n4 n5 n6)), (add32_w _ _ _ (m7_1 n n0 n1 n2 n3 n4 n5 n6)), (add32_w _ _ _ (m7_2 n n0 n1 n2 n3 n4 n5 n6)), (add32_w _ _ _ (m7_3 n n0 n1 n2 n3 n4 n5 n6)), (add32_w _ _ _ (m7_4 n n0 n1 n2 n3 n4 n5 n6)), (add32_w _ _ _ (m7_5 n n0 n1 n2 n3 n4 n5 n6)), (add32_w _ _ _ (m7_6 n n0 n1 n2 n3 n4 n5 n6)). reflexivity.
  - repeat match goal with H : Forall _ (_ :: _) |- _ => inversion H; clear H; subst end.
    unfold hv_fields, hv_juxt. cbn [fold_left]. unfold add32. rewrite !N.add_0_r. rewrite !w32_eq by assumption. reflexivity.
Qed.
Lemma out_length : forall o s, length (hv_out o s) = 4 * o.
Proof.
  intros. unfold hv_out. rewrite <- (map_map _ (le_bytes 4)), concat_le_length, map_length, seq_length. lia.
Qed.
