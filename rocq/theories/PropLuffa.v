(** PropLuffa.v -- C121: the luffa package. *)
From Coq Require Import List NArith Arith Lia Bool.
Require Import Verif.Base Verif.Words Verif.HashAPI Verif.Buf Verif.Bytes Verif.MD Verif.Refine Verif.SpecCmac Verif.Threefish Verif.SpecLuffa Verif.LuffaTab Verif.Luffa Verif.PropHavalM.
Import ListNotations.
Local Open Scope nat_scope.
(** ** SubCrumb *)
Lemma word_bit_gen : forall (f : N -> bool) n m i,
  N.testbit (fold_right (fun i acc => if f (N.of_nat i) then N.setbit acc (N.of_nat i) else acc) 0%N (seq m n)) i = (N.of_nat m <=? i)%N && (i <? N.of_nat (m + n))%N && f i.
Proof.
  intros f n. induction n as [|n IH]; intros m i.
  - cbn [seq fold_right]. rewrite N.bits_0. destruct (N.leb_spec (N.of_nat m) i), (N.ltb_spec i (N.of_nat (m + 0))); try reflexivity. lia.
  - cbn [seq fold_right]. set (acc := fold_right _ _ _). assert (E : N.testbit acc i = (N.of_nat (S m) <=? i)%N && (i <? N.of_nat (S m + n))%N && f i) by apply IH. clearbody acc.
    assert (E2 : N.testbit (if f (N.of_nat m) then N.setbit acc (N.of_nat m) else acc) i = (if (N.of_nat m =? i)%N then f i || N.testbit acc i else N.testbit acc i)).
    { destruct (N.eqb_spec (N.of_nat m) i) as [->|H].
      - destruct (f i); [now rewrite N.setbit_eq|reflexivity].
      - destruct (f (N.of_nat m)); [rewrite N.setbit_neq by auto|]; reflexivity. }
    rewrite E2, E. replace (S m + n) with (m + S n) by lia.
    destruct (N.eqb_spec (N.of_nat m) i), (N.leb_spec (N.of_nat (S m)) i), (N.leb_spec (N.of_nat m) i), (N.ltb_spec i (N.of_nat (m + S n))); try lia; cbn [andb]; try reflexivity; now rewrite ?orb_false_r.
Qed.
Lemma word_bit : forall f i, N.testbit (lf_word f) i = (i <? 32)%N && f i.
Proof. intros f i. unfold lf_word. rewrite word_bit_gen. change (N.of_nat 0 <=? i)%N with (0 <=? i)%N. destruct (N.leb_spec 0 i); [|lia]. reflexivity. Qed.
Lemma word_is32 : forall f, is32 (lf_word f).
Proof. intro f. apply (lt_pow2_bits 32). intros i H. rewrite word_bit. destruct (N.ltb_spec i 32); [lia|reflexivity]. Qed.
Ltac crumb := intros a0 a1 a2 a3 H0 H1 H2 H3; cbv zeta; apply bits32; [i32|apply word_is32|];
  let i := fresh in let Hi := fresh in intros i Hi; unfold lf_crumb; rewrite word_bit; rewrite (proj2 (N.ltb_lt i 32) Hi); cbn [andb]; unfold lf_nibble;
  repeat first [rewrite N.lxor_spec | rewrite N.land_spec | rewrite N.lor_spec | rewrite (not32_bit _ _ Hi)];
  destruct (N.testbit a0 i), (N.testbit a1 i), (N.testbit a2 i), (N.testbit a3 i); reflexivity.
(** the statements of SubCrumb, on (a0, a1, a2, a3) *)
Definition go_c3 a0 a1 a2 a3 := let V03 := N.land a3 a0 in let V02 := N.lxor a2 a3 in let V00 := N.lxor (N.lor a0 a1) a3 in let V01 := N.lxor (not32 a1) V03 in
  let V03 := N.lxor V03 V02 in let V02 := N.lxor (N.land V02 V00) V01 in N.lxor V03 V02.
Definition go_c0 a0 a1 a2 a3 := let V03 := N.land a3 a0 in let V02 := N.lxor a2 a3 in let V01 := N.lxor (not32 a1) V03 in
  let V03 := N.lxor V03 V02 in N.lxor a0 (N.lor V01 V03).
Definition go_c2 a0 a1 a2 a3 := let V03 := N.land a3 a0 in let V02 := N.lxor a2 a3 in let V00 := N.lxor (N.lor a0 a1) a3 in let V01 := N.lxor (not32 a1) V03 in
  let V03 := N.lxor V03 V02 in let V02 := N.lxor (N.land V02 V00) V01 in N.land V02 (N.lor V01 V03).
Definition go_c1 a0 a1 a2 a3 := let V03 := N.land a3 a0 in let V02 := N.lxor a2 a3 in let V00 := N.lxor (N.lor a0 a1) a3 in let V01 := N.lxor (not32 a1) V03 in
  let V03 := N.lxor V03 V02 in N.lxor (N.lor V01 V03) (not32 V00).
Lemma c0_ok : forall a0 a1 a2 a3, is32 a0 -> is32 a1 -> is32 a2 -> is32 a3 -> go_c0 a0 a1 a2 a3 = lf_crumb 0 a0 a1 a2 a3.
Proof. unfold go_c0. crumb. Qed.
Lemma c1_ok : forall a0 a1 a2 a3, is32 a0 -> is32 a1 -> is32 a2 -> is32 a3 -> go_c1 a0 a1 a2 a3 = lf_crumb 1 a0 a1 a2 a3.
Proof. unfold go_c1. crumb. Qed.
Lemma c2_ok : forall a0 a1 a2 a3, is32 a0 -> is32 a1 -> is32 a2 -> is32 a3 -> go_c2 a0 a1 a2 a3 = lf_crumb 2 a0 a1 a2 a3.
Proof. unfold go_c2. crumb. Qed.
Lemma c3_ok : forall a0 a1 a2 a3, is32 a0 -> is32 a1 -> is32 a2 -> is32 a3 -> go_c3 a0 a1 a2 a3 = lf_crumb 3 a0 a1 a2 a3.
Proof. unfold go_c3. crumb. Qed.
(** the rest of a step *)
Definition mix_tail (s : list N) (c : N * N) : list N :=
  let m := map (fun k => lf_mix (at_ s k) (at_ s (k + 4))) (seq 0 4) in
  let t := map fst m ++ map snd m in
  [N.lxor (at_ t 0) (fst c); at_ t 1; at_ t 2; at_ t 3; N.lxor (at_ t 4) (snd c); at_ t 5; at_ t 6; at_ t 7].
Lemma step_shape : forall c0 c4 a0 a1 a2 a3 a4 a5 a6 a7, lf_step c0 c4 [a0; a1; a2; a3; a4; a5; a6; a7] =
  mix_tail [go_c0 a0 a1 a2 a3; go_c1 a0 a1 a2 a3; go_c2 a0 a1 a2 a3; go_c3 a0 a1 a2 a3;
            go_c3 a5 a6 a7 a4; go_c0 a5 a6 a7 a4; go_c1 a5 a6 a7 a4; go_c2 a5 a6 a7 a4] (c0, c4).
Proof. intros. reflexivity. Qed.
Lemma step_ok : forall c0 c4 a, length a = 8 -> Forall is32 a -> lf_step c0 c4 a = lf_round (c0, c4) a.
Proof.
  intros c0 c4 a L F. destr_list a L 8. repeat (apply Forall_cons_iff in F; destruct F as [? F]).
  rewrite step_shape. rewrite !c0_ok, !c1_ok, !c2_ok, !c3_ok by assumption. reflexivity.
Qed.
Lemma mix_is32 : forall x y, is32 x -> is32 y -> is32 (fst (lf_mix x y)) /\ is32 (snd (lf_mix x y)).
Proof. intros x y Hx Hy. unfold lf_mix. cbv zeta. cbn [fst snd]. split; repeat (apply lxor_is32 || apply rotl32_is32 || assumption). Qed.
Definition lane_ok (a : list N) : Prop := length a = 8 /\ Forall is32 a.
Lemma round_lane : forall c a, is32 (fst c) -> is32 (snd c) -> lane_ok (lf_round c a).
Proof.
  intros c a H1 H2. unfold lf_round. cbv zeta.
  set (s := [lf_crumb 0 _ _ _ _; _; _; _; _; _; _; _]). assert (Fs : length s = 8 /\ Forall is32 s) by (split; [reflexivity|repeat constructor; apply word_is32]).
  clearbody s. destruct Fs as [Ls Fs]. destr_list s Ls 8. repeat (apply Forall_cons_iff in Fs; destruct Fs as [? Fs]).
  cbn [seq map Nat.add]. unfold at_. cbn [nth app map]. split; [reflexivity|]. repeat (apply Forall_cons; [first [apply lxor_is32; [apply mix_is32; assumption|assumption] | apply mix_is32; assumption]|]). apply Forall_nil.
Qed.
Definition rc_ok (rc0 rc4 : list N) (j : nat) : Prop := map (fun r => (at_ rc0 r, at_ rc4 r)) (seq 0 8) = lf_consts 8 (nth j lf_seeds (0, 0)%N).
Definition c_is32 (c : N * N) : Prop := is32 (fst c) /\ is32 (snd c).
Lemma consts_is32 : forall j, j < 5 -> Forall c_is32 (lf_consts 8 (nth j lf_seeds (0, 0)%N)).
Proof.
  intros j H. do 5 (destruct j as [|j]; [apply Forall_forall; intros c Hc;
    assert (E : forallb (fun c => (fst c <? 4294967296)%N && (snd c <? 4294967296)%N) (lf_consts 8 (nth 0 lf_seeds (0, 0)%N) ++ lf_consts 8 (nth 1 lf_seeds (0, 0)%N) ++ lf_consts 8 (nth 2 lf_seeds (0, 0)%N) ++ lf_consts 8 (nth 3 lf_seeds (0, 0)%N) ++ lf_consts 8 (nth 4 lf_seeds (0, 0)%N)) = true) by (vm_compute; reflexivity);
    rewrite forallb_forall in E; specialize (E c); rewrite !in_app_iff in E; apply andb_prop in E; [destruct E as [E1 E2]; apply N.ltb_lt in E1, E2; split; assumption|tauto]|]). lia.
Qed.
Lemma fold_round_lane : forall cs a, Forall c_is32 cs -> lane_ok a -> lane_ok (fold_left (fun x c => lf_round c x) cs a).
Proof.
  induction cs as [|c cs IH]; intros a F A; [exact A|]. apply Forall_cons_iff in F. destruct F as [[F1 F2] F]. cbn [fold_left]. apply IH; [exact F|]. apply round_lane; assumption.
Qed.
Lemma loop_ok : forall rc0 rc4 j a, rc_ok rc0 rc4 j -> j < 5 -> lane_ok a ->
  lf_loop rc0 rc4 a = fold_left (fun x c => lf_round c x) (lf_consts 8 (nth j lf_seeds (0, 0)%N)) a.
Proof.
  intros rc0 rc4 j a R Hj A. pose proof (consts_is32 j Hj) as F. rewrite <- R in F |- *. unfold lf_loop. clear R. revert a A F. generalize (seq 0 8).
  induction l as [|r l IH]; intros a A F; [reflexivity|]. cbn [map fold_left] in *. apply Forall_cons_iff in F. destruct F as [[F1 F2] F]. cbn [fst snd] in *. destruct A as [L A].
  rewrite step_ok by assumption. apply IH; [|exact F]. apply round_lane; assumption.
Qed.
(** ** message injection *)
Definition lanes_ok (v : lfv) (V : list (list N)) : Prop := length V = lf_w v /\ Forall lane_ok V.
Lemma mi256_ok : forall a b c M, length a = 8 -> length b = 8 -> length c = 8 -> length M = 8 -> let X := lf_inject LF256 [a; b; c] M in
  lf_mi256 (a ++ b ++ c) M = lf_tweak 0 (lane X 0) ++ lf_tweak 1 (lane X 1) ++ lf_tweak 2 (lane X 2).
Proof. intros a b c M La Lb Lc LM. destr_list a La 8. destr_list b Lb 8. destr_list c Lc 8. destr_list M LM 8. reflexivity. Qed.
Lemma mi384_ok : forall a b c d M, length a = 8 -> length b = 8 -> length c = 8 -> length d = 8 -> length M = 8 -> let X := lf_inject LF384 [a; b; c; d] M in
  lf_mi384 (a ++ b ++ c ++ d) M = lf_tweak 0 (lane X 0) ++ lf_tweak 1 (lane X 1) ++ lf_tweak 2 (lane X 2) ++ lf_tweak 3 (lane X 3).
Proof. intros a b c d M La Lb Lc Ld LM. destr_list a La 8. destr_list b Lb 8. destr_list c Lc 8. destr_list d Ld 8. destr_list M LM 8. reflexivity. Qed.
Lemma mi512_ok : forall a b c d e M, length a = 8 -> length b = 8 -> length c = 8 -> length d = 8 -> length e = 8 -> length M = 8 -> let X := lf_inject LF512 [a; b; c; d; e] M in
  lf_mi512 (a ++ b ++ c ++ d ++ e) M = lf_tweak 0 (lane X 0) ++ lf_tweak 1 (lane X 1) ++ lf_tweak 2 (lane X 2) ++ lf_tweak 3 (lane X 3) ++ lf_tweak 4 (lane X 4).
Proof. intros a b c d e M La Lb Lc Ld Le LM. destr_list a La 8. destr_list b Lb 8. destr_list c Lc 8. destr_list d Ld 8. destr_list e Le 8. destr_list M LM 8. reflexivity. Qed.
Lemma add_lane : forall a b, lane_ok a -> lane_ok b -> lane_ok (lf_add a b).
Proof.
  intros a b [La Fa] [Lb Fb]. destr_list a La 8. destr_list b Lb 8. repeat (apply Forall_cons_iff in Fa; destruct Fa as [? Fa]). repeat (apply Forall_cons_iff in Fb; destruct Fb as [? Fb]).
  unfold lf_add. cbn [combine map fst snd]. split; [reflexivity|]. repeat (apply Forall_cons; [apply lxor_is32; assumption|]). apply Forall_nil.
Qed.
Lemma mul2_lane : forall a, lane_ok a -> lane_ok (lf_mul2 a).
Proof.
  intros a [La Fa]. destr_list a La 8. repeat (apply Forall_cons_iff in Fa; destruct Fa as [? Fa]). unfold lf_mul2, at_. cbn [nth]. split; [reflexivity|].
  repeat (apply Forall_cons; [try apply lxor_is32; assumption|]). apply Forall_nil.
Qed.
Lemma pow_lane : forall j a, lane_ok a -> lane_ok (lf_pow j a).
Proof. induction j as [|j IH]; intros a A; [exact A|]. unfold lf_pow in *. cbn [Nat.iter]. apply mul2_lane, IH, A. Qed.
Lemma tweak_lane : forall j a, lane_ok a -> lane_ok (lf_tweak j a).
Proof.
  intros j a [La Fa]. destr_list a La 8. repeat (apply Forall_cons_iff in Fa; destruct Fa as [? Fa]). unfold lf_tweak. rewrite firstn_cons, firstn_cons, firstn_cons, firstn_cons, firstn_O, skipn_cons, skipn_cons, skipn_cons, skipn_cons, skipn_O. cbn [map app].
  split; [reflexivity|]. repeat (apply Forall_cons; [first [assumption | destruct j; [assumption|apply rotl32_is32; assumption]]|]). apply Forall_nil.
Qed.
Lemma lane_in : forall V j, Forall lane_ok V -> j < length V -> lane_ok (lane V j).
Proof. intros V j F H. rewrite Forall_forall in F. apply F. apply nth_In. exact H. Qed.
Lemma spread_ok : forall w V s, length V = w -> Forall lane_ok V -> lane_ok s -> length (lf_spread V s) = w /\ Forall lane_ok (lf_spread V s).
Proof.
  intros w V s L F S. unfold lf_spread. rewrite map_length. split; [exact L|]. apply Forall_map. apply Forall_forall. intros x Hx. rewrite Forall_forall in F. apply add_lane; [apply mul2_lane; exact S|apply F; exact Hx].
Qed.
Lemma layer_ok : forall w d V, 0 < w -> length V = w -> Forall lane_ok V -> length (lf_layer w d V) = w /\ Forall lane_ok (lf_layer w d V).
Proof.
  intros w d V Hw L F. unfold lf_layer. rewrite map_length, seq_length. split; [reflexivity|]. apply Forall_map. apply Forall_forall. intros j Hj. apply in_seq in Hj.
  apply add_lane; [apply mul2_lane|]; apply lane_in; try assumption; try lia. pose proof (Nat.mod_upper_bound (j + d) w ltac:(lia)). lia.
Qed.
Lemma map_lanes : forall w (g : nat -> list N), (forall j, j < w -> lane_ok (g j)) -> length (map g (seq 0 w)) = w /\ Forall lane_ok (map g (seq 0 w)).
Proof. intros w g H. rewrite map_length, seq_length. split; [reflexivity|]. apply Forall_map. apply Forall_forall. intros j Hj. apply in_seq in Hj. apply H. lia. Qed.
Lemma inject_ok : forall v V M, lanes_ok v V -> lane_ok M -> lanes_ok v (lf_inject v V M).
Proof.
  intros v V M [L F] HM. unfold lanes_ok, lf_inject. destruct v; cbn [lf_w] in *; cbv zeta; set (s := lf_add _ _).
  - assert (S : lane_ok s) by (unfold s; repeat apply add_lane; apply lane_in; (exact F || lia)). clearbody s. destruct (spread_ok 3 V s L F S) as [L1 F1].
    apply map_lanes. intros j Hj. apply add_lane; [apply pow_lane; exact HM|apply lane_in; [exact F1|lia]].
  - assert (S : lane_ok s) by (unfold s; repeat apply add_lane; apply lane_in; (exact F || lia)). clearbody s. destruct (spread_ok 4 V s L F S) as [L1 F1]. destruct (layer_ok 4 3 _ ltac:(lia) L1 F1) as [L2 F2].
    apply map_lanes. intros j Hj. apply add_lane; [apply lane_in; [exact F2|lia]|apply pow_lane; exact HM].
  - assert (S : lane_ok s) by (unfold s; repeat apply add_lane; apply lane_in; (exact F || lia)). clearbody s. destruct (spread_ok 5 V s L F S) as [L1 F1]. destruct (layer_ok 5 1 _ ltac:(lia) L1 F1) as [L2 F2]. destruct (layer_ok 5 4 _ ltac:(lia) L2 F2) as [L3 F3].
    apply map_lanes. intros j Hj. apply add_lane; [apply lane_in; [exact F3|lia]|apply pow_lane; exact HM].
Qed.
Lemma Q_lane : forall j a, j < 5 -> lane_ok a -> lane_ok (lf_Q j a).
Proof. intros j a Hj A. unfold lf_Q. apply fold_round_lane; [apply consts_is32; exact Hj|apply tweak_lane; exact A]. Qed.
Lemma F_ok : forall v V b, lanes_ok v V -> lane_ok (map be_val (chunks 4 b)) -> lanes_ok v (lf_F v V b).
Proof.
  intros v V b HV HM. unfold lf_F. cbv zeta. destruct (inject_ok v V _ HV HM) as [L F]. unfold lanes_ok. apply map_lanes. intros j Hj. apply Q_lane; [destruct v; cbn [lf_w] in Hj; lia|]. apply lane_in; [exact F|lia].
Qed.
(** ** one block *)
Lemma load_ok : forall b, length b = 32 -> lf_load b = map be_val (chunks 4 b).
Proof.
  intros b L. unfold lf_load, chunks. rewrite L. change (32 / 4) with 8. rewrite map_map. apply map_ext_in. intros i Hi. unfold slice. replace (4 * i + 4 - 4 * i) with 4 by lia. rewrite (Nat.mul_comm i 4). reflexivity.
Qed.
Lemma load_lane : forall b, length b = 32 -> isbytes b -> lane_ok (map be_val (chunks 4 b)).
Proof.
  intros b L B. split; [rewrite map_length, chunks_length, L; reflexivity|]. apply Forall_map. apply Forall_forall. intros c Hc.
  pose proof (chunks_all_length N 4 b ltac:(lia)) as F. rewrite Forall_forall in F. specialize (F c Hc).
  assert (Bc : isbytes c) by (unfold chunks in Hc; apply in_map_iff in Hc; destruct Hc as (i & <- & _); apply isbytes_firstn, isbytes_skipn, B).
  pose proof (le_val_lt (rev c)) as V. unfold be_val, is32. eapply N.lt_le_trans; [apply le_val_lt; apply Forall_rev; exact Bc|]. rewrite rev_length, F. apply N.le_refl.
Qed.
Lemma slice0 : forall (a r : list N), length a = 8 -> slice (a ++ r) 0 8 = a.
Proof. intros a r L. unfold slice. rewrite skipn_O. apply firstn_app_len. exact L. Qed.
Lemma lane0 : forall a r, length a = 8 -> lf_lane (a ++ r) 0 = a.
Proof. intros. apply slice0. assumption. Qed.
Lemma laneS : forall a r j, length a = 8 -> lf_lane (a ++ r) (S j) = lf_lane r j.
Proof.
  intros a r j L. unfold lf_lane, slice. replace (8 * S j) with (8 + 8 * j) by lia. rewrite <- Base.skipn_skipn. rewrite skipn_app_len by exact L. f_equal.
Qed.
Lemma lane_last : forall a, length a = 8 -> lf_lane a 0 = a.
Proof. intros a L. unfold lf_lane, slice. rewrite skipn_O. apply firstn_all2. cbn [Nat.mul Nat.add Nat.sub]. lia. Qed.
Lemma rc_tabs : rc_ok lf_RC00_256 lf_RC04_256 0 /\ rc_ok lf_RC10_256 lf_RC14_256 1 /\ rc_ok lf_RC20_256 lf_RC24_256 2 /\
  rc_ok lf_RC00_384 lf_RC04_384 0 /\ rc_ok lf_RC10_384 lf_RC14_384 1 /\ rc_ok lf_RC20_384 lf_RC24_384 2 /\ rc_ok lf_RC30_384 lf_RC34_384 3 /\
  rc_ok lf_RC00_512 lf_RC04_512 0 /\ rc_ok lf_RC10_512 lf_RC14_512 1 /\ rc_ok lf_RC20_512 lf_RC24_512 2 /\ rc_ok lf_RC30_512 lf_RC34_512 3 /\ rc_ok lf_RC40_512 lf_RC44_512 4.
Proof. repeat split; vm_compute; reflexivity. Qed.
Lemma loops_ok : forall rc0 rc4 j a, rc_ok rc0 rc4 j -> j < 5 -> lane_ok a -> lf_loop rc0 rc4 (lf_tweak j a) = lf_Q j a.
Proof. intros rc0 rc4 j a R Hj A. rewrite (loop_ok rc0 rc4 j) by (assumption || apply tweak_lane, A). reflexivity. Qed.
Lemma block_ok : forall v V b, lanes_ok v V -> length b = 32 -> isbytes b -> lf_block v (concat V) b = concat (lf_F v V b).
Proof.
  intros v V b [L F] Lb B. pose proof (load_lane b Lb B) as HM. destruct rc_tabs as (R1 & R2 & R3 & R4 & R5 & R6 & R7 & R8 & R9 & R10 & R11 & R12).
  pose proof (inject_ok v V _ (conj L F) HM) as HX. unfold lf_F. cbv zeta. destruct v; cbn [lf_block lf_w] in *.
  - destr_list V L 3. repeat (apply Forall_cons_iff in F; destruct F as [? F]). cbn [concat]. rewrite app_nil_r. unfold lf256_block. cbv zeta. rewrite load_ok by exact Lb.
    rewrite mi256_ok by (apply HM || match goal with H : lane_ok ?x |- length ?x = 8 => apply H end). revert HX. generalize (lf_inject LF256 [l; l0; l1] (map be_val (chunks 4 b))). intros X [LX FX]. cbn [lf_w] in LX.
    assert (A0 : lane_ok (lane X 0)) by (apply lane_in; [exact FX|lia]). assert (A1 : lane_ok (lane X 1)) by (apply lane_in; [exact FX|lia]). assert (A2 : lane_ok (lane X 2)) by (apply lane_in; [exact FX|lia]).
    rewrite !laneS, !lane0, lane_last by (apply tweak_lane; assumption).
    rewrite (loops_ok _ _ 0), (loops_ok _ _ 1), (loops_ok _ _ 2) by (assumption || lia). cbn [seq map concat]. rewrite app_nil_r. reflexivity.
  - destr_list V L 4. repeat (apply Forall_cons_iff in F; destruct F as [? F]). cbn [concat]. rewrite app_nil_r. unfold lf384_block. cbv zeta. rewrite load_ok by exact Lb.
    rewrite mi384_ok by (apply HM || match goal with H : lane_ok ?x |- length ?x = 8 => apply H end). revert HX. generalize (lf_inject LF384 [l; l0; l1; l2] (map be_val (chunks 4 b))). intros X [LX FX]. cbn [lf_w] in LX.
    assert (A0 : lane_ok (lane X 0)) by (apply lane_in; [exact FX|lia]). assert (A1 : lane_ok (lane X 1)) by (apply lane_in; [exact FX|lia]). assert (A2 : lane_ok (lane X 2)) by (apply lane_in; [exact FX|lia]). assert (A3 : lane_ok (lane X 3)) by (apply lane_in; [exact FX|lia]).
    rewrite !laneS, !lane0, lane_last by (apply tweak_lane; assumption).
    rewrite (loops_ok _ _ 0), (loops_ok _ _ 1), (loops_ok _ _ 2), (loops_ok _ _ 3) by (assumption || lia). cbn [seq map concat]. rewrite app_nil_r. reflexivity.
  - destr_list V L 5. repeat (apply Forall_cons_iff in F; destruct F as [? F]). cbn [concat]. rewrite app_nil_r. unfold lf512_block. cbv zeta. rewrite load_ok by exact Lb.
    rewrite mi512_ok by (apply HM || match goal with H : lane_ok ?x |- length ?x = 8 => apply H end). revert HX. generalize (lf_inject LF512 [l; l0; l1; l2; l3] (map be_val (chunks 4 b))). intros X [LX FX]. cbn [lf_w] in LX.
    assert (A0 : lane_ok (lane X 0)) by (apply lane_in; [exact FX|lia]). assert (A1 : lane_ok (lane X 1)) by (apply lane_in; [exact FX|lia]). assert (A2 : lane_ok (lane X 2)) by (apply lane_in; [exact FX|lia]). assert (A3 : lane_ok (lane X 3)) by (apply lane_in; [exact FX|lia]). assert (A4 : lane_ok (lane X 4)) by (apply lane_in; [exact FX|lia]).
    rewrite !laneS, !lane0, lane_last by (apply tweak_lane; assumption).
    rewrite (loops_ok _ _ 0), (loops_ok _ _ 1), (loops_ok _ _ 2), (loops_ok _ _ 3), (loops_ok _ _ 4) by (assumption || lia). cbn [seq map concat]. rewrite app_nil_r. reflexivity.
Qed.
(** ** the digest *)
Lemma iv_ok : forall v, lf_IV v = concat (firstn (lf_w v) lf_iv) /\ lanes_ok v (firstn (lf_w v) lf_iv).
Proof.
  intro v. split; [destruct v; reflexivity|]. destruct v; (split; [reflexivity|]); cbn [lf_w]; unfold lf_iv; rewrite ?firstn_cons, ?firstn_O;
    repeat (apply Forall_cons; [split; [reflexivity|repeat (apply Forall_cons; [reflexivity|]); apply Forall_nil]|]); apply Forall_nil.
Qed.
Lemma fold_ok : forall v l V, lanes_ok v V -> Forall (fun b => length b = 32 /\ isbytes b) l ->
  fold_left (lf_block v) l (concat V) = concat (fold_left (lf_F v) l V) /\ lanes_ok v (fold_left (lf_F v) l V).
Proof.
  intros v. induction l as [|b l IH]; intros V HV F; [auto|]. apply Forall_cons_iff in F. destruct F as [[Lb Bb] F]. cbn [fold_left]. rewrite block_ok by assumption.
  apply IH; [|exact F]. apply F_ok; [exact HV|]. apply load_lane; assumption.
Qed.
Lemma chunks_blocks : forall m, isbytes m -> Forall (fun b => length b = 32 /\ isbytes b) (chunks 32 m).
Proof.
  intros m B. apply Forall_forall. intros c Hc. pose proof (chunks_all_length N 32 m ltac:(lia)) as F. rewrite Forall_forall in F. split; [apply F, Hc|].
  unfold chunks in Hc. apply in_map_iff in Hc. destruct Hc as (i & <- & _). apply isbytes_firstn, isbytes_skipn, B.
Qed.
Lemma tmp_ok : forall p, p < 32 -> let tmp := copy_at (upd (zeros 32) p 128%N) (S p) (zeros (31 - p)) in
  skipn p tmp = 128%N :: zeros (31 - p) /\ copy_at tmp 0 (zeros (S p)) = zeros 32.
Proof. intros p H. do 32 (destruct p as [|p]; [split; reflexivity|]). lia. Qed.
Lemma out_sum : forall v V, lanes_ok v V -> lf_sum V = flat_map (fun k => be_bytes 4 (lf_out v (concat V) k)) (seq 0 8).
Proof.
  intros v V [L F]. destruct v; cbn [lf_w] in L.
  - destr_list V L 3. repeat (apply Forall_cons_iff in F; destruct F as [[? _] F]). destr_list l H 8. destr_list l0 H0 8. destr_list l1 H1 8. reflexivity.
  - destr_list V L 4. repeat (apply Forall_cons_iff in F; destruct F as [[? _] F]). destr_list l H 8. destr_list l0 H0 8. destr_list l1 H1 8. destr_list l2 H2 8. reflexivity.
  - destr_list V L 5. repeat (apply Forall_cons_iff in F; destruct F as [[? _] F]). destr_list l H 8. destr_list l0 H0 8. destr_list l1 H1 8. destr_list l2 H2 8. destr_list l3 H3 8. reflexivity.
Qed.
Lemma outs_len' : forall (g : nat -> N) k a, length (flat_map (fun i => be_bytes 4 (g i)) (seq a k)) = 4 * k.
Proof. intros g k. induction k as [|k IH]; intro a; [reflexivity|]. cbn [seq flat_map]. rewrite app_length, IH, be_bytes_length. lia. Qed.
Lemma outs_len : forall (g : nat -> N) k, length (flat_map (fun i => be_bytes 4 (g i)) (seq 0 k)) = 4 * k.
Proof. intros. apply outs_len'. Qed.
Lemma outs_prefix : forall (g : nat -> N) n k, n <= k -> flat_map (fun i => be_bytes 4 (g i)) (seq 0 n) = firstn (4 * n) (flat_map (fun i => be_bytes 4 (g i)) (seq 0 k)).
Proof.
  intros g n k H. replace k with (n + (k - n)) by lia. rewrite seq_app, flat_map_app. symmetry. apply firstn_app_len. apply outs_len.
Qed.
Definition lf_rel (v : lfv) (d : dig (list N)) (m : list N) : Prop := dig_rel 32 (lf_block v) (lf_IV v) 1 d m.
Lemma write_lf : forall v d m p, lf_rel v d m -> lf_rel v (fst (lf_write v d p)) (m ++ p) /\ snd (lf_write v d p) = length p.
Proof. intros v d m p H. split; [apply (write_pre_rel 32 (lf_block v) ltac:(lia)); exact H|apply write_pre_count]. Qed.
Lemma pad_length : forall m, length (lf_pad m) mod 32 = 0.
Proof.
  intro m. unfold lf_pad. rewrite app_length. cbn [length]. rewrite zeros_length. pose proof (Nat.mod_upper_bound (length m) 32 ltac:(lia)) as B. pose proof (Nat.div_mod (length m) 32 ltac:(lia)) as D.
  replace (length m + S (31 - length m mod 32)) with ((length m / 32 + 1) * 32) by lia. apply Nat.mod_mul. lia.
Qed.
Lemma ds_ok : forall v d m, lf_rel v d m -> isbytes m -> ds d = concat (fold_left (lf_F v) (chunks 32 m) (firstn (lf_w v) lf_iv)) /\ lanes_ok v (fold_left (lf_F v) (chunks 32 m) (firstn (lf_w v) lf_iv)).
Proof.
  intros v d m (E & _) B. destruct (iv_ok v) as [EI LI]. rewrite E, EI. apply fold_ok; [exact LI|apply chunks_blocks; exact B].
Qed.
Lemma blank : forall m, length m mod 32 = 0 -> chunks 32 (m ++ zeros 32) = chunks 32 m ++ [zeros 32].
Proof.
  intros m H. rewrite chunks_app by lia. f_equal. assert (R : rest 32 m = []) by (apply length_zero_iff_nil; rewrite rest_length by lia; exact H). rewrite R. cbn [app]. apply chunks_one; [lia|reflexivity].
Qed.
Definition lf_n (v : lfv) (hs : nat) : Prop := match v with LF256 => hs = 28 \/ hs = 32 | LF384 => hs = 48 | LF512 => hs = 64 end.
Lemma checkSum_ok : forall v hs d m, lf_n v hs -> lf_rel v d m -> isbytes m -> lf_checkSum v hs d = lf_hash v hs m.
Proof.
  intros v hs d m HN R B. unfold lf_checkSum. cbv zeta. assert (P : dnx d < 32) by (apply (dig_nx_lt 32 (lf_block v) ltac:(lia) _ _ _ _ R)).
  destruct (tmp_ok (dnx d) P) as [T1 T2]. cbv zeta in T1, T2. rewrite T1, T2. clear T1 T2.
  pose proof (dig_nx 32 (lf_block v) ltac:(lia) _ _ _ _ R) as EP. rewrite EP. clear EP P.
  destruct (write_lf v d m (128%N :: zeros (31 - length m mod 32)) R) as [R1 _]. fold (lf_pad m) in R1. set (d1 := fst (lf_write v d _)) in *. clearbody d1. clear R d.
  destruct (write_lf v d1 _ (zeros 32) R1) as [R2 _]. set (d2 := fst (lf_write v d1 _)) in *. clearbody d2. clear R1 d1.
  destruct (write_lf v d2 _ (zeros 32) R2) as [R3 _]. set (d3 := fst (lf_write v d2 _)) in *. clearbody d3.
  assert (BP : isbytes (lf_pad m)) by (unfold lf_pad; apply Forall_app; split; [exact B|apply Forall_cons; [reflexivity|apply zeros_isbytes]]).
  pose proof (pad_length m) as LP. unfold lf_hash. cbv zeta.
  destruct (ds_ok v d2 _ R2 ltac:(apply Forall_app; split; [exact BP|apply zeros_isbytes])) as [E2 O2].
  destruct (ds_ok v d3 _ R3 ltac:(apply Forall_app; split; [apply Forall_app; split; [exact BP|apply zeros_isbytes]|apply zeros_isbytes])) as [E3 O3].
  rewrite blank in E3, O3 by (rewrite app_length, zeros_length; replace (length (lf_pad m) + 32) with (length (lf_pad m) + 1 * 32) by lia; rewrite Nat.mod_add by lia; exact LP).
  rewrite blank in E2, O2, E3, O3 by exact LP. rewrite !fold_left_app in *. cbn [fold_left] in *.
  set (V0 := fold_left (lf_F v) (chunks 32 (lf_pad m)) (firstn (lf_w v) lf_iv)) in *. clearbody V0. clear R2 R3.
  set (V1 := lf_F v V0 (zeros 32)) in *. clearbody V1. set (V2 := lf_F v V1 (zeros 32)) in *. clearbody V2. rewrite E2, E3. clear E2 E3 d2 d3.
  rewrite !(out_sum v) by assumption. destruct v; cbn [lf_n] in HN.
  - destruct HN as [-> | ->]; [change (28 =? 32) with false|change (32 =? 32) with true]; cbv iota.
    + rewrite (outs_prefix _ 7 8) by lia. rewrite firstn_app, outs_len. change (28 - 4 * 8) with 0. rewrite firstn_O, app_nil_r. reflexivity.
    + rewrite firstn_app, outs_len. change (32 - 4 * 8) with 0. rewrite firstn_O, app_nil_r. symmetry. apply firstn_all2. rewrite outs_len. lia.
  - subst hs. rewrite firstn_app, outs_len. rewrite firstn_all2 by (rewrite outs_len; lia). f_equal.
  - subst hs. rewrite firstn_app, outs_len. rewrite firstn_all2 by (rewrite outs_len; lia). f_equal.
Qed.
(** C121: every history of Luffa-224/256/384/512. *)
Theorem C121_luffa_history : forall v hs ops, lf_n v hs -> Forall op_bytes ops -> run (lf_impl v hs) (lf_reset v) ops = ideal_run (lf_hash v hs) [] ops.
Proof.
  intros v hs ops HN HF. apply (run_refines_bytes _ (lf_impl v hs) (lf_hash v hs) (fun d m => lf_rel v d m /\ isbytes m)).
  - intros d m p Bp [R B]. split; [apply (write_lf v d m p R)|apply Forall_app; split; assumption].
  - intros d m p Bp [R B]. apply (write_lf v d m p R).
  - intros d m i H. exact H.
  - intros d m i [R B]. cbn [lf_impl i_sum snd]. f_equal. apply checkSum_ok; assumption.
  - intros d m _. split; [apply dig_rel_new; [lia|reflexivity]|apply Forall_nil].
  - exact HF.
  - split; [apply dig_rel_new; [lia|reflexivity]|apply Forall_nil].
Qed.
Lemma checkSum_length : forall v hs d, lf_n v hs -> length (lf_checkSum v hs d) = hs.
Proof.
  intros v hs d HN. unfold lf_checkSum. cbv zeta. destruct v; cbn [lf_n] in HN.
  - destruct HN as [-> | ->]; [change (28 =? 32) with false|change (32 =? 32) with true]; cbv iota; rewrite outs_len; reflexivity.
  - subst hs. rewrite app_length, !outs_len. reflexivity.
  - subst hs. rewrite app_length, !outs_len. reflexivity.
Qed.
Theorem C121_luffa_Sum : forall v hs data, lf_n v hs -> isbytes data -> lf_Sum v hs data = lf_hash v hs data.
Proof.
  intros v hs data HN B. unfold lf_Sum. destruct (write_lf v (lf_reset v) [] data) as [R _]; [apply dig_rel_new; [lia|reflexivity]|]. cbn [app] in R.
  rewrite copy_at_full; [|lia|rewrite zeros_length, checkSum_length by exact HN; lia]. rewrite firstn_O. cbn [app].
  rewrite firstn_all2 by (rewrite zeros_length, checkSum_length by exact HN; lia). apply checkSum_ok; assumption.
Qed.
(** Known answers (luffa_test.go): the specification computes them. *)
Example luffa_kat224 : lf_hash LF256 28 [97; 98; 99]%N = be_bytes 28 0xf29311b87e9e40de7699be23fbeb5a47cb16ea4f5556d47ca40c12ad.
Proof. vm_compute. reflexivity. Qed.
Example luffa_kat384 : lf_hash LF384 48 [] = be_bytes 48 0x117d3ad49024dfe2994f4e335c9b330b48c537a13a9b7fa465938e1a02ff862bcdf33838bc0f371b045d26952d3ea0c5.
Proof. vm_compute. reflexivity. Qed.
Example luffa_kat512 : lf_hash LF512 64 [] = be_bytes 64 0x6e7de4501189b3ca58f3ac114916654bbcd4922024b4cc1cd764acfe8ab4b7805df133eab345ffdb1c414564c924f48e0a301824e2ac4c34bd4efde2e43da90e.
Proof. vm_compute. reflexivity. Qed.
Example luffa_hyp : lf_n LF384 48 /\ Forall op_bytes [Write [1; 2]%N; Sum []; Write (repeat 7%N 40); Sum [9]%N; Reset; Sum []].
Proof. split; [reflexivity|]. repeat constructor. Qed.
