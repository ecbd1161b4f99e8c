(** Blake3N.v -- the code's bit arithmetic: highest_one, round_down, shrink, popcnt; binary numbers as lists of exponents. *)
From Coq Require Import List NArith Arith Lia Bool.
From Verif Require Import Base SpecBlake3 Blake3.
Import ListNotations.
Local Open Scope nat_scope.

(** ** highest_one *)
Lemma high_mask : forall x k, (x < 2 ^ (2 * k))%N -> (N.land x (N.shiftl (N.ones k) k) =? 0)%N = (x <? 2 ^ k)%N.
Proof.
  intros x k H. assert (E : N.land x (N.shiftl (N.ones k) k) = N.shiftl (N.shiftr x k) k).
  { assert (E1 : N.land (N.shiftr x k) (N.ones k) = N.shiftr x k).
    { rewrite N.land_ones. apply N.mod_small. rewrite N.shiftr_div_pow2. apply N.div_lt_upper_bound; [apply N.pow_nonzero; lia|].
      rewrite <- N.pow_add_r. replace (k + k)%N with (2 * k)%N by lia. exact H. }
    rewrite <- E1. apply N.bits_inj. intro i. rewrite N.land_spec.
    destruct (N.lt_ge_cases i k) as [L|L].
    - rewrite !N.shiftl_spec_low by exact L. apply andb_false_r.
    - rewrite !N.shiftl_spec_high' by exact L. rewrite N.land_spec, N.shiftr_spec'. f_equal. f_equal. lia. }
  rewrite E. destruct (x <? 2 ^ k)%N eqn:B.
  - apply N.ltb_lt in B. replace (N.shiftr x k) with 0%N; [rewrite N.shiftl_0_l; reflexivity|]. rewrite N.shiftr_div_pow2. symmetry. apply N.div_small. exact B.
  - apply N.ltb_ge in B. apply N.eqb_neq. intro X. apply N.shiftl_eq_0_iff in X. rewrite N.shiftr_div_pow2 in X.
    apply N.div_small_iff in X; [lia|apply N.pow_nonzero; lia].
Qed.
Definition hstep (k : N) (xc : N * N) : N * N :=
  let '(x, c) := xc in if negb (N.land x (N.shiftl (N.ones k) k) =? 0)%N then (N.shiftr x k, (c + k)%N) else (x, c).
Lemma hstep_ok : forall k x c, (0 < x)%N -> (x < 2 ^ (2 * k))%N ->
  let '(x', c') := hstep k (x, c) in (0 < x')%N /\ (x' < 2 ^ k)%N /\ (c' + N.log2 x' = c + N.log2 x)%N.
Proof.
  intros k x c Hx H. unfold hstep. rewrite high_mask by exact H. destruct (x <? 2 ^ k)%N eqn:B; cbn [negb].
  - apply N.ltb_lt in B. repeat split; assumption.
  - apply N.ltb_ge in B. rewrite N.shiftr_div_pow2. repeat split.
    + apply N.div_str_pos. split; [|exact B]. apply N.neq_0_lt_0, N.pow_nonzero. lia.
    + apply N.div_lt_upper_bound; [apply N.pow_nonzero; lia|]. rewrite <- N.pow_add_r. replace (k + k)%N with (2 * k)%N by lia. exact H.
    + rewrite <- N.shiftr_div_pow2, N.log2_shiftr. assert (k <= N.log2 x)%N by (apply N.log2_le_pow2; assumption). lia.
Qed.
Lemma highest_one_steps : forall x, highest_one x = snd (hstep 1 (hstep 2 (hstep 4 (hstep 8 (hstep 16 (hstep 32 (x, 0%N))))))).
Proof.
  intros x. unfold highest_one. cbv zeta.
  change 0xffffffff00000000%N with (N.shiftl (N.ones 32) 32). change 0xffff0000%N with (N.shiftl (N.ones 16) 16).
  change 0xff00%N with (N.shiftl (N.ones 8) 8). change 0xf0%N with (N.shiftl (N.ones 4) 4). change 0xc%N with (N.shiftl (N.ones 2) 2).
  change (if negb (N.land x (N.shiftl (N.ones 32) 32) =? 0)%N then (N.shiftr x 32, (0 + 32)%N) else (x, 0%N)) with (hstep 32 (x, 0%N)).
  destruct (hstep 32 (x, 0%N)) as [x1 c1].
  change (if negb (N.land x1 (N.shiftl (N.ones 16) 16) =? 0)%N then (N.shiftr x1 16, (c1 + 16)%N) else (x1, c1)) with (hstep 16 (x1, c1)).
  destruct (hstep 16 (x1, c1)) as [x2 c2].
  change (if negb (N.land x2 (N.shiftl (N.ones 8) 8) =? 0)%N then (N.shiftr x2 8, (c2 + 8)%N) else (x2, c2)) with (hstep 8 (x2, c2)).
  destruct (hstep 8 (x2, c2)) as [x3 c3].
  change (if negb (N.land x3 (N.shiftl (N.ones 4) 4) =? 0)%N then (N.shiftr x3 4, (c3 + 4)%N) else (x3, c3)) with (hstep 4 (x3, c3)).
  destruct (hstep 4 (x3, c3)) as [x4 c4].
  change (if negb (N.land x4 (N.shiftl (N.ones 2) 2) =? 0)%N then (N.shiftr x4 2, (c4 + 2)%N) else (x4, c4)) with (hstep 2 (x4, c4)).
  destruct (hstep 2 (x4, c4)) as [x5 c5].
  unfold hstep. change (N.shiftl (N.ones 1) 1) with 2%N. destruct (negb (N.land x5 2 =? 0)%N); reflexivity.
Qed.
Lemma highest_one_ok : forall x, (0 < x)%N -> (x < 2 ^ 64)%N -> highest_one x = N.log2 x.
Proof.
  intros x Hx H. rewrite highest_one_steps.
  pose proof (hstep_ok 32 x 0 Hx H) as S. destruct (hstep 32 (x, 0%N)) as [x1 c1]. destruct S as (P1 & B1 & E1).
  pose proof (hstep_ok 16 x1 c1 P1 B1) as S. destruct (hstep 16 (x1, c1)) as [x2 c2]. destruct S as (P2 & B2 & E2).
  pose proof (hstep_ok 8 x2 c2 P2 B2) as S. destruct (hstep 8 (x2, c2)) as [x3 c3]. destruct S as (P3 & B3 & E3).
  pose proof (hstep_ok 4 x3 c3 P3 B3) as S. destruct (hstep 4 (x3, c3)) as [x4 c4]. destruct S as (P4 & B4 & E4).
  pose proof (hstep_ok 2 x4 c4 P4 B4) as S. destruct (hstep 2 (x4, c4)) as [x5 c5]. destruct S as (P5 & B5 & E5).
  pose proof (hstep_ok 1 x5 c5 P5 B5) as S. destruct (hstep 1 (x5, c5)) as [x6 c6]. destruct S as (P6 & B6 & E6).
  cbn [snd]. change (2 ^ 1)%N with 2%N in B6. assert (x6 = 1%N) by lia. subst x6. change (N.log2 1) with 0%N in E6. lia.
Qed.
Lemma round_down_ok : forall x, (0 < x)%N -> (x < 2 ^ 64)%N -> round_down x = (2 ^ N.log2 x)%N.
Proof.
  intros x Hx H. unfold round_down.
  assert (L : N.log2 (N.lor x 1) = N.log2 x) by (rewrite N.log2_lor; change (N.log2 1) with 0%N; lia).
  assert (B : (N.log2 x < 64)%N) by (apply N.log2_lt_pow2; assumption).
  rewrite highest_one_ok.
  - rewrite L. unfold shl64. rewrite N.shiftl_1_l. apply w64_small. change 18446744073709551616%N with (2 ^ 64)%N. apply N.pow_lt_mono_r; [lia|exact B].
  - apply N.neq_0_lt_0. intro X. apply N.lor_eq_0_iff in X. lia.
  - apply N.log2_lt_pow2; [|rewrite L; exact B]. apply N.neq_0_lt_0. intro X. apply N.lor_eq_0_iff in X. lia.
Qed.
Lemma left_len_ok : forall k, (N.of_nat k < 54)%N -> left_len (2 ^ S k * 1024) = 2 ^ k * 1024.
Proof.
  intros k Hk. unfold left_len.
  assert (P : 0 < 2 ^ k) by (apply Nat.neq_0_lt_0, Nat.pow_nonzero; lia).
  replace ((2 ^ S k * 1024 - 1) / 1024) with (2 ^ S k - 1).
  2:{ apply Nat.div_unique with (r := 1023); [lia|]. rewrite Nat.pow_succ_r'. lia. }
  assert (E : N.of_nat (2 ^ S k - 1) = N.pred (2 ^ N.of_nat (S k))%N).
  { rewrite Nat2N.inj_sub. rewrite Nat2N.inj_pow. change (N.of_nat 2) with 2%N. change (N.of_nat 1) with 1%N. lia. }
  assert (P2 : (2 <= 2 ^ N.of_nat (S k))%N) by (change 2%N with (2 ^ 1)%N at 1; apply N.pow_le_mono_r; lia).
  rewrite round_down_ok.
  - rewrite E, N.log2_pred_pow2 by lia. rewrite N2Nat.inj_pow. change (N.to_nat 2) with 2. f_equal. f_equal. lia.
  - rewrite E. lia.
  - rewrite E. apply N.lt_le_trans with (2 ^ N.of_nat (S k))%N; [lia|]. apply N.pow_le_mono_r; lia.
Qed.
Lemma land_pred_pow2 : forall j c, (N.land (2 ^ j - 1) c =? 0)%N = (c mod 2 ^ j =? 0)%N.
Proof. intros j c. replace (2 ^ j - 1)%N with (N.ones j) by (rewrite N.ones_equiv; lia). rewrite N.land_comm, N.land_ones. reflexivity. Qed.
Lemma shrink_ok : forall fuel i c, i < fuel -> (c mod 1024 = 0)%N ->
  exists j, j <= i /\ shrink fuel (2 ^ N.of_nat (10 + i)) c = (2 ^ N.of_nat (10 + j))%N /\ (c mod 2 ^ N.of_nat (10 + j) = 0)%N
    /\ (j < i -> (c mod 2 ^ N.of_nat (10 + S j) <> 0)%N).
Proof.
  induction fuel as [|f IH]; intros i c Hi Hc; [lia|]. cbn [shrink]. rewrite land_pred_pow2.
  destruct (c mod 2 ^ N.of_nat (10 + i) =? 0)%N eqn:E.
  - apply N.eqb_eq in E. exists i. repeat split; try assumption; lia.
  - apply N.eqb_neq in E. destruct i as [|i]; [exfalso; apply E; exact Hc|].
    replace (2 ^ N.of_nat (10 + S i) / 2)%N with (2 ^ N.of_nat (10 + i))%N.
    2:{ replace (N.of_nat (10 + S i)) with (N.of_nat (10 + i) + 1)%N by lia. rewrite N.pow_add_r. change (2 ^ 1)%N with 2%N. rewrite N.div_mul by lia. reflexivity. }
    destruct (IH i c) as (j & J1 & J2 & J3 & J4); [lia|exact Hc|]. exists j. split; [lia|]. split; [exact J2|]. split; [exact J3|].
    intros _. destruct (Nat.eq_dec j i) as [->|Nji]; [exact E|apply J4; lia].
Qed.

(** ** Numbers as lists of exponents, smallest first *)
Fixpoint tot (rs : list nat) : nat := match rs with [] => 0 | e :: r => 2 ^ e + tot r end.
(* all exponents of [rs] are at least [e] / strictly increasing *)
Fixpoint incr (e : nat) (rs : list nat) : Prop := match rs with [] => True | x :: r => e <= x /\ incr (S x) r end.
Definition strict (rs : list nat) : Prop := incr 0 rs.
(* strictly increasing, except that the first two may be equal *)
Definition near (rs : list nat) : Prop := match rs with [] => True | e :: r => incr e r end.
Lemma incr_le : forall rs a b, a <= b -> incr b rs -> incr a rs.
Proof. destruct rs as [|x r]; intros a b H I; [exact Logic.I|]. cbn [incr] in *. destruct I as [I1 I2]. split; [lia|exact I2]. Qed.
Lemma pow_pos : forall e, 0 < 2 ^ e.
Proof. intro e. apply Nat.neq_0_lt_0, Nat.pow_nonzero. lia. Qed.
Lemma incr_div : forall rs e, incr e rs -> exists q, tot rs = q * 2 ^ e.
Proof.
  induction rs as [|x r IH]; intros e H; [exists 0; reflexivity|]. cbn [incr tot] in *. destruct H as [H1 H2].
  destruct (IH (S x) H2) as [q Hq]. rewrite Hq. exists (2 ^ (x - e) + q * 2 ^ (S x - e)).
  replace (2 ^ x) with (2 ^ (x - e) * 2 ^ e) by (rewrite <- Nat.pow_add_r; f_equal; lia).
  replace (2 ^ S x) with (2 ^ (S x - e) * 2 ^ e) by (rewrite <- Nat.pow_add_r; f_equal; lia). lia.
Qed.
Lemma incr_near : forall e rs, incr e rs -> near (e :: rs).
Proof. intros e rs H. exact H. Qed.
Lemma strict_near : forall rs, strict rs -> near rs.
Proof. destruct rs as [|e r]; intros H; [exact Logic.I|]. cbn [near]. destruct H as [_ H]. apply incr_le with (S e); [lia|exact H]. Qed.
Lemma near_cases : forall rs, near rs -> strict rs \/ exists e r, rs = e :: e :: r /\ near (S e :: r).
Proof.
  intros [|e [|x r]] H; [left; exact Logic.I|left; repeat split; lia|]. cbn [near incr] in H. destruct H as [H1 H2].
  destruct (Nat.eq_dec e x) as [->|Hn].
  - right. exists x, r. split; [reflexivity|exact H2].
  - left. split; [lia|]. split; [lia|exact H2].
Qed.
Lemma not_strict_dup : forall e r, ~ strict (e :: e :: r).
Proof. intros e r [_ [H _]]. lia. Qed.

Lemma land_drop : forall a e, N.land ((2 * a + 1) * 2 ^ e) ((2 * a + 1) * 2 ^ e - 1) = (2 * a * 2 ^ e)%N.
Proof.
  intros a e. assert (P : (0 < 2 ^ e)%N) by (apply N.neq_0_lt_0, N.pow_nonzero; lia).
  replace ((2 * a + 1) * 2 ^ e - 1)%N with (2 * a * 2 ^ e + N.ones e)%N by (rewrite N.ones_equiv; lia).
  assert (E : (2 * a * 2 ^ e + N.ones e = N.lor (N.shiftl (2 * a) e) (N.ones e))%N).
  { rewrite <- N.shiftl_mul_pow2. rewrite N.add_nocarry_lxor, N.lxor_lor; [reflexivity| |].
    - apply N.bits_inj. intro i. rewrite N.land_spec, N.bits_0. destruct (N.lt_ge_cases i e) as [L|L].
      + rewrite N.shiftl_spec_low by exact L. reflexivity.
      + rewrite N.ones_spec_high by exact L. apply andb_false_r.
    - apply N.bits_inj. intro i. rewrite N.land_spec, N.bits_0. destruct (N.lt_ge_cases i e) as [L|L].
      + rewrite N.shiftl_spec_low by exact L. reflexivity.
      + rewrite N.ones_spec_high by exact L. apply andb_false_r. }
  rewrite E. rewrite <- !N.shiftl_mul_pow2. apply N.bits_inj. intro i. rewrite N.land_spec, N.lor_spec.
  destruct (N.lt_ge_cases i e) as [L|L].
  - rewrite !N.shiftl_spec_low by exact L. reflexivity.
  - rewrite !N.shiftl_spec_high' by exact L. rewrite N.ones_spec_high by exact L. rewrite orb_false_r.
    destruct (N.eq_dec (i - e) 0) as [->|Hn].
    + rewrite N.testbit_even_0. apply andb_false_r.
    + replace (i - e)%N with (N.succ (i - e - 1)) by lia. rewrite N.testbit_odd_succ, N.testbit_even_succ by lia. apply andb_diag.
Qed.
Lemma popcnt_loop_ok : forall rs fuel n e, incr e rs -> length rs <= fuel -> popcnt_loop fuel (N.of_nat (tot rs)) n = n + length rs.
Proof.
  induction rs as [|x r IH]; intros fuel n e H L.
  - cbn [tot length]. destruct fuel; cbn [popcnt_loop]; [|cbn [N.of_nat N.eqb]]; lia.
  - destruct fuel as [|f]; [cbn [length] in L; lia|]. cbn [popcnt_loop]. cbn [incr] in H. destruct H as [H1 H2].
    destruct (incr_div _ _ H2) as [q Hq]. pose proof (pow_pos x) as P.
    assert (E : N.of_nat (tot (x :: r)) = ((2 * N.of_nat q + 1) * 2 ^ N.of_nat x)%N).
    { cbn [tot]. rewrite Hq, Nat.pow_succ_r'. rewrite Nat2N.inj_add, !Nat2N.inj_mul, !Nat2N.inj_pow. change (N.of_nat 2) with 2%N. lia. }
    assert (E2 : N.of_nat (tot r) = (2 * N.of_nat q * 2 ^ N.of_nat x)%N).
    { rewrite Hq, Nat.pow_succ_r'. rewrite !Nat2N.inj_mul, !Nat2N.inj_pow. change (N.of_nat 2) with 2%N. lia. }
    destruct (N.of_nat (tot (x :: r)) =? 0)%N eqn:Z; [apply N.eqb_eq in Z; cbn [tot] in Z; lia|].
    rewrite E, land_drop, <- E2. rewrite (IH f (n + 1) (S x) H2) by (cbn [length] in L; lia). cbn [length]. lia.
Qed.
Lemma popcnt_strict : forall rs, strict rs -> length rs <= 65 -> popcnt (N.of_nat (tot rs)) = length rs.
Proof. intros rs H L. unfold popcnt. rewrite (popcnt_loop_ok rs 65 0 0 H L). reflexivity. Qed.
Lemma popcnt_near : forall n rs, length rs = n -> near rs -> n <= 65 -> popcnt (N.of_nat (tot rs)) <= n /\ (popcnt (N.of_nat (tot rs)) = n -> strict rs).
Proof.
  induction n as [n IH] using lt_wf_ind. intros rs L H B. destruct (near_cases rs H) as [S|(e & r & -> & H2)].
  - rewrite popcnt_strict by (try assumption; lia). split; [lia|intros _; exact S].
  - assert (T : tot (e :: e :: r) = tot (S e :: r)) by (cbn [tot]; rewrite Nat.pow_succ_r'; lia). rewrite T.
    cbn [length] in L. destruct (IH (n - 1) ltac:(lia) (S e :: r)) as [I1 I2]; [cbn [length]; lia|exact H2|lia|]. split; [lia|intro X; lia].
Qed.
(** An integer has a strict representation. *)
Lemma strict_size : forall rs e, incr e rs -> 2 ^ e * (2 ^ length rs - 1) <= tot rs.
Proof.
  induction rs as [|x r IH]; intros e H; [cbn [length tot]; change (2 ^ 0 - 1) with 0; lia|]. cbn [incr length tot] in *. destruct H as [H1 H2].
  specialize (IH _ H2). rewrite Nat.pow_succ_r' in IH |- *. pose proof (pow_pos (length r)). 
  assert (2 ^ e <= 2 ^ x) by (apply Nat.pow_le_mono_r; lia).
  assert (2 ^ e * (2 ^ length r - 1) <= 2 ^ x * (2 ^ length r - 1)) by (apply Nat.mul_le_mono_r; lia).
  replace (2 * 2 ^ length r - 1) with (2 * (2 ^ length r - 1) + 1) by lia. rewrite <- Nat.mul_assoc in IH. rewrite Nat.mul_add_distr_l, Nat.mul_1_r, (Nat.mul_comm 2 (2 ^ length r - 1)), Nat.mul_assoc. lia.
Qed.
Lemma near_size : forall rs, near rs -> 2 ^ (length rs - 1) <= S (tot rs) /\ (rs <> [] -> 2 ^ (length rs - 1) <= tot rs).
Proof.
  intros [|e r] H; [split; [cbn; lia|congruence]|]. cbn [near] in H. pose proof (strict_size _ _ H) as SS.
  cbn [length tot]. replace (S (length r) - 1) with (length r) by lia. pose proof (pow_pos e). pose proof (pow_pos (length r)).
  assert (1 * (2 ^ length r - 1) <= 2 ^ e * (2 ^ length r - 1)) by (apply Nat.mul_le_mono_r; lia). split; intros; lia.
Qed.
