(** Gf2.v -- algebra of carry-less multiplication and polynomial remainders. *)
From Coq Require Import List NArith Arith Lia Bool.
From Verif Require Import Base Words SpecGf2.
Import ListNotations.

Lemma double_shiftl : forall a, N.double a = N.shiftl a 1.
Proof. intros. rewrite N.double_spec, N.shiftl_mul_pow2. change (2^1)%N with 2%N. lia. Qed.
Lemma dbl_lxor : forall a b, N.double (N.lxor a b) = N.lxor (N.double a) (N.double b).
Proof. intros. rewrite !double_shiftl. apply N.shiftl_lxor. Qed.
Lemma clmul_0_l : forall p, clmul 0 p = 0%N.
Proof. reflexivity. Qed.
Lemma clmul_double : forall q p, clmul (N.double q) p = N.double (clmul q p).
Proof. destruct q; reflexivity. Qed.
Lemma clmul_succ_double : forall q p, clmul (N.succ_double q) p = N.lxor p (N.double (clmul q p)).
Proof. destruct q; simpl; auto. intros. now rewrite N.lxor_0_r. Qed.
Lemma lxor4 : forall a b c d, N.lxor (N.lxor a b) (N.lxor c d) = N.lxor (N.lxor a c) (N.lxor b d).
Proof. intros. rewrite !N.lxor_assoc. f_equal. rewrite <- !N.lxor_assoc. f_equal. apply N.lxor_comm. Qed.

Lemma clmul_lxor_l : forall a b p, clmul (N.lxor a b) p = N.lxor (clmul a p) (clmul b p).
Proof.
  assert (H : forall a b p, clmul (Pos.lxor a b) p = N.lxor (clmul_pos a p) (clmul_pos b p)).
  { induction a as [a IH|a IH|]; destruct b as [b|b|]; intros p; cbn [Pos.lxor clmul_pos].
    - change (Pos.Ndouble (Pos.lxor a b)) with (N.double (Pos.lxor a b)).
      rewrite clmul_double, IH, dbl_lxor, lxor4, N.lxor_nilpotent, N.lxor_0_l. reflexivity.
    - change (Pos.Nsucc_double (Pos.lxor a b)) with (N.succ_double (Pos.lxor a b)).
      rewrite clmul_succ_double, IH, dbl_lxor, N.lxor_assoc. reflexivity.
    - cbn [clmul clmul_pos]. rewrite N.lxor_comm, <- N.lxor_assoc, N.lxor_nilpotent, N.lxor_0_l. reflexivity.
    - change (Pos.Nsucc_double (Pos.lxor a b)) with (N.succ_double (Pos.lxor a b)).
      rewrite clmul_succ_double, IH, dbl_lxor.
      rewrite <- !N.lxor_assoc. f_equal. apply N.lxor_comm.
    - change (Pos.Ndouble (Pos.lxor a b)) with (N.double (Pos.lxor a b)).
      rewrite clmul_double, IH, dbl_lxor. reflexivity.
    - cbn [clmul clmul_pos]. apply N.lxor_comm.
    - cbn [clmul clmul_pos]. rewrite <- N.lxor_assoc, N.lxor_nilpotent, N.lxor_0_l. reflexivity.
    - reflexivity.
    - now rewrite N.lxor_nilpotent. }
  intros [|a] [|b] p; cbn [N.lxor clmul].
  - reflexivity.
  - reflexivity.
  - now rewrite N.lxor_0_r.
  - apply H.
Qed.
Lemma clmul_shiftl : forall k q p, clmul (N.shiftl q k) p = N.shiftl (clmul q p) k.
Proof.
  intros k q p. rewrite <- (N2Nat.id k). generalize (N.to_nat k). clear k. intros k. revert q.
  induction k; intros q.
  - now rewrite !N.shiftl_0_r.
  - rewrite Nat2N.inj_succ, <- N.add_1_l.
    rewrite <- !N.shiftl_shiftl. rewrite IHk. f_equal. rewrite <- !double_shiftl. apply clmul_double.
Qed.
Lemma clmul_1_l : forall p, clmul 1 p = p.
Proof. reflexivity. Qed.

(** Degree of a product: at least the degree of p. *)
Lemma clmul_pos_bits : forall q p n, N.testbit p n = true -> (forall i, (n < i)%N -> N.testbit p i = false) ->
  N.testbit (clmul_pos q p) (n + N.log2 (Npos q)) = true /\
  (forall i, (n + N.log2 (Npos q) < i)%N -> N.testbit (clmul_pos q p) i = false).
Proof.
  intros q p n Hn Hhi. induction q as [q IH|q IH|].
  - destruct IH as [I1 I2]. cbn [clmul_pos].
    assert (E : N.log2 (N.pos q~1) = N.succ (N.log2 (N.pos q))).
    { change (N.pos q~1) with (2 * N.pos q + 1)%N. apply N.log2_succ_double. reflexivity. }
    rewrite E. split.
    + rewrite N.lxor_spec, Hhi by lia. rewrite <- N.add_succ_comm, N.add_succ_l.
      rewrite N.double_spec, N.double_bits_succ. now rewrite I1.
    + intros i Hi. rewrite N.lxor_spec, Hhi by lia.
      destruct (N.zero_or_succ i) as [->|[j ->]]; [lia|].
      rewrite N.double_spec, N.double_bits_succ. rewrite I2 by lia. reflexivity.
  - destruct IH as [I1 I2]. cbn [clmul_pos].
    assert (E : N.log2 (N.pos q~0) = N.succ (N.log2 (N.pos q))).
    { change (N.pos q~0) with (2 * N.pos q)%N. apply N.log2_double. reflexivity. }
    rewrite E. split.
    + rewrite <- N.add_succ_comm, N.add_succ_l. rewrite N.double_spec, N.double_bits_succ. now rewrite I1.
    + intros i Hi. destruct (N.zero_or_succ i) as [->|[j ->]]; [lia|].
      rewrite N.double_spec, N.double_bits_succ. apply I2. lia.
  - simpl. rewrite N.add_0_r. split; auto.
Qed.
Lemma clmul_ge : forall q p, (p <> 0)%N -> (q <> 0)%N -> (2 ^ N.log2 p <= clmul q p)%N.
Proof.
  intros q p Hp Hq. destruct q as [|q]; [congruence|]. simpl.
  destruct (clmul_pos_bits q p (N.log2 p)) as [B1 _].
  - apply N.bit_log2; auto.
  - intros i Hi. now apply N.bits_above_log2.
  - destruct (N.lt_ge_cases (clmul_pos q p) (2 ^ N.log2 p)); auto. exfalso.
    rewrite (proj1 (lt_pow2_bits _ _) H) in B1; [discriminate|lia].
Qed.

Lemma is_rem_unique : forall p a r s, (p <> 0)%N -> is_rem p a r -> is_rem p a s -> r = s.
Proof.
  intros p a r s Hp [R1 [q R2]] [S1 [u S2]].
  assert (E : N.lxor r s = clmul (N.lxor q u) p).
  { rewrite clmul_lxor_l. assert (X : N.lxor a a = 0%N) by apply N.lxor_nilpotent.
    rewrite R2 in X at 1. rewrite S2 in X. rewrite lxor4 in X. now apply N.lxor_eq in X. }
  destruct (N.eq_dec (N.lxor q u) 0) as [e|e].
  - rewrite e in E. simpl in E. now apply N.lxor_eq in E.
  - exfalso. pose proof (clmul_ge _ p Hp e). rewrite <- E in H.
    pose proof (lxor_lt (N.log2 p) r s R1 S1). lia.
Qed.
Lemma is_rem_lxor : forall p a b r s, is_rem p a r -> is_rem p b s -> is_rem p (N.lxor a b) (N.lxor r s).
Proof.
  intros p a b r s [R1 [q ->]] [S1 [u ->]]. split; [now apply lxor_lt|].
  exists (N.lxor q u). rewrite clmul_lxor_l. apply lxor4.
Qed.
Lemma is_rem_small : forall p r, (r < 2 ^ N.log2 p)%N -> is_rem p r r.
Proof. intros. split; auto. exists 0%N. simpl. now rewrite N.lxor_0_r. Qed.
Lemma is_rem_0 : forall p, is_rem p 0 0.
Proof. intros. apply is_rem_small. apply N.neq_0_lt_0, N.pow_nonzero. discriminate. Qed.
(** Shifting may be done on the remainder. *)
Lemma is_rem_shiftl : forall p a r k s, is_rem p a r -> is_rem p (N.shiftl r k) s -> is_rem p (N.shiftl a k) s.
Proof.
  intros p a r k s [R1 [q ->]] [S1 [u E]]. split; auto.
  exists (N.lxor u (N.shiftl q k)). rewrite N.shiftl_lxor, E, clmul_lxor_l, clmul_shiftl. apply N.lxor_assoc.
Qed.
Lemma is_rem_congr : forall p a b r q, is_rem p a r -> b = N.lxor a (clmul q p) -> is_rem p b r.
Proof.
  intros p a b r q [R1 [u ->]] ->. split; auto. exists (N.lxor u q). rewrite clmul_lxor_l. apply N.lxor_assoc.
Qed.

Lemma reduce1_rem : forall p r, (1 < p)%N -> (r < 2 ^ (N.log2 p + 1))%N -> is_rem p r (reduce1 p r).
Proof.
  intros p r Hp Hr. unfold reduce1. destruct (N.testbit r (N.log2 p)) eqn:B.
  - split; [|exists 1%N; rewrite clmul_1_l, N.lxor_assoc, N.lxor_nilpotent, N.lxor_0_r; reflexivity].
    apply lt_pow2_bits. intros i Hi. rewrite N.lxor_spec.
    destruct (N.eq_dec i (N.log2 p)) as [->|Hne].
    + rewrite B, N.bit_log2 by lia. reflexivity.
    + rewrite (N.bits_above_log2 p) by lia. rewrite (proj1 (lt_pow2_bits _ _) Hr) by lia. reflexivity.
  - apply is_rem_small. apply lt_pow2_bits. intros i Hi.
    destruct (N.eq_dec i (N.log2 p)) as [->|Hne]; auto. apply (proj1 (lt_pow2_bits _ _) Hr). lia.
Qed.
Lemma prem_is_rem : forall p a, (1 < p)%N -> is_rem p a (prem p a).
Proof.
  intros p a Hp. destruct a as [|a]; [apply is_rem_0|]. simpl.
  assert (L : (1 <= N.log2 p)%N) by (pose proof (N.log2_pos p Hp); lia).
  induction a as [a IH|a IH|]; simpl.
  - destruct IH as [I1 [q I2]].
    apply is_rem_congr with (a := N.succ_double (prem_pos p a)) (q := N.double q).
    + apply reduce1_rem; auto. rewrite N.pow_add_r, N.succ_double_spec. change (2^1)%N with 2%N. lia.
    + rewrite clmul_double. change (N.pos a~1) with (N.succ_double (N.pos a)). rewrite I2.
      apply N.bits_inj. intros i. rewrite N.lxor_spec, !N.succ_double_spec, (N.double_spec (clmul q p)).
      destruct (N.zero_or_succ i) as [->|[j ->]].
      * rewrite !N.testbit_odd_0, N.testbit_even_0. reflexivity.
      * rewrite (N.testbit_odd_succ (N.lxor _ _)) by lia. rewrite (N.testbit_odd_succ (prem_pos p a)) by lia.
        rewrite N.double_bits_succ. apply N.lxor_spec.
  - destruct IH as [I1 [q I2]].
    apply is_rem_congr with (a := N.double (prem_pos p a)) (q := N.double q).
    + apply reduce1_rem; auto. rewrite N.pow_add_r, N.double_spec. change (2^1)%N with 2%N. lia.
    + rewrite clmul_double, <- dbl_lxor, <- I2. reflexivity.
  - apply reduce1_rem; auto. apply N.lt_le_trans with (2 ^ 1)%N; [reflexivity|]. apply N.pow_le_mono_r; lia.
Qed.
Lemma prem_unique : forall p a r, (1 < p)%N -> is_rem p a r -> prem p a = r.
Proof. intros. eapply is_rem_unique; eauto. lia. now apply prem_is_rem. Qed.
