(** KeccakP.v -- the unrolled in-place rounds of K12.v compute the rounds of FIPS 202 (no model definitions here). *)
From Coq Require Import List NArith Arith Lia Bool.
From Verif Require Import Base Words SpecK12 K12.
Import ListNotations.

(** Where lane i is stored after the first, second and third round of each group of four. *)
Definition kp1 : list nat := [0; 6; 12; 18; 24; 10; 16; 22; 3; 9; 20; 1; 7; 13; 19; 5; 11; 17; 23; 4; 15; 21; 2; 8; 14].
Definition kp2 : list nat := [0; 16; 7; 23; 14; 20; 11; 2; 18; 9; 15; 6; 22; 13; 4; 10; 1; 17; 8; 24; 5; 21; 12; 3; 19].
Definition kp3 : list nat := [0; 11; 22; 8; 19; 15; 1; 12; 23; 9; 5; 16; 2; 13; 24; 20; 6; 17; 3; 14; 10; 21; 7; 18; 4].
Definition kp (p : list nat) (a : list N) : list N := map (at_ a) p.

Ltac xorac := intros; apply N.bits_inj; intros i; rewrite !N.lxor_spec;
  repeat match goal with |- context [N.testbit ?v i] => destruct (N.testbit v i) end; reflexivity.
Ltac des25 a L := destruct a as [|x0 [|x1 [|x2 [|x3 [|x4 [|x5 [|x6 [|x7 [|x8 [|x9 [|x10 [|x11 [|x12 [|x13 [|x14 [|x15 [|x16 [|x17 [|x18 [|x19 [|x20 [|x21 [|x22 [|x23 [|x24 a]]]]]]]]]]]]]]]]]]]]]]]]]; try discriminate L; destruct a; [|discriminate L]; clear L.
Lemma kr1 : forall k a, length a = 25 -> kp kp1 (kf_round1 k a) = k_round k a /\ length (kf_round1 k a) = 25.
Proof.
  intros k a L. des25 a L. split; [|reflexivity]. lazy -[N.lxor rotl64 N.ldiff].
  reflexivity.
Qed.
Lemma kr2 : forall k a, length a = 25 -> kp kp2 (kf_round2 k a) = k_round k (kp kp1 a) /\ length (kf_round2 k a) = 25.
Proof.
  intros k a L. des25 a L. split; [|reflexivity]. lazy -[N.lxor rotl64 N.ldiff].
  rewrite (ltac:(xorac) : (N.lxor (N.lxor (N.lxor (N.lxor x0 x5) x10) x15) x20) = (N.lxor (N.lxor (N.lxor (N.lxor x0 x10) x20) x5) x15)).
  rewrite (ltac:(xorac) : (N.lxor (N.lxor (N.lxor (N.lxor x1 x6) x11) x16) x21) = (N.lxor (N.lxor (N.lxor (N.lxor x6 x16) x1) x11) x21)).
  rewrite (ltac:(xorac) : (N.lxor (N.lxor (N.lxor (N.lxor x2 x7) x12) x17) x22) = (N.lxor (N.lxor (N.lxor (N.lxor x12 x22) x7) x17) x2)).
  rewrite (ltac:(xorac) : (N.lxor (N.lxor (N.lxor (N.lxor x3 x8) x13) x18) x23) = (N.lxor (N.lxor (N.lxor (N.lxor x18 x3) x13) x23) x8)).
  rewrite (ltac:(xorac) : (N.lxor (N.lxor (N.lxor (N.lxor x4 x9) x14) x19) x24) = (N.lxor (N.lxor (N.lxor (N.lxor x24 x9) x19) x4) x14)).
  reflexivity.
Qed.
Lemma kr3 : forall k a, length a = 25 -> kp kp3 (kf_round3 k a) = k_round k (kp kp2 a) /\ length (kf_round3 k a) = 25.
Proof.
  intros k a L. des25 a L. split; [|reflexivity]. lazy -[N.lxor rotl64 N.ldiff].
  rewrite (ltac:(xorac) : (N.lxor (N.lxor (N.lxor (N.lxor x0 x5) x10) x15) x20) = (N.lxor (N.lxor (N.lxor (N.lxor x0 x20) x15) x10) x5)).
  rewrite (ltac:(xorac) : (N.lxor (N.lxor (N.lxor (N.lxor x1 x6) x11) x16) x21) = (N.lxor (N.lxor (N.lxor (N.lxor x16 x11) x6) x1) x21)).
  rewrite (ltac:(xorac) : (N.lxor (N.lxor (N.lxor (N.lxor x2 x7) x12) x17) x22) = (N.lxor (N.lxor (N.lxor (N.lxor x7 x2) x22) x17) x12)).
  rewrite (ltac:(xorac) : (N.lxor (N.lxor (N.lxor (N.lxor x3 x8) x13) x18) x23) = (N.lxor (N.lxor (N.lxor (N.lxor x23 x18) x13) x8) x3)).
  rewrite (ltac:(xorac) : (N.lxor (N.lxor (N.lxor (N.lxor x4 x9) x14) x19) x24) = (N.lxor (N.lxor (N.lxor (N.lxor x14 x9) x4) x24) x19)).
  reflexivity.
Qed.
Lemma kr4 : forall k a, length a = 25 -> kf_round4 k a = k_round k (kp kp3 a) /\ length (kf_round4 k a) = 25.
Proof.
  intros k a L. des25 a L. split; [|reflexivity]. lazy -[N.lxor rotl64 N.ldiff].
  rewrite (ltac:(xorac) : (N.lxor (N.lxor (N.lxor (N.lxor x0 x5) x10) x15) x20) = (N.lxor (N.lxor (N.lxor (N.lxor x0 x15) x5) x20) x10)).
  rewrite (ltac:(xorac) : (N.lxor (N.lxor (N.lxor (N.lxor x1 x6) x11) x16) x21) = (N.lxor (N.lxor (N.lxor (N.lxor x11 x1) x16) x6) x21)).
  rewrite (ltac:(xorac) : (N.lxor (N.lxor (N.lxor (N.lxor x2 x7) x12) x17) x22) = (N.lxor (N.lxor (N.lxor (N.lxor x22 x12) x2) x17) x7)).
  rewrite (ltac:(xorac) : (N.lxor (N.lxor (N.lxor (N.lxor x3 x8) x13) x18) x23) = (N.lxor (N.lxor (N.lxor (N.lxor x8 x23) x13) x3) x18)).
  rewrite (ltac:(xorac) : (N.lxor (N.lxor (N.lxor (N.lxor x4 x9) x14) x19) x24) = (N.lxor (N.lxor (N.lxor (N.lxor x19 x9) x24) x14) x4)).
  reflexivity.
Qed.

Lemma rc_ok : forall i, i < 24 -> at_ k12_rc i = k_RC i.
Proof.
  assert (K : forallb (fun i => (at_ k12_rc i =? k_RC i)%N) (seq 0 24) = true) by (vm_compute; reflexivity).
  intros i Hi. rewrite forallb_forall in K. apply N.eqb_eq, K, in_seq. lia.
Qed.
Lemma four_ok : forall a i, length a = 25 -> i + 4 <= 24 ->
  kf_four a i = fold_left (fun A i => k_round (k_RC i) A) (seq i 4) a /\ length (kf_four a i) = 25.
Proof.
  intros a i L H. unfold kf_four. rewrite !rc_ok by lia. cbn [seq fold_left].
  destruct (kr1 (k_RC i) a L) as [E1 L1]. destruct (kr2 (k_RC (i + 1)) _ L1) as [E2 L2]. destruct (kr3 (k_RC (i + 2)) _ L2) as [E3 L3].
  destruct (kr4 (k_RC (i + 3)) _ L3) as [E4 L4]. split; [|exact L4]. rewrite E4, E3, E2, E1.
  replace (i + 1) with (S i) by lia. replace (i + 2) with (S (S i)) by lia. replace (i + 3) with (S (S (S i))) by lia. reflexivity.
Qed.
Lemma fours_ok : forall k j a, length a = 25 -> j + k <= 6 ->
  fold_left (fun a j => kf_four a (4 * j)) (seq j k) a = fold_left (fun A i => k_round (k_RC i) A) (seq (4 * j) (4 * k)) a /\
  length (fold_left (fun a j => kf_four a (4 * j)) (seq j k) a) = 25.
Proof.
  induction k as [|k IH]; intros j a L H; [auto|]. replace (4 * S k) with (4 + 4 * k) by lia. rewrite seq_app, fold_left_app.
  rewrite (seq_cons j k), fold_left_cons. destruct (four_ok a (4 * j) L ltac:(lia)) as [E EL]. rewrite <- E.
  replace (4 * j + 4) with (4 * S j) by lia. apply IH; [exact EL|lia].
Qed.
(** keccakF1600(a, nr) is Keccak-p[1600, nr] for every multiple of four. *)
Lemma keccakF_ok : forall q a, q <= 6 -> length a = 25 -> keccakF1600 (4 * q) a = keccak_p (4 * q) a /\ length (keccakF1600 (4 * q) a) = 25.
Proof.
  intros q a Hq L.
  assert (E : keccakF1600 (4 * q) a = fold_left (fun a j => kf_four a (4 * j)) (seq (6 - q) q) a).
  { unfold keccakF1600. replace (seq 0 6) with (seq 0 (6 - q) ++ seq (6 - q) q) by (rewrite <- (Nat.add_0_l (6 - q)) at 2; rewrite <- seq_app; f_equal; lia). rewrite fold_left_app.
    assert (E0 : fold_left (fun a j => let i := 4 * j in if 24 <=? i + 4 * q then kf_four a i else a) (seq 0 (6 - q)) a = a).
    { transitivity (fold_left (fun a (_ : nat) => a) (seq 0 (6 - q)) a).
      - apply fold_left_ext_in. intros x y Hy. apply in_seq in Hy. cbv zeta. destruct (Nat.leb_spec 24 (4 * y + 4 * q)) as [G|G]; [lia|reflexivity].
      - clear. induction (seq 0 (6 - q)); cbn [fold_left]; auto. }
    match goal with |- fold_left _ _ ?X = _ => replace X with a by (symmetry; exact E0) end. apply fold_left_ext_in. intros x y Hy. apply in_seq in Hy. cbv zeta. destruct (Nat.leb_spec 24 (4 * y + 4 * q)) as [G|G]; [reflexivity|lia]. }
  rewrite E. destruct (fours_ok q (6 - q) a L ltac:(lia)) as [A B]. split; [|exact B]. rewrite A. unfold keccak_p. replace (24 - 4 * q) with (4 * (6 - q)) by lia. reflexivity.
Qed.
