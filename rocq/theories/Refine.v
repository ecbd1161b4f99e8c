(** Refine.v -- refinement of the hash.Hash contract for histories of bounded total length, and
    lemmas about little-endian values used by several packages. *)
From Coq Require Import List NArith Arith Lia Bool.
From Verif Require Import Base Words HashAPI Buf.
Import ListNotations.

(** Number of bytes written by a sequence of calls. *)
Fixpoint ops_total (ops : list op) : N :=
  match ops with
  | [] => 0%N
  | Write p :: t => (N.of_nat (length p) + ops_total t)%N
  | _ :: t => ops_total t
  end.

Lemma run_refines_total : forall D (I : impl D) (H : list N -> list N) (R : D -> list N -> Prop) (B : N),
  (forall d m p, Forall (fun b => (b < 256)%N) p -> (N.of_nat (length (m ++ p)) < B)%N -> R d m -> R (fst (i_write I d p)) (m ++ p)) ->
  (forall d m p, Forall (fun b => (b < 256)%N) p -> (N.of_nat (length (m ++ p)) < B)%N -> R d m -> snd (i_write I d p) = length p) ->
  (forall d m i, R d m -> R (fst (i_sum I d i)) m) ->
  (forall d m i, (N.of_nat (length m) < B)%N -> R d m -> snd (i_sum I d i) = i ++ H m) ->
  (forall d m, R d m -> R (i_reset I d) []) ->
  forall ops d m, Forall op_bytes ops -> (N.of_nat (length m) + ops_total ops < B)%N -> R d m ->
  run I d ops = ideal_run H m ops.
Proof.
  intros D I H R B Hw Hwn Hs Hso Hr ops.
  induction ops as [|o ops IH]; intros d m HF HB HR; auto.
  inversion HF as [|? ? Ho HF']; subst.
  destruct o as [p|i|]; cbn [run ideal_run ops_total] in *.
  - assert (L : (N.of_nat (length (m ++ p)) < B)%N) by (rewrite app_length; lia).
    specialize (Hw d m p Ho L HR). specialize (Hwn d m p Ho L HR).
    destruct (i_write I d p) as [d' n]; simpl in *. subst. f_equal. apply IH; auto. rewrite app_length. lia.
  - specialize (Hs d m i HR). specialize (Hso d m i ltac:(lia) HR).
    destruct (i_sum I d i) as [d' o]; simpl in *. subst. f_equal. apply IH; auto.
  - apply IH; auto. 2: eapply Hr; eauto. simpl. lia.
Qed.

(** Contract for histories without Reset. *)
Definition no_reset (o : op) : Prop := o <> Reset.
Lemma run_refines_noreset : forall D (I : impl D) (H : list N -> list N) (R : D -> list N -> Prop),
  (forall d m p, Forall (fun b => (b < 256)%N) p -> R d m -> R (fst (i_write I d p)) (m ++ p)) ->
  (forall d m p, Forall (fun b => (b < 256)%N) p -> R d m -> snd (i_write I d p) = length p) ->
  (forall d m i, R d m -> R (fst (i_sum I d i)) m) ->
  (forall d m i, R d m -> snd (i_sum I d i) = i ++ H m) ->
  forall ops d m, Forall op_bytes ops -> Forall no_reset ops -> R d m -> run I d ops = ideal_run H m ops.
Proof.
  intros D I H R Hw Hwn Hs Hso ops.
  induction ops as [|o ops IH]; intros d m HF HN HR; auto.
  inversion HF as [|? ? Ho HF']; subst. inversion HN as [|? ? Hn HN']; subst.
  destruct o as [p|i|]; simpl; [| |exfalso; now apply Hn].
  - specialize (Hw d m p Ho HR). specialize (Hwn d m p Ho HR).
    destruct (i_write I d p) as [d' n]; simpl in *. subst. f_equal. apply IH; auto.
  - specialize (Hs d m i HR). specialize (Hso d m i HR).
    destruct (i_sum I d i) as [d' o]; simpl in *. subst. f_equal. apply IH; auto.
Qed.

(** * Little-endian values *)
Lemma pow256 : forall n, (256 ^ N.of_nat n = 2 ^ N.of_nat (8 * n))%N.
Proof. intros. change 256%N with (2 ^ 8)%N. rewrite <- N.pow_mul_r. f_equal. lia. Qed.
Lemma le_val_lt : forall l, isbytes l -> (le_val l < 2 ^ N.of_nat (8 * length l))%N.
Proof.
  induction l as [|b l IH]; intros H; [reflexivity|].
  inversion H as [|? ? Hb Hl]; subst. specialize (IH Hl). unfold isbyte in Hb. rewrite <- pow256 in *.
  cbn [length le_val]. rewrite Nat2N.inj_succ, N.pow_succ_r'. nia.
Qed.
Lemma disjoint_shift : forall a b k, (a < 2 ^ k)%N -> N.land a (N.shiftl b k) = 0%N.
Proof.
  intros a b k H. apply N.bits_inj. intros i. rewrite N.land_spec, N.bits_0.
  destruct (N.lt_ge_cases i k).
  - rewrite N.shiftl_spec_low by lia. apply andb_false_r.
  - rewrite (proj1 (lt_pow2_bits k a) H i) by lia. reflexivity.
Qed.
Lemma add_shift_lxor : forall a b k, (a < 2 ^ k)%N -> (a + b * 2 ^ k = N.lxor a (N.shiftl b k))%N.
Proof. intros. rewrite <- N.shiftl_mul_pow2. apply N.add_nocarry_lxor. now apply disjoint_shift. Qed.
Lemma add_shift_lor : forall a b k, (a < 2 ^ k)%N -> (a + b * 2 ^ k = N.lor a (N.shiftl b k))%N.
Proof. intros. rewrite add_shift_lxor by assumption. apply N.lxor_lor. now apply disjoint_shift. Qed.
Lemma le_val_app : forall a b, le_val (a ++ b) = (le_val a + le_val b * 2 ^ N.of_nat (8 * length a))%N.
Proof.
  intros a b. rewrite <- pow256. induction a as [|x a IH].
  - cbn [app length le_val]. rewrite N.pow_0_r. lia.
  - cbn [app length le_val]. rewrite IH, Nat2N.inj_succ, N.pow_succ_r'. lia.
Qed.
Lemma le_val_app_lor : forall a b, isbytes a -> le_val (a ++ b) = N.lor (le_val a) (N.shiftl (le_val b) (N.of_nat (8 * length a))).
Proof. intros. rewrite le_val_app. apply add_shift_lor. now apply le_val_lt. Qed.
Lemma le_val_app_lxor : forall a b, isbytes a -> le_val (a ++ b) = N.lxor (le_val a) (N.shiftl (le_val b) (N.of_nat (8 * length a))).
Proof. intros. rewrite le_val_app. apply add_shift_lxor. now apply le_val_lt. Qed.
Lemma le_val_zeros : forall n, le_val (zeros n) = 0%N.
Proof. induction n; auto. change (zeros (S n)) with (0%N :: zeros n). cbn [le_val]. rewrite IHn. reflexivity. Qed.
Lemma le_val_1 : forall b, le_val [b] = b.
Proof. intros. cbn [le_val]. lia. Qed.

(** The fallthrough switch over the bytes of a partial block: bytes n-1 .. 0 are shifted into
    place and combined. *)
Definition tail_or (t : list N) (n : nat) (k : N) : N :=
  fold_left (fun k i => N.lor k (N.shiftl (at_ t i) (N.of_nat (8 * i)))) (rev (seq 0 n)) k.
Definition tail_xor (t : list N) (n : nat) (k : N) : N :=
  fold_left (fun k i => N.lxor k (N.shiftl (at_ t i) (N.of_nat (8 * i)))) (rev (seq 0 n)) k.
Lemma firstn_S_at : forall (t : list N) n, n < length t -> firstn (S n) t = firstn n t ++ [at_ t n].
Proof.
  intros t n. revert t. induction n; intros t H; destruct t; simpl in H; try lia; auto.
  change (firstn (S (S n)) (n0 :: t)) with (n0 :: firstn (S n) t). rewrite IHn by lia. reflexivity.
Qed.
Lemma tail_or_ok : forall t n k, isbytes t -> n <= length t -> tail_or t n k = N.lor k (le_val (firstn n t)).
Proof.
  intros t n. induction n as [|n IH]; intros k Hb Hn; unfold tail_or in *.
  - simpl. now rewrite N.lor_0_r.
  - rewrite seq_S, rev_app_distr. cbn [rev app plus fold_left]. rewrite IH by (auto; lia).
    rewrite firstn_S_at by lia. rewrite le_val_app_lor by now apply isbytes_firstn.
    rewrite le_val_1, firstn_length, Nat.min_l by lia. rewrite <- N.lor_assoc. f_equal. apply N.lor_comm.
Qed.
Lemma tail_xor_ok : forall t n k, isbytes t -> n <= length t -> tail_xor t n k = N.lxor k (le_val (firstn n t)).
Proof.
  intros t n. induction n as [|n IH]; intros k Hb Hn; unfold tail_xor in *.
  - simpl. now rewrite N.lxor_0_r.
  - rewrite seq_S, rev_app_distr. cbn [rev app plus fold_left]. rewrite IH by (auto; lia).
    rewrite firstn_S_at by lia. rewrite le_val_app_lxor by now apply isbytes_firstn.
    rewrite le_val_1, firstn_length, Nat.min_l by lia. rewrite N.lxor_assoc. f_equal. apply N.lxor_comm.
Qed.
Lemma isbytes_rest : forall n m, isbytes m -> isbytes (rest n m).
Proof. intros. unfold rest. now apply isbytes_skipn. Qed.
Lemma some_inj : forall A (a b : A), Some a = Some b -> a = b.
Proof. congruence. Qed.
Lemma copy_at_isbytes : forall x off p, isbytes x -> isbytes p -> isbytes (copy_at x off p).
Proof.
  intros. unfold copy_at. rewrite !isbytes_app. split; [|split].
  - now apply isbytes_firstn.
  - now apply isbytes_firstn.
  - now apply isbytes_skipn.
Qed.
