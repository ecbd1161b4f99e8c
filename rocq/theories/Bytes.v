(** Bytes.v -- small lemmas about writing into byte arrays, shared by the later developments. *)
From Coq Require Import List NArith Arith Bool Lia.
From Verif Require Import Base Words Buf.
Import ListNotations.

Lemma copy_at_app : forall A (a b : list A) k s, copy_at (a ++ b) (length a + k) s = a ++ copy_at b k s.
Proof.
  intros A a b k s. unfold copy_at. assert (F : forall n, firstn (length a + n) (a ++ b) = a ++ firstn n b) by (intro n; rewrite firstn_app, firstn_all2 by lia; do 2 f_equal; lia).
  assert (K : forall n, skipn (length a + n) (a ++ b) = skipn n b) by (intro n; rewrite skipn_app, skipn_all2 by lia; cbn [app]; f_equal; lia).
  rewrite app_length. rewrite F, <- app_assoc. replace (length a + length b - (length a + k)) with (length b - k) by lia. f_equal. f_equal. f_equal.
  replace (length a + k + Nat.min (length b - k) (length s)) with (length a + (k + Nat.min (length b - k) (length s))) by lia. apply K.
Qed.
Lemma upd_app_r : forall A (a b : list A) k v, upd (a ++ b) (length a + k) v = a ++ upd b k v.
Proof. induction a as [|x a IH]; intros b k v; [reflexivity|]. cbn [app length Nat.add upd]. now rewrite IH. Qed.
Lemma copy_at_over : forall A (b : list A) s, length s <= length b -> copy_at b 0 s = s ++ skipn (length s) b.
Proof. intros A b s H. unfold copy_at. rewrite firstn_O. cbn [app Nat.add]. rewrite Nat.sub_0_r, firstn_all2, Nat.min_r by lia. reflexivity. Qed.
(** a byte range set to zero, one index at a time *)
Lemma zero_range : forall n a (b : list N), a + n <= length b -> fold_left (fun b i => upd b i 0%N) (seq a n) b = firstn a b ++ zeros n ++ skipn (a + n) b.
Proof.
  induction n as [|n IH]; intros a b H; [cbn [seq fold_left zeros repeat app]; rewrite Nat.add_0_r; symmetry; apply firstn_skipn|].
  rewrite seq_S, fold_left_app, IH by lia. cbn [fold_left]. rewrite app_assoc.
  assert (L : length (firstn a b ++ zeros n) = a + n) by (rewrite app_length, firstn_length, zeros_length; lia).
  replace (a + n) with (length (firstn a b ++ zeros n) + 0) at 2 by lia. rewrite upd_app_r. rewrite <- app_assoc. f_equal.
  change (zeros (S n)) with (0%N :: zeros n). replace (0%N :: zeros n) with (zeros n ++ [0%N]) by (unfold zeros; symmetry; apply repeat_cons). rewrite <- app_assoc. f_equal.
  destruct (skipn (a + n) b) as [|x t] eqn:E; [apply (f_equal (@length N)) in E; rewrite skipn_length in E; cbn [length] in E; lia|].
  cbn [upd app]. f_equal. replace (a + S n) with (a + n + 1) by lia. rewrite <- (skipn_skipn N b 1 (a + n)), E. reflexivity.
Qed.
(** successive w-byte fields *)
Lemma out_fields : forall w (g : nat -> list N) k t, (forall i, length (g i) = w) -> w * k <= length t ->
  fold_left (fun o i => copy_at o (w * i) (g i)) (seq 0 k) t = concat (map g (seq 0 k)) ++ skipn (w * k) t.
Proof.
  intros w g k t Hg. assert (L : forall k, length (concat (map g (seq 0 k))) = w * k).
  { induction k0; [cbn; lia|]. rewrite seq_S, map_app, concat_app, app_length, IHk0. cbn [map concat]. rewrite app_nil_r, Hg. lia. }
  induction k as [|k IH]; intro H; [rewrite Nat.mul_0_r; reflexivity|]. rewrite seq_S, fold_left_app, IH by lia. cbn [fold_left Nat.add].
  replace (w * k) with (length (concat (map g (seq 0 k))) + 0) at 2 by (rewrite L; lia). rewrite copy_at_app. rewrite copy_at_over by (rewrite skipn_length, Hg; lia). rewrite Hg.
  rewrite map_app, concat_app. cbn [map concat]. rewrite app_nil_r, <- app_assoc. do 2 f_equal. rewrite (skipn_skipn N t w (w * k)). f_equal. lia.
Qed.
Lemma at_seq_firstn : forall (h : list N) k, k <= length h -> map (fun i => at_ h i) (seq 0 k) = firstn k h.
Proof.
  intros h k. revert h. induction k; intros [|a h] H; cbn [length] in H; try lia; try reflexivity. cbn [seq map firstn]. f_equal. rewrite <- seq_shift, map_map. apply IHk. lia.
Qed.
Lemma firstn_concat_fields : forall w (enc : N -> list N) h k, (forall v, length (enc v) = w) -> k <= length h -> firstn (w * k) (concat (map enc h)) = concat (map enc (firstn k h)).
Proof.
  intros w enc h k He. revert h. induction k; intros h H; [now rewrite Nat.mul_0_r|]. destruct h as [|a h]; [cbn [length] in H; lia|]. cbn [map concat firstn length] in *.
  rewrite firstn_app, firstn_all2 by (rewrite He; lia). f_equal. rewrite He. replace (w * S k - w) with (w * k) by lia. apply IHk. lia.
Qed.
Lemma copy_at_app' : forall A (a b : list A) p k s, p = length a + k -> copy_at (a ++ b) p s = a ++ copy_at b k s.
Proof. intros A a b p k s ->. apply copy_at_app. Qed.
Lemma upd_app_r' : forall A (a b : list A) p k v, p = length a + k -> upd (a ++ b) p v = a ++ upd b k v.
Proof. intros A a b p k v ->. apply upd_app_r. Qed.
