(** Stream.v -- output streams made of fixed-size blocks. *)
From Coq Require Import List NArith Arith Lia Bool.
From Verif Require Import Base.
Import ListNotations.

Lemma map_nth_seq : forall (l : list N), map (fun i => nth i l 0%N) (seq 0 (length l)) = l.
Proof.
  intros l. apply nth_ext with (d := 0%N) (d' := 0%N); [now rewrite map_length, seq_length|].
  intros n Hn. rewrite map_length, seq_length in Hn. rewrite (nth_indep _ 0%N (nth 0 l 0%N)) by (rewrite map_length, seq_length; lia).
  rewrite (map_nth (fun i => nth i l 0%N)). now rewrite seq_nth by lia.
Qed.
Lemma seq_shift_map : forall a n, seq a n = map (fun i => a + i) (seq 0 n).
Proof.
  intros a n. revert a. induction n as [|n IH]; intros a; auto. cbn [seq map]. rewrite Nat.add_0_r. f_equal.
  rewrite (IH (S a)), (IH 1), map_map. apply map_ext. intros. lia.
Qed.
Section Stream.
Variable bs : nat.
Variable w : nat -> list N.
Hypothesis Hbs : 0 < bs.
Hypothesis Hw : forall i, length (w i) = bs.
(** Byte [j] of the stream w 0 ++ w 1 ++ ... *)
Definition sbyte (j : nat) : N := nth (j mod bs) (w (j / bs)) 0%N.
Lemma sbyte_block : forall q, map sbyte (seq (bs * q) bs) = w q.
Proof.
  intros q. rewrite seq_shift_map, map_map. rewrite <- (map_nth_seq (w q)), Hw. apply map_ext_in.
  intros i Hi. apply in_seq in Hi. unfold sbyte. rewrite Nat.mul_comm, Nat.add_comm.
  rewrite Nat.div_add, Nat.mod_add, Nat.div_small, Nat.mod_small by lia. reflexivity.
Qed.
Lemma sbyte_part : forall q a c, a + c <= bs -> map sbyte (seq (bs * q + a) c) = firstn c (skipn a (w q)).
Proof.
  intros q a c H. rewrite <- (sbyte_block q). replace bs with (a + (c + (bs - a - c))) at 3 by lia.
  rewrite !seq_app, !map_app.
  rewrite skipn_app, skipn_all2 by (rewrite map_length, seq_length; lia). rewrite map_length, seq_length, Nat.sub_diag. cbn [app skipn].
  rewrite firstn_app, firstn_all2 by (rewrite map_length, seq_length; lia). rewrite map_length, seq_length, Nat.sub_diag.
  cbn [firstn]. now rewrite app_nil_r.
Qed.
Lemma stream_blocks : forall k, flat_map w (seq 0 k) = map sbyte (seq 0 (bs * k)).
Proof.
  induction k as [|k IH]; [now rewrite Nat.mul_0_r|]. rewrite seq_S, flat_map_app, IH. cbn [flat_map]. rewrite app_nil_r.
  replace (bs * S k) with (bs * k + bs) by lia. rewrite seq_app, map_app. cbn [plus]. now rewrite sbyte_block.
Qed.
Lemma stream_firstn : forall n k, n <= bs * k -> firstn n (flat_map w (seq 0 k)) = map sbyte (seq 0 n).
Proof.
  intros n k H. rewrite stream_blocks. replace (bs * k) with (n + (bs * k - n)) by lia. rewrite seq_app, map_app.
  rewrite firstn_app, firstn_all2 by (rewrite map_length, seq_length; lia). rewrite map_length, seq_length, Nat.sub_diag.
  cbn [firstn]. apply app_nil_r.
Qed.
End Stream.
Lemma sbyte_ext : forall bs w w' j, (forall i, w i = w' i) -> sbyte bs w j = sbyte bs w' j.
Proof. intros. unfold sbyte. now rewrite H. Qed.
