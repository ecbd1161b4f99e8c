(** Pad.v -- the last block of a padded message, for any marker byte. *)
From Coq Require Import List NArith Arith Lia.
From Verif Require Import Base Buf MD Bytes.
Import ListNotations.

Lemma zeros_skip : forall a n, skipn a (zeros n) = zeros (n - a).
Proof. unfold zeros. intros a. induction a as [|a IH]; intros [|n]; cbn; auto. Qed.
Lemma zeros_length : forall n, length (zeros n) = n.
Proof. intro. apply repeat_length. Qed.
Lemma chunks_last : forall bs (m t : list N), 0 < bs -> length (rest bs m ++ t) = bs -> chunks bs (m ++ t) = chunks bs m ++ [rest bs m ++ t].
Proof.
  intros bs m t Hb HL. rewrite (chunks_app N bs m t Hb). f_equal. now apply chunks_one.
Qed.
Lemma pad_block_v : forall v bs x nx m, 0 < bs -> buf_ok bs bs x nx m ->
  let pad := upd (copy_at (zeros bs) 0 (firstn nx x)) nx v in
  chunks bs (m ++ v :: zeros (bs - 1 - length m mod bs)) = chunks bs m ++ [pad] /\ length pad = bs /\ pad = rest bs m ++ v :: zeros (bs - 1 - length m mod bs).
Proof.
  intros v bs x nx m Hb (Lx & En & Ef) pad. pose proof (rest_length N bs m ltac:(lia)) as LR. pose proof (Nat.mod_upper_bound (length m) bs ltac:(lia)) as HM.
  assert (E : pad = rest bs m ++ v :: zeros (bs - 1 - length m mod bs)).
  { unfold pad. rewrite Ef, copy_at_over by (rewrite zeros_length; lia). rewrite upd_split by (rewrite app_length, skipn_length, zeros_length; lia).
    rewrite En at 1. rewrite firstn_app, firstn_all2, Nat.sub_diag, firstn_O, app_nil_r by lia. f_equal. f_equal.
    rewrite skipn_app. rewrite skipn_all2 by lia. cbn [app]. rewrite skipn_skipn, zeros_skip. f_equal. lia. }
  assert (LP : length pad = bs) by (rewrite E, app_length; cbn [length]; rewrite zeros_length; lia).
  split; [|split; assumption]. rewrite E. apply chunks_last; [exact Hb|]. rewrite <- E. exact LP.
Qed.
