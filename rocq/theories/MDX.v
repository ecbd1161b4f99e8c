(** MDX.v -- digests whose buffer d.x is longer than a block (a fixed array shared by several block sizes):
    the object behaves like the one with the buffer cut to a block.  Generic; no code of /repo is modelled here. *)
From Coq Require Import List NArith Arith Lia.
Require Import Verif.Base Verif.Buf Verif.MD.
Import ListNotations.

Lemma firstn_copy_at : forall A (x : list A) off src k, off <= k -> k <= length x -> firstn k (copy_at x off src) = copy_at (firstn k x) off src.
Proof.
  intros A x off src k Ho Hk. destruct (Nat.le_gt_cases (length src) (k - off)) as [H|H].
  - unfold copy_at. rewrite firstn_length. rewrite (Nat.min_l k (length x)) by lia. rewrite !(Nat.min_r _ (length src)) by lia.
    rewrite !(firstn_all2 src) by lia. rewrite skipn_firstn_comm, firstn_firstn, (Nat.min_l off k) by lia.
    rewrite !app_assoc, firstn_app. rewrite firstn_all2 by (rewrite app_length, firstn_length; lia). f_equal. f_equal. rewrite app_length, firstn_length. lia.
  - unfold copy_at. rewrite firstn_length. rewrite (Nat.min_l k (length x)) by lia.
    rewrite (skipn_all2 (firstn k x)) by (rewrite firstn_length; lia). rewrite app_nil_r, firstn_firstn, (Nat.min_l off k) by lia.
    rewrite firstn_app, firstn_firstn, firstn_length, (Nat.min_r k off), (Nat.min_l off (length x)) by lia. f_equal.
    rewrite firstn_app, firstn_firstn, firstn_length. replace (k - off - Nat.min (length x - off) (length src)) with 0 by lia.
    rewrite firstn_O, app_nil_r. f_equal. lia.
Qed.
Lemma firstn_upd' : forall (x : list N) i v k, i < k -> k <= length x -> firstn k (upd x i v) = upd (firstn k x) i v.
Proof.
  intros x i v k. revert x i. induction k as [|k IH]; intros x i Hi Hk; [lia|]. destruct x as [|a x]; [cbn in Hk; lia|].
  destruct i as [|i]; [reflexivity|]. cbn [upd firstn]. f_equal. apply IH; [lia|cbn in Hk; lia].
Qed.
Section X.
Context {St : Type} (bs xl : nat) (f : St -> list N -> St) (g : St -> list N -> St).
Hypothesis Hbs : 0 < bs.
Hypothesis Hxl : bs <= xl.
Hypothesis Hf : forall s x, length x = xl -> f s x = g s (firstn bs x).
Definition trunc (d : dig St) : dig St := mkdig (ds d) (firstn bs (dx d)) (dnx d) (dlen d).

Lemma loopA_trunc : forall T (step step' : T -> list N -> nat -> T), (forall s x k, length x = xl -> step s x k = step' s (firstn bs x) k) ->
  forall fuel s x nx p, length x = xl -> nx <= bs ->
  let '(s', x', nx', p') := loopA bs step fuel s x nx p in
  loopA bs step' fuel s (firstn bs x) nx p = (s', firstn bs x', nx', p') /\ length x' = xl /\ nx' <= bs.
Proof.
  intros T step step' HS. induction fuel as [|k IH]; intros s x nx p Lx Hn; cbn [loopA]; [auto|].
  destruct (Nat.leb_spec bs (nx + length p)) as [H|H]; [|auto]. cbv zeta. rewrite <- firstn_copy_at by lia.
  rewrite <- HS by (rewrite copy_at_length; lia). apply IH; [rewrite copy_at_length; lia|lia].
Qed.
Lemma writeA_trunc : forall T (step step' : T -> list N -> nat -> T), (forall s x k, length x = xl -> step s x k = step' s (firstn bs x) k) ->
  forall s x nx p, length x = xl -> nx <= bs ->
  let '(s', x', nx', c) := writeA bs step s x nx p in writeA bs step' s (firstn bs x) nx p = (s', firstn bs x', nx', c) /\ length x' = xl.
Proof.
  intros T step step' HS s x nx p Lx Hn. unfold writeA. pose proof (loopA_trunc T step step' HS (S (length p)) s x nx p Lx Hn) as H.
  destruct (loopA bs step (S (length p)) s x nx p) as [[[s1 x1] n1] p1]. destruct H as (E & L & Hn1). rewrite E. split; [|rewrite copy_at_length; lia].
  rewrite firstn_copy_at by lia. reflexivity.
Qed.
Lemma write_post_trunc : forall unit d p, length (dx d) = xl -> dnx d <= bs ->
  trunc (fst (write_post bs f unit d p)) = fst (write_post bs g unit (trunc d) p) /\ length (dx (fst (write_post bs f unit d p))) = xl.
Proof.
  intros unit d p Lx Hn. unfold write_post. cbn [ds dx dnx dlen trunc].
  pose proof (writeA_trunc _ (fun s b xx => (f (fst s) b, add64 (snd s) (unit * N.of_nat xx))) (fun s b xx => (g (fst s) b, add64 (snd s) (unit * N.of_nat xx)))
    ltac:(intros; cbv beta; now rewrite Hf) (ds d, dlen d) (dx d) (dnx d) p Lx Hn) as H.
  destruct (writeA bs _ (ds d, dlen d) (dx d) (dnx d) p) as [[[s1 x1] n1] c1]. destruct H as [E L]. rewrite E. cbn [fst ds dx]. split; [reflexivity|exact L].
Qed.
Lemma finish_trunc : forall marker lenb d, length (dx d) = xl -> dnx d < bs -> length lenb <= bs ->
  finish_direct bs f marker lenb d = finish_direct bs g marker lenb (trunc d).
Proof.
  intros marker lenb d Lx Hn Hl. unfold finish_direct. cbn [ds dx dnx dlen trunc].
  assert (L1 : length (copy_at (upd (dx d) (dnx d) marker) (dnx d + 1) (zeros bs)) = xl) by (rewrite copy_at_length; rewrite upd_length; lia).
  assert (L2 : length (copy_at (copy_at (upd (dx d) (dnx d) marker) (dnx d + 1) (zeros bs)) 0 (zeros bs)) = xl) by (rewrite copy_at_length; lia).
  rewrite <- firstn_upd' by lia. rewrite <- firstn_copy_at by (try rewrite upd_length; lia).
  destruct (bs - length lenb <? dnx d + 1).
  - rewrite <- firstn_copy_at by lia. rewrite <- firstn_copy_at by lia. rewrite (Hf (ds d)) by exact L1. apply Hf. rewrite copy_at_length; lia.
  - rewrite <- !firstn_copy_at by (rewrite ?L1, ?upd_length; lia). apply Hf. rewrite copy_at_length; lia.
Qed.
(** The relation carried along a history. *)
Definition dig_relx (iv : St) (unit : N) (d : dig St) (m : list N) : Prop := length (dx d) = xl /\ dig_rel bs g iv unit (trunc d) m.
Lemma relx_new : forall iv unit x, length x = xl -> dig_relx iv unit (mkdig iv x 0 0) [].
Proof. intros iv unit x L. split; [exact L|]. unfold trunc. cbn [ds dx dnx dlen]. apply dig_rel_new; [exact Hbs|]. rewrite firstn_length. lia. Qed.
Lemma relx_write : forall iv unit d m p, dig_relx iv unit d m -> dig_relx iv unit (fst (write_post bs f unit d p)) (m ++ p).
Proof.
  intros iv unit d m p [L R]. pose proof (dig_nx_lt bs g Hbs _ _ _ _ R) as Hn. cbn [dnx trunc] in Hn.
  destruct (write_post_trunc unit d p L ltac:(lia)) as [E L']. split; [exact L'|]. rewrite E. now apply write_post_rel.
Qed.
Lemma relx_finish : forall iv unit marker lenb d m, 0 < length lenb < bs -> dig_relx iv unit d m ->
  finish_direct bs f marker lenb d = fold_left g (chunks bs (md_pad bs marker lenb m)) iv.
Proof.
  intros iv unit marker lenb d m Hl [L R]. pose proof (dig_nx_lt bs g Hbs _ _ _ _ R) as Hn. cbn [dnx trunc] in Hn.
  rewrite finish_trunc by lia. exact (finish_direct_ok St bs g iv unit marker lenb (trunc d) m Hbs Hl R).
Qed.
Lemma relx_len : forall iv unit d m, dig_relx iv unit d m -> dlen d = w64 (unit * N.of_nat (length m)) /\ dnx d = length m mod bs.
Proof.
  intros iv unit d m [L R]. split; [exact (proj2 (proj2 R))|]. exact (dig_nx bs g Hbs _ _ _ _ R).
Qed.
End X.
