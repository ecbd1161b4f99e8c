(** Buf3.v -- a fourth buffering idiom of /repo (skein*.go Write): the last block is kept in the buffer even when it is
    full, because it must be processed differently. *)
From Coq Require Import List NArith Arith Lia Bool.
From Verif Require Import Base Buf.
Import ListNotations.

Section WriteL.
Context {St : Type}.
Variable bs : nat.
Variable f : St -> list N -> St.
Definition writeL (s : St) (x : list N) (off : nat) (p : list N) : St * list N * nat :=
  let dif := bs - off in
  let '(s1, x1, off1, p1) :=
    if (0 <? off) && (dif <? length p) then
      let x' := copy_at x off (firstn dif p) in
      let off' := off + dif in
      let p' := skipn dif p in
      if (off' =? bs) && (0 <? length p') then (f s x', x', 0, p') else (s, x', off', p')
    else (s, x, off, p) in
  let '(s2, p2) :=
    if bs <? length p1 then
      let len := length p1 in
      let nn := len - len mod bs in
      let nn := if len =? nn then nn - bs else nn in
      (fold_left f (chunks bs (firstn nn p1)) s1, skipn nn p1)
    else (s1, p1) in
  if 0 <? length p2 then (s2, copy_at x1 off1 p2, off1 + Nat.min (bs - off1) (length p2)) else (s2, x1, off1).

Hypothesis Hbs : 0 < bs.
(** after writing [m]: [a] has been processed, the buffer holds the rest, which is empty only if [m] is *)
Definition lazy_rel (s0 s : St) (x : list N) (off : nat) (m : list N) : Prop :=
  exists a, length a mod bs = 0 /\ s = fold_left f (chunks bs a) s0 /\ m = a ++ firstn off x /\ length x = bs /\ off <= bs /\ (off = 0 -> a = []).

Lemma fold_whole : forall s0 a b, length a mod bs = 0 -> fold_left f (chunks bs (a ++ b)) s0 = fold_left f (chunks bs b) (fold_left f (chunks bs a) s0).
Proof.
  intros s0 a b H. rewrite chunks_app, fold_left_app by lia. assert (R : rest bs a = []) by (apply length_zero_iff_nil; rewrite rest_length; lia). now rewrite R.
Qed.
Lemma writeL_rel : forall s0 s x off m p, lazy_rel s0 s x off m ->
  let '(s', x', off') := writeL s x off p in lazy_rel s0 s' x' off' (m ++ p).
Proof.
  intros s0 s x off m p (a & Ma & Es & Em & Lx & Lo & Ho).
  (* second and third part from an empty buffer *)
  assert (K : forall s1 x1 a1 p1, length a1 mod bs = 0 -> s1 = fold_left f (chunks bs a1) s0 -> length x1 = bs -> (0 < length p1 \/ a1 = []) ->
    let '(s', x', off') :=
      let '(s2, p2) :=
        if bs <? length p1 then
          let len := length p1 in
          let nn := len - len mod bs in
          let nn := if len =? nn then nn - bs else nn in
          (fold_left f (chunks bs (firstn nn p1)) s1, skipn nn p1)
        else (s1, p1) in
      if 0 <? length p2 then (s2, copy_at x1 0 p2, 0 + Nat.min (bs - 0) (length p2)) else (s2, x1, 0) in
    lazy_rel s0 s' x' off' (a1 ++ p1)).
  { intros s1 x1 a1 p1 M1 E1 L1 H1. 
    assert (Tail : forall s2 a2 p2, length a2 mod bs = 0 -> s2 = fold_left f (chunks bs a2) s0 -> length p2 <= bs -> (0 < length p2 \/ a2 = []) ->
      a1 ++ p1 = a2 ++ p2 ->
      let '(s', x', off') := if 0 <? length p2 then (s2, copy_at x1 0 p2, 0 + Nat.min (bs - 0) (length p2)) else (s2, x1, 0) in
      lazy_rel s0 s' x' off' (a1 ++ p1)).
    { intros s2 a2 p2 M2 E2 L2 H2 EA. destruct (Nat.ltb_spec 0 (length p2)) as [G|G].
      - exists a2. replace (0 + Nat.min (bs - 0) (length p2)) with (length p2) by lia. repeat split; auto; try lia.
        + rewrite EA. f_equal. symmetry. apply (copy_at_firstn _ x1 0 p2); cbn; lia.
        + rewrite copy_at_length; lia.
      - assert (E0 : p2 = []) by (apply length_zero_iff_nil; lia). subst p2. destruct H2 as [H2|H2]; [cbn in H2; lia|].
        exists a2. repeat split; auto; lia. }
    destruct (Nat.ltb_spec bs (length p1)) as [G|G].
    - cbv zeta. set (len := length p1) in *. set (n1 := if len =? len - len mod bs then len - len mod bs - bs else len - len mod bs).
      assert (Hm : len mod bs < bs) by (apply Nat.mod_upper_bound; lia).
      assert (HN : n1 mod bs = 0 /\ n1 < len /\ len - n1 <= bs).
      { pose proof (Nat.div_mod len bs ltac:(lia)) as DM. unfold n1. destruct (Nat.eqb_spec len (len - len mod bs)) as [E|E].
        - assert (len mod bs = 0) by lia. replace (len - len mod bs - bs) with ((len / bs - 1) * bs) by (rewrite Nat.mul_sub_distr_r; lia). split; [now apply Nat.mod_mul; lia|]. 
          assert (1 <= len / bs) by (apply Nat.div_le_lower_bound; lia). rewrite Nat.mul_sub_distr_r. split; lia.
        - replace (len - len mod bs) with ((len / bs) * bs) by lia. split; [now apply Nat.mod_mul; lia|]. lia. }
      destruct HN as (HN1 & HN2 & HN3). clearbody n1.
      assert (LF : length (firstn n1 p1) = n1) by (rewrite firstn_length; unfold len in *; lia).
      assert (LS : length (skipn n1 p1) = len - n1) by (rewrite skipn_length; reflexivity).
      apply (Tail _ (a1 ++ firstn n1 p1)).
      + rewrite app_length, LF. rewrite Nat.add_mod, M1, HN1 by lia. now apply Nat.mod_0_l; lia.
      + rewrite fold_whole by auto. now rewrite E1.
      + lia.
      + left. lia.
      + now rewrite <- app_assoc, firstn_skipn.
    - apply (Tail s1 a1 p1); auto. }
  unfold writeL. destruct (Nat.ltb_spec 0 off) as [Hp|Hp]; cbn [andb].
  - destruct (Nat.ltb_spec (bs - off) (length p)) as [G|G].
    + replace (off + (bs - off)) with bs by lia. rewrite Nat.eqb_refl, skipn_length. cbn [andb].
      destruct (Nat.ltb_spec 0 (length p - (bs - off))); [|lia].
      set (c := firstn (bs - off) p). assert (Lc : length c = bs - off) by (unfold c; rewrite firstn_length; lia).
      assert (Ex : copy_at x off c = firstn off x ++ c).
      { rewrite copy_at_full by lia. f_equal. apply firstn_all2. lia. }
      rewrite Ex. assert (LX : length (firstn off x ++ c) = bs) by (rewrite app_length, firstn_length; lia).
      replace (m ++ p) with ((a ++ firstn off x ++ c) ++ skipn (bs - off) p).
      2:{ rewrite Em. unfold c. rewrite <- !app_assoc. now rewrite firstn_skipn. }
      apply K.
      * rewrite app_length, LX. rewrite Nat.add_mod, Ma, Nat.mod_same by lia. now apply Nat.mod_0_l; lia.
      * rewrite fold_whole by auto. rewrite chunks_one by auto. cbn [fold_left]. now rewrite Es.
      * exact LX.
      * left. rewrite skipn_length. lia.
    + destruct (Nat.ltb_spec bs (length p)); [lia|].
      destruct (Nat.ltb_spec 0 (length p)) as [G2|G2].
      * exists a. replace (off + Nat.min (bs - off) (length p)) with (off + length p) by lia. repeat split; auto; try lia.
        { rewrite Em, <- app_assoc. f_equal. symmetry. apply copy_at_firstn; lia. }
        { rewrite copy_at_length; lia. }
      * assert (E0 : p = []) by (apply length_zero_iff_nil; lia). subst p. rewrite app_nil_r. exists a. repeat split; auto.
  - assert (off = 0) by lia. subst off. specialize (Ho eq_refl). subst a. cbn [firstn] in Em. rewrite app_nil_r in Em. subst m. cbn [app].
    apply (K s x [] p); auto.
Qed.
End WriteL.
