(** Buf2.v -- a third buffering idiom of /repo (ascon/hash.go write, ascon/mac.go write): the buffer is
    completed only when the new bytes are enough to fill it. *)
From Coq Require Import List NArith Arith Lia Bool.
From Verif Require Import Base Buf.
Import ListNotations.

Section WriteC.
Context {St : Type}.
Variable bs : nat.
Variable f : St -> list N -> St.
Definition writeC (s : St) (x : list N) (nx : nat) (p : list N) : St * list N * nat :=
  let '(s1, x1, nx1, p1) :=
    if (0 <? nx) && (bs <=? nx + length p) then
      let n := Nat.min (length x - nx) (length p) in
      let x' := copy_at x nx p in
      if nx + n =? bs then (f s x', x', 0, skipn n p)
      else (s, x', nx + n, skipn n p)
    else (s, x, nx, p) in
  let '(s2, p2) := loopB bs f (S (length p1)) s1 p1 in
  if 0 <? length p2 then (s2, copy_at x1 nx1 p2, nx1 + Nat.min (length x1 - nx1) (length p2)) else (s2, x1, nx1).

Hypothesis Hbs : 0 < bs.
Lemma writeC_plain : forall s0 m p x nx,
  buf_ok bs bs x nx m ->
  exists x' nx',
    writeC (fold_left f (chunks bs m) s0) x nx p
      = (fold_left f (chunks bs (m ++ p)) s0, x', nx') /\
    buf_ok bs bs x' nx' (m ++ p).
Proof.
  intros s0 m p x nx Hb. pose proof (buf_ok_nx_lt _ _ _ _ _ Hbs Hb) as Hnx. pose proof Hb as (Lx & En & Ex).
  assert (K : forall x1 p1 m1, m ++ p = m1 ++ p1 -> buf_ok bs bs x1 0 m1 ->
     exists x' nx',
       (let '(s2, p2) := loopB bs f (S (length p1)) (fold_left f (chunks bs m1) s0) p1 in
        if 0 <? length p2 then (s2, copy_at x1 0 p2, 0 + Nat.min (length x1 - 0) (length p2)) else (s2, x1, 0))
       = (fold_left f (chunks bs (m ++ p)) s0, x', nx') /\ buf_ok bs bs x' nx' (m ++ p)).
  { intros x1 p1 m1 Em (L1 & E1 & _). rewrite loopB_ok by lia. rewrite Em.
    assert (Hr : rest bs m1 = []) by (apply length_zero_iff_nil; lia).
    assert (Es' : fold_left f (chunks bs (m1 ++ p1)) s0 = fold_left f (chunks bs p1) (fold_left f (chunks bs m1) s0)).
    { rewrite chunks_app, fold_left_app, Hr by lia. reflexivity. }
    assert (Er : rest bs (m1 ++ p1) = rest bs p1) by (rewrite rest_app, Hr by lia; reflexivity).
    rewrite Es'. pose proof (rest_length_lt _ bs p1 Hbs).
    destruct (Nat.ltb_spec 0 (length (rest bs p1))) as [Hp|Hp].
    - eexists _, _. split; [reflexivity|]. unfold buf_ok. rewrite Er. replace (0 + Nat.min (length x1 - 0) (length (rest bs p1))) with (length (rest bs p1)) by lia.
      split; [rewrite copy_at_length; lia|]. split; auto. apply (copy_at_firstn _ x1 0); lia.
    - eexists _, _. split; [reflexivity|]. assert (rest bs p1 = []) as R0 by (apply length_zero_iff_nil; lia).
      unfold buf_ok. rewrite Er, R0. auto. }
  unfold writeC. destruct (Nat.ltb_spec 0 nx) as [Hp|Hp]; cbn [andb].
  - destruct (Nat.leb_spec bs (nx + length p)) as [G|G].
    + cbv zeta. rewrite Lx. replace (Nat.min (bs - nx) (length p)) with (bs - nx) by lia.
      replace (nx + (bs - nx)) with bs by lia. rewrite Nat.eqb_refl.
      set (x' := copy_at x nx p). assert (Lx' : length x' = bs) by (unfold x'; rewrite copy_at_length; lia).
      set (c := firstn (bs - nx) p). assert (Lc : length c = bs - nx) by (unfold c; rewrite firstn_length; lia).
      assert (Fx' : x' = rest bs m ++ c) by (unfold x'; rewrite copy_at_full by lia; rewrite Ex, Lx; reflexivity).
      replace (f (fold_left f (chunks bs m) s0) x') with (fold_left f (chunks bs (m ++ c)) s0) by (rewrite Fx'; apply absorb_snoc; lia).
      apply (K x' (skipn (bs - nx) p) (m ++ c)).
      * unfold c. rewrite <- app_assoc, firstn_skipn. reflexivity.
      * unfold buf_ok. rewrite rest_app by lia. rewrite rest_one by (auto; rewrite app_length; lia). auto.
    + rewrite loopB_ok by lia. rewrite chunks_short, rest_short by lia. cbn [fold_left].
      assert (Es : fold_left f (chunks bs (m ++ p)) s0 = fold_left f (chunks bs m) s0) by (apply absorb_short; lia).
      assert (Er : rest bs (m ++ p) = rest bs m ++ p) by (rewrite rest_app by lia; apply rest_short; rewrite app_length; lia).
      rewrite Es. destruct (Nat.ltb_spec 0 (length p)) as [Z|Z].
      * eexists _, _. split; [reflexivity|]. unfold buf_ok. rewrite Er, app_length.
        replace (nx + Nat.min (length x - nx) (length p)) with (nx + length p) by lia.
        split; [rewrite copy_at_length; lia|]. split; [lia|]. rewrite copy_at_firstn by lia. now rewrite Ex.
      * eexists _, _. split; [reflexivity|]. assert (p = []) as -> by (apply length_zero_iff_nil; lia). rewrite app_nil_r. exact Hb.
  - assert (nx = 0) as -> by lia. apply (K x p m); auto.
Qed.
End WriteC.
