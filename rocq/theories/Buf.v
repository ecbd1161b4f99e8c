(** Buf.v -- the two block-buffering idioms that almost every package of /repo
    uses in Write, modelled once and proved once.

    A digest owns an array [x] (the Go field d.x), a count [nx] (d.nx) of valid
    bytes in it and an inner state.  [writeA] is the loop-and-copy idiom
    (e.g. /repo/sha0/digest.go:54-78, /repo/md2/digest.go:49-73), [writeB] the
    idiom inherited from the Go standard library
    (e.g. /repo/ripemd/digest160.go Write, /repo/kupyna/kupyna256.go Write).
    Each package's model cites the lines it instantiates. *)
From Coq Require Import List NArith Arith Lia Bool.
From Verif Require Import Base.
Import ListNotations.

Section WriteA.
Context {St : Type}.
Variable bs : nat.
(** What one loop iteration does to the inner state: it gets the whole array
    d.x after the copy, and the number of fresh bytes ([xx] in the source). *)
Variable step : St -> list N -> nat -> St.

(** for d.nx+plen >= limit { xx := limit-d.nx; copy(d.x[d.nx:], p); step;
    p = p[xx:]; plen -= xx; d.nx = 0 }.   [fuel] bounds the iterations; the
    number used by [writeA] is proved sufficient below. *)
Fixpoint loopA (fuel : nat) (s : St) (x : list N) (nx : nat) (p : list N)
  : St * list N * nat * list N :=
  match fuel with
  | O => (s, x, nx, p)
  | S f =>
      if bs <=? nx + length p then
        let x' := copy_at x nx p in
        loopA f (step s x' (bs - nx)) x' 0 (skipn (bs - nx) p)
      else (s, x, nx, p)
  end.

(** The loop followed by copy(d.x[d.nx:], p); d.nx += plen.  The last component
    is the number of bytes left for the buffer (plen after the loop). *)
Definition writeA (s : St) (x : list N) (nx : nat) (p : list N)
  : St * list N * nat * nat :=
  let '(s', x', nx', p') := loopA (S (length p)) s x nx p in
  (s', copy_at x' nx' p', nx' + length p', length p').

End WriteA.

Section WriteB.
Context {St : Type}.
Variable bs : nat.
Variable step : St -> list N -> St.

(** for len(p) >= BlockSize { block(p[:BlockSize]); p = p[BlockSize:] } *)
Fixpoint loopB (fuel : nat) (s : St) (p : list N) : St * list N :=
  match fuel with
  | O => (s, p)
  | S f => if bs <=? length p then loopB f (step s (firstn bs p)) (skipn bs p) else (s, p)
  end.

Definition writeB (s : St) (x : list N) (nx : nat) (p : list N) : St * list N * nat :=
  let '(s1, x1, nx1, p1) :=
    if 0 <? nx then
      let n := Nat.min (length x - nx) (length p) in
      let x' := copy_at x nx p in
      if nx + n =? bs then (step s x', x', 0, skipn n p)
      else (s, x', nx + n, skipn n p)
    else (s, x, nx, p) in
  let '(s2, p2) := loopB (S (length p1)) s1 p1 in
  if 0 <? length p2 then (s2, copy_at x1 0 p2, length p2) else (s2, x1, nx1).

End WriteB.

(** ** Correctness *)

(** The buffer holds exactly the bytes of the history [m] that do not fill a block. *)
Definition buf_ok (bs xl : nat) (x : list N) (nx : nat) (m : list N) : Prop :=
  length x = xl /\ nx = length (rest bs m) /\ firstn nx x = rest bs m.

Lemma buf_ok_nil : forall bs xl x, 0 < bs -> length x = xl -> buf_ok bs xl x 0 [].
Proof. intros. unfold buf_ok. rewrite rest_short by (simpl; lia). auto. Qed.

Lemma buf_ok_nx_lt : forall bs xl x nx m, 0 < bs -> buf_ok bs xl x nx m -> nx < bs.
Proof. intros bs xl x nx m Hb (_ & -> & _). now apply rest_length_lt. Qed.

Section CorrectA.
Context {St : Type}.
Variable bs xl : nat.
Variable step : St -> list N -> nat -> St.
Variable I : St -> list N -> Prop.
Hypothesis Hbs : 0 < bs.
Hypothesis Hxl : bs <= xl.
(** One block of fresh bytes completed the buffer. *)
Hypothesis Hstep : forall s m c b,
  I s m -> length b = xl -> firstn bs b = rest bs m ++ c ->
  length (rest bs m) + length c = bs ->
  I (step s b (length c)) (m ++ c).

Lemma loopA_ok : forall fuel s x nx p m,
  length p < fuel -> I s m -> buf_ok bs xl x nx m ->
  exists s' x' nx' p' c,
    loopA bs step fuel s x nx p = (s', x', nx', p') /\
    p = c ++ p' /\ I s' (m ++ c) /\ buf_ok bs xl x' nx' (m ++ c) /\
    nx' + length p' < bs.
Proof.
  induction fuel as [|f IH]; intros s x nx p m Hf HI Hb; [lia|].
  cbn [loopA]. destruct (Nat.leb_spec bs (nx + length p)) as [Hle|Hlt].
  - pose proof (buf_ok_nx_lt _ _ _ _ _ Hbs Hb) as Hnx.
    destruct Hb as (Lx & En & Ex).
    set (c := firstn (bs - nx) p).
    assert (Lc : length c = bs - nx) by (unfold c; rewrite firstn_length; lia).
    set (x' := copy_at x nx p).
    assert (Lx' : length x' = xl) by (unfold x'; rewrite copy_at_length; lia).
    assert (Fx' : firstn bs x' = rest bs m ++ c).
    { unfold x', copy_at. rewrite Ex, En.
      rewrite firstn_app. rewrite firstn_all2 by (rewrite <- En; lia). f_equal.
      rewrite <- En. rewrite firstn_app, firstn_firstn.
      replace (Nat.min (bs - nx) (length x - nx)) with (bs - nx) by lia.
      fold c. rewrite firstn_length.
      replace (bs - nx - Nat.min (length x - nx) (length p)) with 0 by lia.
      rewrite firstn_O. apply app_nil_r. }
    assert (HI' : I (step s x' (bs - nx)) (m ++ c)).
    { rewrite <- Lc. apply Hstep; auto. lia. }
    assert (Hb' : buf_ok bs xl x' 0 (m ++ c)).
    { assert (Er : rest bs (m ++ c) = []).
      { rewrite rest_app by lia. apply rest_one; auto. rewrite app_length. lia. }
      unfold buf_ok. rewrite Er. auto. }
    destruct (IH (step s x' (bs - nx)) x' 0 (skipn (bs - nx) p) (m ++ c))
      as (s2 & x2 & n2 & p2 & c2 & E & Ep & HI2 & Hb2 & Hl2); auto.
    { rewrite skipn_length. lia. }
    exists s2, x2, n2, p2, (c ++ c2). rewrite app_assoc.
    split; [exact E|]. split; [|auto].
    rewrite <- app_assoc, <- Ep. symmetry. apply firstn_skipn.
  - exists s, x, nx, p, []. rewrite app_nil_r. simpl. auto.
Qed.

Lemma writeA_ok : forall s x nx p m,
  I s m -> buf_ok bs xl x nx m ->
  exists s' x' nx' r c,
    writeA bs step s x nx p = (s', x', nx', length r) /\
    p = c ++ r /\ I s' (m ++ c) /\ length (rest bs (m ++ c)) + length r < bs /\
    buf_ok bs xl x' nx' (m ++ p).
Proof.
  intros s x nx p m HI Hb. unfold writeA.
  destruct (loopA_ok (S (length p)) s x nx p m) as (s' & x' & n' & p' & c & E & Ep & HI' & Hb' & Hl); auto.
  rewrite E. exists s', (copy_at x' n' p'), (n' + length p'), p', c.
  destruct Hb' as (Lx & En & Ex).
  split; [auto|]. split; [auto|]. split; [auto|]. split; [lia|].
  assert (Er : rest bs (m ++ p) = rest bs (m ++ c) ++ p').
  { rewrite Ep, app_assoc, rest_app by lia. apply rest_short. rewrite app_length. lia. }
  unfold buf_ok. rewrite Er, app_length, <- En. split; [|split].
  - rewrite copy_at_length; lia.
  - reflexivity.
  - rewrite copy_at_firstn by lia. now rewrite Ex.
Qed.
End CorrectA.

Lemma absorb_snoc : forall St (f : St -> list N -> St) bs s0 m c, 0 < bs ->
  length (rest bs m) + length c = bs ->
  fold_left f (chunks bs (m ++ c)) s0 = f (fold_left f (chunks bs m) s0) (rest bs m ++ c).
Proof.
  intros. rewrite chunks_app, fold_left_app by lia.
  rewrite (chunks_one _ bs (rest bs m ++ c)) by (try rewrite app_length; lia). reflexivity.
Qed.

Lemma absorb_short : forall St (f : St -> list N -> St) bs s0 m c, 0 < bs ->
  length (rest bs m) + length c < bs ->
  fold_left f (chunks bs (m ++ c)) s0 = fold_left f (chunks bs m) s0.
Proof.
  intros. rewrite chunks_app by lia.
  rewrite (chunks_short _ bs (rest bs m ++ c)) by (rewrite app_length; lia).
  now rewrite app_nil_r.
Qed.

(** The usual instance: the iteration feeds d.x (exactly one block long) to the
    compression function. *)
Lemma writeA_plain : forall St (f : St -> list N -> St) bs s0 m p x nx, 0 < bs ->
  buf_ok bs bs x nx m ->
  exists x' nx' r,
    writeA bs (fun s b _ => f s b) (fold_left f (chunks bs m) s0) x nx p
      = (fold_left f (chunks bs (m ++ p)) s0, x', nx', r) /\
    buf_ok bs bs x' nx' (m ++ p).
Proof.
  intros St f bs s0 m p x nx Hbs Hb.
  destruct (writeA_ok bs bs (fun s b _ => f s b)
             (fun s m => s = fold_left f (chunks bs m) s0) Hbs (le_n _))
    with (s := fold_left f (chunks bs m) s0) (x := x) (nx := nx) (p := p) (m := m)
    as (s' & x' & nx' & r & c & E & Ep & HI & Hl & Hb'); auto.
  - intros s m0 c b -> Lb Fb Hl. rewrite absorb_snoc by lia.
    rewrite (firstn_all2 b) in Fb by lia. rewrite Fb. reflexivity.
  - exists x', nx', (length r). split; auto. rewrite E. subst s' p.
    rewrite app_assoc, (absorb_short _ f bs s0 (m ++ c) r) by lia. reflexivity.
Qed.

Section CorrectB.
Context {St : Type}.
Variable bs : nat.
Variable f : St -> list N -> St.
Hypothesis Hbs : 0 < bs.

Lemma loopB_ok : forall fuel s p, length p < fuel ->
  loopB bs f fuel s p = (fold_left f (chunks bs p) s, rest bs p).
Proof.
  induction fuel as [|n IH]; intros s p Hf; [lia|].
  cbn [loopB]. destruct (Nat.leb_spec bs (length p)).
  - rewrite chunks_cons, rest_cons by lia. cbn [fold_left].
    apply IH. rewrite skipn_length. lia.
  - rewrite chunks_short, rest_short by lia. reflexivity.
Qed.

Lemma writeB_plain : forall s0 m p x nx,
  buf_ok bs bs x nx m ->
  exists x' nx',
    writeB bs f (fold_left f (chunks bs m) s0) x nx p
      = (fold_left f (chunks bs (m ++ p)) s0, x', nx') /\
    buf_ok bs bs x' nx' (m ++ p).
Proof.
  intros s0 m p x nx Hb.
  pose proof (buf_ok_nx_lt _ _ _ _ _ Hbs Hb) as Hnx.
  destruct Hb as (Lx & En & Ex). unfold writeB.
  assert (K : forall s1 x1 nx1 p1 m1,
     length x1 = bs -> m ++ p = m1 ++ p1 ->
     s1 = fold_left f (chunks bs m1) s0 -> buf_ok bs bs x1 nx1 m1 ->
     (nx1 = 0 \/ p1 = []) ->
     exists x' nx',
       (let '(s2, p2) := loopB bs f (S (length p1)) s1 p1 in
        if 0 <? length p2 then (s2, copy_at x1 0 p2, length p2) else (s2, x1, nx1))
       = (fold_left f (chunks bs (m ++ p)) s0, x', nx') /\ buf_ok bs bs x' nx' (m ++ p)).
  { intros s1 x1 nx1 p1 m1 L1 Em Es Hb1 Hz.
    rewrite loopB_ok by lia. rewrite Em.
    destruct Hz as [Hz|Hz].
    - assert (Hr : rest bs m1 = []).
      { destruct Hb1 as (_ & E1 & _). destruct (rest bs m1); auto. simpl in E1. lia. }
      assert (Es' : fold_left f (chunks bs (m1 ++ p1)) s0 = fold_left f (chunks bs p1) s1).
      { rewrite chunks_app, fold_left_app, Hr, Es by lia. reflexivity. }
      assert (Er : rest bs (m1 ++ p1) = rest bs p1).
      { rewrite rest_app, Hr by lia. reflexivity. }
      rewrite Es'.
      destruct (Nat.ltb_spec 0 (length (rest bs p1))) as [Hp|Hp].
      + exists (copy_at x1 0 (rest bs p1)), (length (rest bs p1)). split; auto.
        pose proof (rest_length_lt _ bs p1 Hbs).
        unfold buf_ok. rewrite Er. split; [rewrite copy_at_length; lia|]. split; auto.
        apply (copy_at_firstn _ x1 0); lia.
      + exists x1, nx1. split; auto.
        assert (rest bs p1 = []) by (destruct (rest bs p1); simpl in *; auto; lia).
        unfold buf_ok. rewrite Er, H. subst nx1. auto.
    - subst p1. rewrite app_nil_r. rewrite chunks_short, rest_short by (simpl; lia).
      simpl. exists x1, nx1. rewrite Es. auto. }
  destruct (Nat.ltb_spec 0 nx) as [Hp|Hp].
  - cbv zeta.
    set (n := Nat.min (length x - nx) (length p)).
    set (x' := copy_at x nx p).
    assert (Lx' : length x' = bs) by (unfold x'; rewrite copy_at_length; lia).
    set (c := firstn n p).
    assert (Lc : length c = n) by (unfold c; rewrite firstn_length; lia).
    assert (Fx' : firstn (nx + n) x' = rest bs m ++ c).
    { unfold x', copy_at. rewrite Ex.
      rewrite firstn_app. rewrite firstn_all2 by (rewrite <- En; lia). f_equal.
      rewrite <- En. replace (nx + n - nx) with n by lia.
      rewrite firstn_app, firstn_firstn.
      replace (Nat.min n (length x - nx)) with n by lia. fold c.
      rewrite firstn_length. replace (n - Nat.min (length x - nx) (length p)) with 0 by lia.
      rewrite firstn_O. apply app_nil_r. }
    destruct (Nat.eqb_spec (nx + n) bs) as [He|He].
    + apply (K _ _ _ _ (m ++ c)); auto.
      * unfold c. rewrite <- app_assoc, firstn_skipn. reflexivity.
      * rewrite He in Fx'. rewrite firstn_all2 in Fx' by lia.
        rewrite Fx'. symmetry. apply absorb_snoc; lia.
      * assert (Er : rest bs (m ++ c) = []).
        { rewrite rest_app by lia. apply rest_one; auto. rewrite app_length. lia. }
        unfold buf_ok. rewrite Er. auto.
    + assert (n = length p) by lia.
      assert (Ec : c = p) by (unfold c; apply firstn_all2; lia).
      apply (K _ _ _ _ (m ++ c)); auto.
      * unfold c. rewrite <- app_assoc, firstn_skipn. reflexivity.
      * symmetry. apply absorb_short; lia.
      * assert (Er : rest bs (m ++ c) = rest bs m ++ c).
        { rewrite rest_app by lia. apply rest_short. rewrite app_length. lia. }
        unfold buf_ok. rewrite Er, app_length. repeat split; auto; lia.
      * right. apply skipn_all2. lia.
  - apply (K _ _ _ _ m); auto.
    + unfold buf_ok. auto.
    + left. lia.
Qed.
End CorrectB.

(** ** Padding *)

(** Standard Merkle-Damgard strengthening: one marker byte, as few zero bytes as
    possible, the [length lenb]-byte length block, so that the total is a
    multiple of the block size. *)
Definition md_pad (bs : nat) (marker : N) (lenb : list N) (m : list N) : list N :=
  m ++ marker :: zeros ((bs - (length m + 1 + length lenb) mod bs) mod bs) ++ lenb.

Lemma md_pad_length : forall bs marker lenb m, 0 < bs ->
  length (md_pad bs marker lenb m) mod bs = 0.
Proof.
  intros. unfold md_pad. rewrite app_length. cbn [length]. rewrite app_length, zeros_length.
  set (a := length m + 1 + length lenb).
  replace (length m + S ((bs - a mod bs) mod bs + length lenb))
    with (a + (bs - a mod bs) mod bs) by (unfold a; lia).
  rewrite Nat.add_mod_idemp_r by lia.
  pose proof (Nat.mod_upper_bound a bs ltac:(lia)).
  rewrite <- Nat.add_mod_idemp_l by lia.
  replace (a mod bs + (bs - a mod bs)) with bs by lia. apply Nat.mod_same. lia.
Qed.

(** The blocks the code feeds to its compression function at the end: marker
    byte into d.x[d.nx], zero fill, an extra block when the length field does
    not fit, length field in the last bytes. *)
Definition finish_blocks (bs : nat) (marker : N) (x : list N) (nx : nat) (lenb : list N)
  : list (list N) :=
  let x1 := upd x nx marker in
  let x2 := copy_at x1 (nx + 1) (zeros bs) in
  if bs - length lenb <? nx + 1
  then [x2; copy_at (zeros bs) (bs - length lenb) lenb]
  else [copy_at x2 (bs - length lenb) lenb].

Lemma pad_count : forall bs m l, 0 < bs -> l < bs ->
  (bs - (length m + 1 + l) mod bs) mod bs =
  let r := length (@rest N bs m) in
  if bs - l <? r + 1 then 2 * bs - (r + 1 + l) else bs - (r + 1 + l).
Proof.
  intros bs m l Hb Hl. rewrite rest_length by lia. cbv zeta.
  pose proof (Nat.mod_upper_bound (length m) bs ltac:(lia)) as Hr.
  rewrite <- Nat.add_assoc, <- Nat.add_mod_idemp_l by lia.
  set (r := length m mod bs) in *.
  destruct (Nat.ltb_spec (bs - l) (r + 1)).
  - replace (r + (1 + l)) with ((r + 1 + l - bs) + 1 * bs) by lia.
    rewrite Nat.mod_add by lia. rewrite (Nat.mod_small (r + 1 + l - bs)) by lia.
    rewrite Nat.mod_small by lia. lia.
  - destruct (Nat.eq_dec (r + (1 + l)) bs) as [E|E].
    + rewrite E, Nat.mod_same, Nat.sub_0_r, Nat.mod_same by lia. lia.
    + rewrite (Nat.mod_small (r + (1 + l))) by lia. rewrite Nat.mod_small by lia. lia.
Qed.

Lemma finish_blocks_ok : forall bs marker x nx lenb m,
  0 < bs -> 0 < length lenb < bs -> buf_ok bs bs x nx m ->
  chunks bs (md_pad bs marker lenb m) = chunks bs m ++ finish_blocks bs marker x nx lenb.
Proof.
  intros bs marker x nx lenb m Hb Hl Hok.
  pose proof (buf_ok_nx_lt _ _ _ _ _ Hb Hok) as Hnx.
  destruct Hok as (Lx & En & Ex).
  unfold md_pad. rewrite chunks_app by lia. f_equal.
  rewrite pad_count by lia. cbv zeta. rewrite <- En.
  unfold finish_blocks.
  assert (E2 : copy_at (upd x nx marker) (nx + 1) (zeros bs)
               = rest bs m ++ marker :: zeros (bs - (nx + 1))).
  { rewrite copy_at_full by (rewrite upd_length, ?zeros_length; lia).
    rewrite upd_length, Lx, firstn_zeros.
    replace (Nat.min (bs - (nx + 1)) bs) with (bs - (nx + 1)) by lia.
    rewrite upd_split by lia. rewrite Ex.
    replace (nx + 1) with (length (rest bs m ++ [marker])) by (rewrite app_length; simpl; lia).
    rewrite firstn_app. rewrite app_length. simpl length.
    replace (firstn (length (rest bs m) + 1) (rest bs m)) with (rest bs m)
      by (symmetry; apply firstn_all2; lia).
    replace (length (rest bs m) + 1 - length (rest bs m)) with 1 by lia.
    cbn [firstn]. rewrite <- app_assoc. reflexivity. }
  rewrite E2. destruct (Nat.ltb_spec (bs - length lenb) (nx + 1)) as [Hlt|Hge].
  - set (k := 2 * bs - (nx + 1 + length lenb)).
    replace (rest bs m ++ marker :: zeros k ++ lenb)
      with ((rest bs m ++ marker :: zeros (bs - (nx + 1))) ++ (zeros (bs - length lenb) ++ lenb)).
    + rewrite chunks_app by lia.
      assert (L1 : length (rest bs m ++ marker :: zeros (bs - (nx + 1))) = bs).
      { rewrite app_length. cbn [length]. rewrite zeros_length. lia. }
      rewrite (chunks_one _ bs _ Hb L1), (rest_one _ bs _ Hb L1). simpl app.
      rewrite chunks_one by (try rewrite app_length, zeros_length; lia).
      f_equal. f_equal.
      rewrite copy_at_full by (rewrite zeros_length; lia).
      rewrite zeros_length, firstn_zeros, firstn_all2 by lia. f_equal. f_equal. lia.
    + rewrite <- app_assoc. f_equal. cbn [app]. f_equal. rewrite app_assoc, zeros_app.
      f_equal. f_equal. unfold k. lia.
  - rewrite chunks_one.
    + f_equal. rewrite copy_at_full by (rewrite app_length; cbn [length]; rewrite zeros_length; lia).
      rewrite app_length. cbn [length]. rewrite zeros_length.
      replace (length (rest bs m) + S (bs - (nx + 1))) with bs by lia.
      rewrite (firstn_all2 lenb) by lia.
      rewrite firstn_app. rewrite (firstn_all2 (rest bs m)) by lia.
      replace (bs - length lenb - length (rest bs m)) with (S (bs - (nx + 1 + length lenb))) by lia.
      cbn [firstn]. rewrite firstn_zeros, <- app_assoc. f_equal. cbn [app]. f_equal. f_equal. f_equal. lia.
    + lia.
    + rewrite app_length. cbn [length]. rewrite app_length, zeros_length. lia.
Qed.

(** Distinct messages have distinct paddings (so the padding adds no collisions). *)
Lemma md_pad_inj : forall bs marker (lb : list N -> list N) k m1 m2,
  0 < bs -> (forall m, length (lb m) = k) ->
  (lb m1 = lb m2 -> length m1 = length m2) ->
  md_pad bs marker (lb m1) m1 = md_pad bs marker (lb m2) m2 -> m1 = m2.
Proof.
  intros bs marker lb k m1 m2 Hb Hk Hinj E. unfold md_pad in E.
  assert (El : lb m1 = lb m2).
  { assert (G : forall a (b : list N), length b = k -> skipn (length (a ++ b) - k) (a ++ b) = b).
    { intros a b Lb. rewrite app_length, Lb. replace (length a + k - k) with (length a) by lia.
      rewrite skipn_app, skipn_all, Nat.sub_diag. reflexivity. }
    set (a1 := m1 ++ marker :: zeros ((bs - (length m1 + 1 + length (lb m1)) mod bs) mod bs)).
    set (a2 := m2 ++ marker :: zeros ((bs - (length m2 + 1 + length (lb m2)) mod bs) mod bs)).
    assert (E' : a1 ++ lb m1 = a2 ++ lb m2).
    { unfold a1, a2. rewrite <- !app_assoc. exact E. }
    rewrite <- (G a1 (lb m1)) by auto. rewrite <- (G a2 (lb m2)) by auto.
    now rewrite E'. }
  apply Hinj in El.
  apply (f_equal (firstn (length m1))) in E.
  rewrite firstn_app, firstn_all, Nat.sub_diag, app_nil_r in E.
  rewrite El in E at 1. rewrite firstn_app, firstn_all, Nat.sub_diag, app_nil_r in E. exact E.
Qed.

(** ** Small facts used by the packages *)

Lemma rest_nil_nx : forall bs xl x nx m, rest bs m = [] -> buf_ok bs xl x nx m -> nx = 0.
Proof. intros bs xl x nx m E (_ & -> & _). now rewrite E. Qed.

Lemma rest_0 : forall A bs (m : list A), 0 < bs -> length m mod bs = 0 -> rest bs m = [].
Proof.
  intros. pose proof (rest_length A bs m). destruct (rest bs m); auto. simpl in *. lia.
Qed.

Lemma firstn_app_len : forall A n (a b : list A), length a = n -> firstn n (a ++ b) = a.
Proof. intros. subst. rewrite firstn_app, firstn_all, Nat.sub_diag. simpl. apply app_nil_r. Qed.

Lemma skipn_app_len : forall A n (a b : list A), length a = n -> skipn n (a ++ b) = b.
Proof. intros. subst. rewrite skipn_app, skipn_all, Nat.sub_diag. reflexivity. Qed.

Lemma copy_at_0_app : forall A (dst a b : list A), length dst = length a ->
  copy_at dst 0 (a ++ b) = a.
Proof.
  intros. rewrite copy_at_full by (rewrite ?app_length; lia). simpl. rewrite Nat.sub_0_r.
  now apply firstn_app_len.
Qed.

Lemma w64_mod16 : forall n, (w64 n mod 16)%N = (n mod 16)%N.
Proof.
  intros. rewrite w64_mod. change 18446744073709551616%N with (16 * 1152921504606846976)%N.
  rewrite N.mod_mul_r by discriminate. rewrite (N.mul_comm 16), N.mod_add by discriminate.
  apply N.mod_mod. discriminate.
Qed.
