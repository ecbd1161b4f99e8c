(** LyraP.v -- the model of Lyra2 (Lyra.v) against its specification (SpecLyra.v): the permutation, rows and blocks. *)
From Coq Require Import List NArith ZArith Arith Bool Lia.
Require Import Verif.Base Verif.Words Verif.SpecLyra Verif.Lyra.
Import ListNotations.

(** ** The permutation *)
Lemma lrot32 : forall w, lm_rotr w 32 = rotr64 w 32. Proof. intro. apply N.lor_comm. Qed.
Lemma lrot24 : forall w, lm_rotr w 24 = rotr64 w 24. Proof. intro. apply N.lor_comm. Qed.
Lemma lrot16 : forall w, lm_rotr w 16 = rotr64 w 16. Proof. intro. apply N.lor_comm. Qed.
Lemma lrot63 : forall w, lm_rotr w 63 = rotr64 w 63. Proof. intro. apply N.lor_comm. Qed.
Lemma g_ok : forall v q, lm_g v q = ly_G v q.
Proof. intros v [[[a b] c] d]. unfold lm_g, ly_G. rewrite !lrot32, !lrot24, !lrot16, !lrot63. reflexivity. Qed.
Lemma round_ok : forall v, lm_round v = ly_round v.
Proof.
  intro v. unfold lm_round, ly_round. cbv zeta. rewrite <- fold_left_app.
  change (map (fun i => (i, 4 + i, 8 + i, 12 + i)) (seq 0 4) ++ map (fun i => (i, 4 + (i + 1) mod 4, 8 + (i + 2) mod 4, 12 + (i + 3) mod 4)) (seq 0 4))
    with [(0, 4, 8, 12); (1, 5, 9, 13); (2, 6, 10, 14); (3, 7, 11, 15); (0, 5, 10, 15); (1, 6, 11, 12); (2, 7, 8, 13); (3, 4, 9, 14)].
  generalize [(0, 4, 8, 12); (1, 5, 9, 13); (2, 6, 10, 14); (3, 7, 11, 15); (0, 5, 10, 15); (1, 6, 11, 12); (2, 7, 8, 13); (3, 4, 9, 14)].
  intro L. revert v. induction L as [|q L IH]; intro v; [reflexivity|]. cbn [fold_left]. rewrite g_ok. apply IH.
Qed.
Lemma g_length : forall v q, length (ly_G v q) = length v.
Proof. intros v [[[a b] c] d]. unfold ly_G. cbv zeta. now rewrite !upd_length. Qed.
Lemma gs_length : forall L v, length (fold_left ly_G L v) = length v.
Proof. induction L as [|q L IH]; intro v; [reflexivity|]. cbn [fold_left]. now rewrite IH, g_length. Qed.
Lemma round_length : forall v, length (ly_round v) = length v.
Proof. intro v. unfold ly_round. cbv zeta. now rewrite !gs_length. Qed.
Lemma full_ok : forall v, lm_full v = ly_full v.
Proof.
  intro v. unfold lm_full, ly_full. generalize 12. intro n.
  assert (H : forall a v, fold_left (fun v (_ : nat) => lm_round v) (seq a n) v = Nat.iter n ly_round v).
  { induction n as [|n IH]; intros a w; [reflexivity|]. rewrite seq_S, fold_left_app. change (Nat.iter (S n) ly_round w) with (ly_round (Nat.iter n ly_round w)).
    rewrite IH. cbn [fold_left]. apply round_ok. }
  apply H.
Qed.
Lemma iter_length : forall n v, length (Nat.iter n ly_round v) = length v.
Proof. induction n as [|n IH]; intro v; [reflexivity|]. change (Nat.iter (S n) ly_round v) with (ly_round (Nat.iter n ly_round v)). now rewrite round_length. Qed.
Lemma full_length : forall v, length (ly_full v) = length v.
Proof. intro v. apply iter_length. Qed.
Global Opaque ly_round ly_full.

(** ** Blocks of the matrix *)
Lemma at_upd : forall l i v k, i < length l -> at_ (upd l i v) k = if k =? i then v else at_ l k.
Proof. intros l i v k H. unfold at_. destruct (Nat.eqb_spec k i) as [->|E]; [now apply nth_upd_same|apply nth_upd_other; lia]. Qed.
Definition blk (mem : list N) (i : nat) : list N := map (fun j => at_ mem (12 * i + j)) (seq 0 12).
Lemma blk_ext : forall m m' i, (forall j, j < 12 -> at_ m (12 * i + j) = at_ m' (12 * i + j)) -> blk m i = blk m' i.
Proof. intros m m' i H. apply map_ext_in. intros j Hj. apply in_seq in Hj. apply H. lia. Qed.
Lemma fill_at : forall f o n mem k, 12 * o + k <= length mem -> k <= 12 ->
  let m := fold_left (fun mem j => upd mem (12 * o + j) (f j (at_ mem (12 * n + j)))) (seq 0 k) mem in
  length m = length mem /\ forall x, at_ m x = if (12 * o <=? x) && (x <? 12 * o + k) then f (x - 12 * o) (at_ mem (12 * n + (x - 12 * o))) else at_ mem x.
Proof.
  intros f o n mem. induction k as [|k IH]; intros H K; cbv zeta.
  - split; [reflexivity|]. intro x. destruct (Nat.leb_spec (12 * o) x), (Nat.ltb_spec x (12 * o + 0)); cbn [andb]; try reflexivity; lia.
  - rewrite seq_S, fold_left_app. cbn [fold_left Nat.add]. destruct (IH ltac:(lia) ltac:(lia)) as [L E]. cbv zeta in L, E.
    set (m := fold_left _ (seq 0 k) mem) in *. clearbody m. split; [now rewrite upd_length|]. intro x. rewrite at_upd by lia.
    destruct (Nat.eqb_spec x (12 * o + k)) as [->|Ne].
    + replace (12 * o <=? 12 * o + k) with true by (symmetry; apply Nat.leb_le; lia). replace (12 * o + k <? 12 * o + S k) with true by (symmetry; apply Nat.ltb_lt; lia). cbn [andb].
      replace (12 * o + k - 12 * o) with k by lia. f_equal. rewrite E. destruct (Nat.leb_spec (12 * o) (12 * n + k)), (Nat.ltb_spec (12 * n + k) (12 * o + k)); cbn [andb]; try reflexivity; lia.
    + rewrite E. destruct (Nat.leb_spec (12 * o) x), (Nat.ltb_spec x (12 * o + k)), (Nat.ltb_spec x (12 * o + S k)); cbn [andb]; try reflexivity; lia.
Qed.
Lemma fill_length : forall f o n mem, 12 * o + 12 <= length mem -> length (lm_fill mem (12 * o) (12 * n) f) = length mem.
Proof. intros f o n mem H. exact (proj1 (fill_at f o n mem 12 H ltac:(lia))). Qed.
Lemma fill_blk : forall f o n mem i, 12 * o + 12 <= length mem -> blk (lm_fill mem (12 * o) (12 * n) f) i = if i =? o then map (fun j => f j (at_ mem (12 * n + j))) (seq 0 12) else blk mem i.
Proof.
  intros f o n mem i H. destruct (fill_at f o n mem 12 H ltac:(lia)) as [_ E]. cbv zeta in E. unfold lm_fill.
  destruct (Nat.eqb_spec i o) as [->|Ne].
  - apply map_ext_in. intros j Hj. apply in_seq in Hj. rewrite E. destruct (Nat.leb_spec (12 * o) (12 * o + j)), (Nat.ltb_spec (12 * o + j) (12 * o + 12)); cbn [andb]; try lia.
    replace (12 * o + j - 12 * o) with j by lia. reflexivity.
  - apply blk_ext. intros j Hj. rewrite E. destruct (Nat.leb_spec (12 * o) (12 * i + j)), (Nat.ltb_spec (12 * i + j) (12 * o + 12)); cbn [andb]; try reflexivity; lia.
Qed.
(** the word-level operations *)
Lemma xin_ok : forall n f st, n <= length st -> lm_xin n f st = ly_inject st (map f (seq 0 n)).
Proof.
  intros n f st H. unfold ly_inject. rewrite map_length, seq_length. unfold lm_xin.
  assert (G : forall k, k <= length st -> fold_left (fun st i => upd st i (N.lxor (at_ st i) (f i))) (seq 0 k) st = map (fun p => N.lxor (fst p) (snd p)) (combine (firstn k st) (map f (seq 0 k))) ++ skipn k st).
  { induction k as [|k IH]; intro K; [reflexivity|]. rewrite seq_S, fold_left_app, IH by lia. cbn [fold_left Nat.add].
    set (pre := map _ (combine (firstn k st) (map f (seq 0 k)))).
    assert (Lp : length pre = k) by (unfold pre; rewrite map_length, combine_length, firstn_length, map_length, seq_length; lia).
    assert (Es : skipn k st = at_ st k :: skipn (S k) st).
    { clear - K. revert k K. induction st as [|a st IH]; intros [|k] K; cbn [length] in K; try lia; [reflexivity|]. cbn [skipn]. rewrite (IH k) by lia. reflexivity. }
    assert (Ef : firstn (S k) st = firstn k st ++ [at_ st k]).
    { clear - K. revert k K. induction st as [|a st IH]; intros [|k] K; cbn [length] in K; try lia; [reflexivity|]. change (a :: firstn (S k) st = a :: (firstn k st ++ [at_ st k])). rewrite (IH k) by lia. reflexivity. }
    rewrite Es, Ef, map_app. cbn [map].
    assert (Ec : forall (a b : list N) x y, length a = length b -> combine (a ++ [x]) (b ++ [y]) = combine a b ++ [(x, y)]).
    { induction a as [|a0 a IHa]; intros [|b0 b] x y Q; cbn [length] in Q; try discriminate; [reflexivity|]. cbn [app combine]. rewrite IHa by lia. reflexivity. }
    rewrite Ec by (rewrite firstn_length, map_length, seq_length; lia). rewrite map_app. cbn [map fst snd]. fold pre. rewrite <- app_assoc. cbn [app].
    assert (Ea : at_ (pre ++ at_ st k :: skipn (S k) st) k = at_ st k) by (unfold at_; rewrite app_nth2 by lia; rewrite Lp, Nat.sub_diag; reflexivity).
    rewrite Ea. clearbody pre. clear - Lp. generalize (at_ st k), (skipn (S k) st), (N.lxor (at_ st k) (f k)). intros x0 tl0 y0. revert k Lp. induction pre as [|p pre IH]; intros k Lp; cbn [length] in Lp; subst k; [reflexivity|]. cbn [app upd]. f_equal. now apply IH. }
  apply G, H.
Qed.
Lemma inject_length : forall st b, length b <= length st -> length (ly_inject st b) = length st.
Proof. intros st b H. unfold ly_inject. rewrite app_length, map_length, combine_length, firstn_length, skipn_length. lia. Qed.
Lemma plus_ok : forall mem a b, ly_plus (blk mem a) (blk mem b) = map (fun j => add64 (at_ mem (12 * a + j)) (at_ mem (12 * b + j))) (seq 0 12).
Proof. intros. unfold blk. cbn [seq map combine fst snd]. reflexivity. Qed.
Lemma xor_ok : forall mem a (g : nat -> N), ly_xor (blk mem a) (map g (seq 0 12)) = map (fun j => N.lxor (at_ mem (12 * a + j)) (g j)) (seq 0 12).
Proof. intros. reflexivity. Qed.
Lemma list16' : forall (l : list N), length l = 16 -> exists a b c d e f g h i j k m n o p q, l = [a;b;c;d;e;f;g;h;i;j;k;m;n;o;p;q].
Proof. intros l H. do 16 (destruct l as [|? l]; [discriminate H|]). destruct l; [|discriminate H]. now do 16 eexists. Qed.
Lemma rate_ok : forall st, length st = 16 -> ly_rate st = map (fun j => at_ st j) (seq 0 12).
Proof. intros st H. destruct (list16' st H) as (a&b&c&d&e&f&g&h&i&j&k&m&n&o&p&q&->). reflexivity. Qed.
Lemma rotw_ok : forall st, length st = 16 -> ly_rotw (ly_rate st) = map (fun j => at_ (lm_newState st) j) (seq 0 12).
Proof. intros st H. destruct (list16' st H) as (a&b&c&d&e&f&g&h&i&j&k&m&n&o&p&q&->). reflexivity. Qed.

(** ** The matrix as a list of blocks, on the blocks P that have been written *)
Section Rel.
Variable R C : nat.
Definition rel (P : nat -> Prop) (s : list N * list N) (t : list N * list (list N)) : Prop :=
  fst s = fst t /\ length (fst t) = 16 /\ length (snd s) = 12 * (R * C) /\ length (snd t) = R * C /\ forall i, i < R * C -> P i -> nth i (snd t) [] = blk (snd s) i.
Lemma rel_sub : forall (P Q : nat -> Prop) s t, (forall i, i < R * C -> Q i -> P i) -> rel P s t -> rel Q s t.
Proof. intros P Q s t H (A & B & D & E & F). repeat split; auto. Qed.
Lemma idx_lt : forall row col, row < R -> col < C -> row * C + col < R * C.
Proof. intros. nia. Qed.
Lemma off : forall row col, row * (12 * C) + col * 12 = 12 * (row * C + col).
Proof. intros. nia. Qed.

(** one written block *)
Lemma rel_set : forall (P : nat -> Prop) st st' mem M o n f b, length st' = 16 -> o < R * C -> b = map (fun j => f j (at_ mem (12 * n + j))) (seq 0 12) ->
  rel P (st, mem) (st, M) -> rel (fun i => P i \/ i = o) (st', lm_fill mem (12 * o) (12 * n) f) (st', upd M o b).
Proof.
  intros P st st' mem M o n f b L Ho Hb (A & B & D & E & F). cbn [fst snd] in *. unfold rel. cbn [fst snd]. repeat split; auto.
  - rewrite fill_length by nia. exact D.
  - now rewrite upd_length.
  - intros i Hi Q. rewrite fill_blk by nia. destruct (Nat.eqb_spec i o) as [->|Ne].
    + rewrite nth_upd_same by lia. exact Hb.
    + rewrite nth_upd_other by lia. apply F; [exact Hi|]. destruct Q as [Q|Q]; [exact Q|lia].
Qed.

Definition done (r col i : nat) : Prop := i < r * C \/ ((r + 1) * C - col <= i /\ i < (r + 1) * C).
Lemma fold_rel : forall (Q : nat -> nat -> Prop) (f : list N * list N -> nat -> list N * list N) (g : list N * list (list N) -> nat -> list N * list (list N)) s t k,
  rel (Q 0) s t -> (forall j s t, j < k -> rel (Q j) s t -> rel (Q (S j)) (f s j) (g t j)) -> rel (Q k) (fold_left f (seq 0 k) s) (fold_left g (seq 0 k) t).
Proof.
  intros Q f g s t k H0 Hs. induction k as [|k IH]; [exact H0|]. rewrite !seq_S, !fold_left_app. cbn [fold_left Nat.add]. apply Hs; [lia|]. apply IH. intros j u v Hj. apply Hs. lia.
Qed.
Lemma row0_rel : forall s t, 0 < R -> rel (done 0 0) s t -> rel (done 0 C) (lm_row0 0 C s) (ly_row0 C (fst t) (snd t)).
Proof.
  intros s t HR H. unfold lm_row0, ly_row0. replace (fst t, snd t) with t by (now destruct t).
  apply (fold_rel (done 0)); [exact H|]. clear s t H. intros j [st mem] [st' M] Hj H. pose proof H as (A & B & _). cbn [fst snd] in *. subst st'. cbv zeta.
  rewrite round_ok. rewrite (Nat.add_0_l ((C - 1 - j) * 12)), (Nat.mul_comm (C - 1 - j)). unfold ly_set. rewrite Nat.mul_0_l, Nat.add_0_l.
  eapply rel_sub; [|eapply (rel_set _ st); [now rewrite round_length| |now apply rate_ok|exact H]].
  - intros i Hi Q. unfold done in *. lia.
  - nia.
Qed.
Lemma row1_rel : forall s t, 1 < R -> rel (done 1 0) s t -> rel (done 1 C) (lm_row1 0 (12 * C) C s) (ly_row1 C (fst t) (snd t)).
Proof.
  intros s t HR H. unfold lm_row1, ly_row1. replace (fst t, snd t) with t by (now destruct t).
  apply (fold_rel (done 1)); [exact H|]. clear s t H. intros j [st mem] [st' M] Hj H. pose proof H as (A & B & D & E & F). cbn [fst snd] in *. subst st'. cbv zeta.
  unfold ly_set, ly_get. rewrite (Nat.mul_0_l C), (Nat.add_0_l j), (Nat.mul_1_l C), (Nat.add_0_l (j * 12)), (Nat.mul_comm j).
  replace (12 * C + (C - 1 - j) * 12) with (12 * (C + (C - 1 - j))) by lia.
  rewrite (F j) by (try nia; left; lia). rewrite round_ok, xin_ok by lia. unfold blk at 1 3.
  set (st1 := ly_round _). assert (L1 : length st1 = 16) by (unfold st1; rewrite round_length, inject_length; [exact B|rewrite map_length, seq_length; lia]). clearbody st1.
  eapply rel_sub; [|eapply (rel_set _ st); [exact L1| | |exact H]].
  - intros i Hi Q. unfold done in *. lia.
  - nia.
  - rewrite rate_ok by exact L1. apply xor_ok.
Qed.
(** two blocks written: M[o] = f(M[n]) then M[q] ^= g *)
Lemma setup_rel : forall prev rowa row s t, prev < row -> rowa < row -> row < R -> rel (done row 0) s t ->
  rel (done row C) (lm_setupRow (prev * (12 * C)) (rowa * (12 * C)) (row * (12 * C)) C s) (ly_setup_row C prev rowa row t).
Proof.
  intros prev rowa row s t Hp Ha Hr H. unfold lm_setupRow, ly_setup_row.
  apply (fold_rel (done row)); [exact H|]. clear s t H. intros j [st mem] [st' M] Hj H. pose proof H as (A & B & D & E & F). cbn [fst snd] in *. subst st'. cbv zeta.
  unfold ly_set, ly_get. rewrite !off. pose proof (idx_lt prev j ltac:(lia) Hj) as I1. pose proof (idx_lt rowa j ltac:(lia) Hj) as I2. pose proof (idx_lt row (C - 1 - j) Hr ltac:(lia)) as I3.
  assert (K1 : prev * C + j < row * C) by nia. assert (K2 : rowa * C + j < row * C) by nia.
  set (ip := prev * C + j) in *. set (ia := rowa * C + j) in *.
  rewrite (F ip) by (try nia; left; lia). rewrite (F ia) by (try nia; left; lia). rewrite round_ok, xin_ok by lia. rewrite plus_ok.
  set (st1 := ly_round _). assert (L1 : length st1 = 16) by (unfold st1; rewrite round_length, inject_length; [exact B|rewrite map_length, seq_length; lia]). clearbody st1.
  set (io := row * C + (C - 1 - j)) in *.
  assert (H1 : rel (fun i => done row j i \/ i = io) (st1, lm_fill mem (12 * io) (12 * ip) (fun j x => N.lxor x (at_ st1 j))) (st1, upd M io (ly_xor (blk mem ip) (ly_rate st1)))).
  { eapply (rel_set _ st); [exact L1|exact I3| |exact H]. rewrite rate_ok by exact L1. apply xor_ok. }
  set (mem1 := lm_fill mem _ _ _) in *. set (M1 := upd M io _) in *. clearbody mem1 M1.
  pose proof H1 as (_ & _ & _ & _ & F1). cbn [fst snd] in F1. rewrite (F1 ia) by (try nia; left; left; lia).
  eapply rel_sub; [|eapply (rel_set _ st1); [exact L1| | |exact H1]].
  - intros i Hi Q. unfold done in *. unfold io, ia. lia.
  - exact I2.
  - rewrite rotw_ok by exact L1. apply xor_ok.
Qed.
Definition full (i : nat) : Prop := True.
Lemma wander_rel : forall prev rowa row s t, prev < R -> rowa < R -> row < R -> rel full s t ->
  rel full (lm_duplexRow (prev * (12 * C)) (rowa * (12 * C)) (row * (12 * C)) C s) (ly_wander_row C prev rowa row t).
Proof.
  intros prev rowa row s t Hp Ha Hr H. unfold lm_duplexRow, ly_wander_row.
  apply (fold_rel (fun _ => full)); [exact H|]. clear s t H. intros j [st mem] [st' M] Hj H. pose proof H as (A & B & D & E & F). cbn [fst snd] in *. subst st'. cbv zeta.
  unfold ly_set, ly_get. rewrite !off. pose proof (idx_lt prev j Hp Hj) as I1. pose proof (idx_lt rowa j Ha Hj) as I2. pose proof (idx_lt row j Hr Hj) as I3.
  set (ip := prev * C + j) in *. set (ia := rowa * C + j) in *. set (io := row * C + j) in *.
  rewrite (F ip), (F ia), (F io) by (assumption || exact I). rewrite round_ok, xin_ok by lia. rewrite plus_ok.
  set (st1 := ly_round _). assert (L1 : length st1 = 16) by (unfold st1; rewrite round_length, inject_length; [exact B|rewrite map_length, seq_length; lia]). clearbody st1.
  assert (H1 : rel (fun i => full i \/ i = io) (st1, lm_fill mem (12 * io) (12 * io) (fun j x => N.lxor x (at_ st1 j))) (st1, upd M io (ly_xor (blk mem io) (ly_rate st1)))).
  { eapply (rel_set _ st); [exact L1|exact I3| |exact H]. rewrite rate_ok by exact L1. apply xor_ok. }
  set (mem1 := lm_fill mem _ _ _) in *. set (M1 := upd M io _) in *. clearbody mem1 M1.
  pose proof H1 as (_ & _ & _ & _ & F1). cbn [fst snd] in F1. rewrite (F1 ia) by (try assumption; left; exact I).
  eapply rel_sub; [|eapply (rel_set _ st1); [exact L1| | |exact H1]].
  - intros i Hi Q. left. left. exact I.
  - exact I2.
  - rewrite rotw_ok by exact L1. apply xor_ok.
Qed.
End Rel.
