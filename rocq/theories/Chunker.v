(** Chunker.v -- model of /repo/rabin/chunker.go over a model of io.Reader, and the proof that the
    chunks are those of SpecChunker. *)
From Coq Require Import List NArith Arith Lia Bool.
From Verif Require Import Base Words HashAPI Buf SpecGf2 Gf2 Cmac Rabin SpecChunker.
Import ListNotations.

(** An io.Reader: the bytes it has left, the sizes it chooses for the coming Reads (any size
    between 1 and the space offered; the list may be short: then it fills the space), whether it
    implements Discarder, whether it returns its final error together with the last bytes, and the
    final error. *)
Record reader := mkreader { rd_rest : list N; rd_sched : list nat; rd_disc : bool; rd_with : bool; rd_term : rerr }.
(** Read into a buffer of [k] > 0 bytes. *)
Definition rd_read (rd : reader) (k : nat) : list N * option rerr * reader :=
  match rd_rest rd with
  | [] => ([], Some (rd_term rd), rd)
  | _ =>
    let want := match rd_sched rd with [] => k | s :: _ => s end in
    let n := Nat.max 1 (Nat.min want (Nat.min k (length (rd_rest rd)))) in
    let rest' := skipn n (rd_rest rd) in
    (firstn n (rd_rest rd), if rd_with rd && (length rest' =? 0) then Some (rd_term rd) else None,
     mkreader rest' (tl (rd_sched rd)) (rd_disc rd) (rd_with rd) (rd_term rd))
  end.
(** Discard(n) (chunker.go:14-22). *)
Definition rd_discard (rd : reader) (n : nat) : nat * option rerr * reader :=
  let m := Nat.min n (length (rd_rest rd)) in
  (m, if m <? n then Some (rd_term rd) else None,
   mkreader (skipn m (rd_rest rd)) (rd_sched rd) (rd_disc rd) (rd_with rd) (rd_term rd)).

(** chunker.go:28-50.  Positions are unbounded naturals (streams shorter than 2^64 bytes). *)
Record chunker := mkck { ck_rd : reader; ck_buf : list N; ck_head : nat; ck_tail : nat; ck_err : option rerr }.
Definition set_head (c : chunker) h := mkck (ck_rd c) (ck_buf c) h (ck_tail c) (ck_err c).

(** chunker.go:85-91: smallest k >= 10 with 2^k >= 2*window. *)
Fixpoint log_buf (fuel k w : nat) : nat :=
  match fuel with O => k | S f => if 2 ^ k <? w * 2 then log_buf f (S k) w else k end.
Definition buf_size (w : nat) : nat := 2 ^ log_buf (w * 2) 10 w.
(** chunker.go:71-99 NewChunker; None = panic.  [avg land (avg-1)] on non-negative [avg]. *)
Definition new_chunker (t : rtable) (rd : reader) (minB maxB : nat) (avg : N) : option chunker :=
  if rwindow t =? 0 then None
  else if minB <? rwindow t then None
  else if maxB <? minB then None
  else if negb (N.land avg (avg - 1) =? 0)%N then None
  else Some (mkck rd (zeros (buf_size (rwindow t))) 0 0 None).
(** chunker.go:97: uint64(avgBytes - 1) *)
Definition hash_mask (avg : N) : N := w64 (avg + 18446744073709551615).

(** chunker.go:242-270 more.  len(buf) is a power of two, so x & bufMask = x mod len(buf). *)
Definition ck_more (c : chunker) : chunker * option rerr :=
  match ck_err c with
  | Some e => (c, Some e)
  | None =>
    let B := length (ck_buf c) in
    let wtail := ck_tail c mod B in
    let whead := ck_head c mod B in
    let lim := if whead <=? wtail then B - wtail else whead - wtail in
    let '(data, err, rd) := rd_read (ck_rd c) lim in
    if 0 <? length data then
      (mkck rd (copy_at (ck_buf c) wtail data) (ck_head c) (ck_tail c + length data) err, None)
    else
      let e := match err with Some e => e | None => ZeroRead end in
      (mkck rd (ck_buf c) (ck_head c) (ck_tail c) (Some e), Some e)
  end.
(** chunker.go:221-236: the read loop of discard ([fuel] >= n suffices, every Read returns a byte). *)
Fixpoint discard_loop (fuel n : nat) (c : chunker) : chunker * option rerr :=
  match fuel with
  | O => (c, None)
  | S f =>
    if n =? 0 then (c, None)
    else
      let '(data, err, rd) := rd_read (ck_rd c) (Nat.min (length (ck_buf c)) n) in
      let c := mkck rd (copy_at (ck_buf c) 0 data) (ck_head c) (ck_tail c + length data) (ck_err c) in
      match err with
      | Some e => (mkck (ck_rd c) (ck_buf c) (ck_head c) (ck_tail c) (Some e), Some e)
      | None => discard_loop f (n - length data) c
      end
  end.
(** chunker.go:206-238 discard *)
Definition ck_discard (c : chunker) (n : nat) : chunker * option rerr :=
  match ck_err c with
  | Some e => (c, Some e)
  | None =>
    if rd_disc (ck_rd c) then
      let '(m, err, rd) := rd_discard (ck_rd c) n in
      (mkck rd (ck_buf c) (ck_head c) (ck_tail c + m) err, err)
    else discard_loop n n c
  end.
(** chunker.go:147-155: for c.tail < c.head+window { more } *)
Fixpoint prime_loop (fuel w : nat) (c : chunker) : chunker * option rerr :=
  match fuel with
  | O => (c, None)
  | S f =>
    if ck_tail c <? ck_head c + w then
      match ck_more c with
      | (c, None) => prime_loop f w c
      | (c, Some e) => (c, Some e)
      end
    else (c, None)
  end.
(** chunker.go:156-162: the window as up to two slices of the ring buffer, and its hash. *)
Definition ck_window_hash (t : rtable) (c : chunker) : N :=
  let w := rwindow t in
  let b1 := skipn (ck_head c mod length (ck_buf c)) (ck_buf c) in
  if w <=? length b1 then rabin_update t (rabin_update t 0 (firstn w b1)) []
  else rabin_update t (rabin_update t 0 b1) (firstn (w - length b1) (ck_buf c)).
(** chunker.go:173-194: the rolling loop; returns the head position, or the reader's error when
    that is not io.EOF. *)
Fixpoint roll_loop (fuel : nat) (t : rtable) (mask : N) (limit : nat)
    (hash : N) (head refill : nat) (c : chunker) : chunker * (nat + rerr) :=
  match fuel with
  | O => (c, inl head)
  | S f =>
    if negb (N.land hash mask =? mask)%N && (head <? limit) then
      let step (c : chunker) (refill : nat) :=
        let pop := at_ (ck_buf c) (head mod length (ck_buf c)) in
        let push := at_ (ck_buf c) ((head + rwindow t) mod length (ck_buf c)) in
        let hash := N.lxor hash (at_ (rpop t) (N.to_nat pop)) in
        roll_loop f t mask limit (rabin_push t hash push) (S head) refill c in
      if head =? refill then
        match ck_more (set_head c head) with
        | (c, None) => step c (ck_tail c - rwindow t)
        | (c, Some EOF) => (c, inl head)
        | (c, Some e) => (c, inr e)
        end
      else step c refill
    else (c, inl head)
  end.
(** chunker.go:118-202 Next *)
Definition ck_next (t : rtable) (minB maxB : nat) (mask : N) (c : chunker) : chunker * (nat * option rerr) :=
  match ck_err c with
  | Some e => (c, (0, Some e))
  | None =>
    let start := ck_head c in
    let w := rwindow t in
    let c := set_head c (start + (minB - w)) in
    let '(c, err) := if ck_tail c <? ck_head c then ck_discard c (ck_head c - ck_tail c) else (c, None) in
    match err with
    | Some EOF => (c, (ck_tail c - start, None))
    | Some e => (c, (0, Some e))
    | None =>
      let '(c, err) := prime_loop (S w) w c in
      match err with
      | Some e => match e with
                  | EOF => if negb (ck_tail c =? start) then (c, (ck_tail c - start, None)) else (c, (0, Some e))
                  | _ => (c, (0, Some e))
                  end
      | None =>
        let hash := ck_window_hash t c in
        let limit := start + maxB - w in
        let '(c, res) := roll_loop (S (limit - ck_head c)) t mask limit hash (ck_head c) (ck_tail c - w) c in
        match res with
        | inr e => (c, (0, Some e))
        | inl head => (set_head c (head + w), (head + w - start, None))
        end
      end
    end
  end.
Fixpoint ck_run (t : rtable) (minB maxB : nat) (mask : N) (n : nat) (c : chunker) : list (nat * option rerr) :=
  match n with
  | O => []
  | S n' => let '(c', r) := ck_next t minB maxB mask c in r :: ck_run t minB maxB mask n' c'
  end.

(** * Proofs *)
Lemma nth_skipn : forall (l : list N) a i, at_ (skipn a l) i = at_ l (a + i).
Proof. intros l a. revert l. induction a; intros l i; auto. destruct l; simpl; [now destruct i|]. apply IHa. Qed.
Lemma at_firstn_lt : forall (l : list N) k i, i < k -> at_ (firstn k l) i = at_ l i.
Proof.
  intros l k. revert l. induction k; intros l i H; [lia|]. destruct l; simpl; auto.
  destruct i; auto. change (at_ (firstn k l) i = at_ l i). apply IHk. lia.
Qed.
Lemma at_ext : forall a b, length a = length b -> (forall i, i < length a -> at_ a i = at_ b i) -> a = b.
Proof. intros a b L E. apply nth_ext with (d := 0%N) (d' := 0%N); auto. Qed.
Lemma at_copy_at : forall (l d : list N) off j, off + length d <= length l ->
  at_ (copy_at l off d) j = if (off <=? j) && (j <? off + length d) then at_ d (j - off) else at_ l j.
Proof.
  intros l d off j H. rewrite <- (firstn_skipn off l) at 1.
  assert (E : copy_at l off d = firstn off l ++ d ++ skipn (off + length d) l).
  { unfold copy_at. rewrite (firstn_all2 d) by lia. f_equal. f_equal. f_equal. lia. }
  rewrite firstn_skipn, E. unfold at_.
  destruct (Nat.leb_spec off j); simpl.
  - rewrite app_nth2 by (rewrite firstn_length; lia). rewrite firstn_length, Nat.min_l by lia.
    destruct (Nat.ltb_spec j (off + length d)).
    + rewrite app_nth1 by lia. reflexivity.
    + rewrite app_nth2 by lia. pose proof (nth_skipn l (off + length d) (j - off - length d)) as X.
      unfold at_ in X. rewrite X. f_equal. lia.
  - rewrite app_nth1 by (rewrite firstn_length; lia). apply (at_firstn_lt l off j). lia.
Qed.

Lemma skipn_cons_at : forall (l : list N) h, h < length l -> skipn h l = at_ l h :: skipn (S h) l.
Proof.
  intros l h. revert l. induction h; intros l H; destruct l; simpl in H; try lia; auto.
  cbn [skipn]. rewrite IHh by lia. reflexivity.
Qed.
Lemma buf_size_ok : forall w, 2 * w <= buf_size w /\ 0 < buf_size w.
Proof.
  intros w. unfold buf_size. split; [|apply Nat.neq_0_lt_0, Nat.pow_nonzero; discriminate].
  assert (G : forall fuel k, w * 2 <= k + fuel -> 2 * w <= 2 ^ log_buf fuel k w).
  { induction fuel; intros k H; simpl.
    - pose proof (Nat.pow_gt_lin_r 2 k). lia.
    - destruct (Nat.ltb_spec (2 ^ k) (w * 2)); [apply IHfuel; lia|lia]. }
  apply G. lia.
Qed.

Section P.
Variables (p : N) (w : nat) (t : rtable) (minB maxB : nat) (mask : N).
Hypothesis Ht : rabin_table p w = Some t.
Hypothesis Hp64 : (p < 2 ^ 64)%N.
Hypothesis Hw : 0 < w.
Hypothesis Hmin : w <= minB.
Hypothesis Hmax : minB <= maxB.
Variables (S : list N) (term : rerr) (B : nat).
Hypothesis HS : isbytes S.
Hypothesis HB : 2 * w <= B.

(** what holds of every chunker whose reader has not failed yet *)
Definition Inv (c : chunker) : Prop :=
  length (ck_buf c) = B /\ ck_err c = None /\ ck_tail c <= length S /\
  rd_rest (ck_rd c) = skipn (ck_tail c) S /\ rd_with (ck_rd c) = false /\ rd_term (ck_rd c) = term.
(** the ring buffer holds the bytes head..tail of the stream *)
Definition Live (c : chunker) : Prop :=
  ck_head c <= ck_tail c /\ ck_tail c - ck_head c <= B /\
  forall i, ck_head c <= i < ck_tail c -> at_ (ck_buf c) (i mod B) = at_ S i.

Lemma rd_read_ok : forall rd k, 0 < k -> rd_rest rd <> [] -> rd_with rd = false ->
  exists n sched, 1 <= n /\ n <= k /\ n <= length (rd_rest rd) /\
    rd_read rd k = (firstn n (rd_rest rd), None, mkreader (skipn n (rd_rest rd)) sched (rd_disc rd) false (rd_term rd)).
Proof.
  intros rd k Hk Hne Hwi. unfold rd_read. rewrite Hwi. destruct (rd_rest rd) as [|b r] eqn:E; [congruence|].
  exists (Nat.max 1 (Nat.min (match rd_sched rd with [] => k | s :: _ => s end) (Nat.min k (length (b :: r))))).
  exists (tl (rd_sched rd)).
  assert (1 <= length (b :: r)) by (simpl; lia).
  set (L := length (b :: r)) in *. clearbody L. repeat split; lia.
Qed.
Lemma rd_read_end : forall rd k, rd_rest rd = [] -> rd_read rd k = ([], Some (rd_term rd), rd).
Proof. intros rd k E. unfold rd_read. now rewrite E. Qed.

Lemma skipn_nil_iff : forall (l : list N) k, k <= length l -> (skipn k l = [] <-> k = length l).
Proof.
  intros l k H. split; intros E.
  - assert (X : length (skipn k l) = 0) by now rewrite E. rewrite skipn_length in X. lia.
  - subst. now rewrite skipn_all.
Qed.

Lemma ring_fresh : forall h tl i, h <= i < tl -> tl - h < B ->
  (h mod B <= tl mod B -> i mod B < tl mod B) /\
  (tl mod B < h mod B -> i mod B < tl mod B \/ h mod B <= i mod B).
Proof.
  intros h tl i Hi Hd. assert (B0 : B <> 0) by lia.
  pose proof (Nat.div_mod h B B0) as Dh. pose proof (Nat.mod_upper_bound h B B0) as Mh.
  pose proof (Nat.div_mod tl B B0) as Dt. pose proof (Nat.mod_upper_bound tl B B0) as Mt.
  pose proof (Nat.div_mod i B B0) as Di. pose proof (Nat.mod_upper_bound i B B0) as Mi.
  assert (h / B <= i / B) by (apply Nat.div_le_mono; lia).
  assert (i / B <= tl / B) by (apply Nat.div_le_mono; lia).
  set (qh := h / B) in *. set (qi := i / B) in *. set (qt := tl / B) in *.
  set (rh := h mod B) in *. set (ri := i mod B) in *. set (rt := tl mod B) in *. clearbody qh qi qt rh ri rt.
  split; intros C.
  - assert (qt = qh). { destruct (Nat.eq_dec qt qh); auto. assert (qh + 1 <= qt) by lia. nia. }
    assert (qi = qh) by lia. subst. lia.
  - assert (qt = qh + 1). { destruct (Nat.le_gt_cases qt qh); [assert (qt = qh) by lia; subst; lia|].
      destruct (Nat.le_gt_cases qt (qh + 1)); [lia|]. assert (qh + 2 <= qt) by lia. nia. }
    assert (qi = qh \/ qi = qh + 1) as [->| ->] by lia; subst; nia.
Qed.

Lemma more_ok : forall c, Inv c -> Live c -> ck_tail c - ck_head c < B ->
  (ck_tail c = length S /\
    ck_more c = (mkck (ck_rd c) (ck_buf c) (ck_head c) (ck_tail c) (Some term), Some term)) \/
  (exists c', ck_more c = (c', None) /\ Inv c' /\ Live c' /\ ck_head c' = ck_head c /\
    ck_tail c < ck_tail c' /\ rd_disc (ck_rd c') = rd_disc (ck_rd c)).
Proof.
  intros c (IB & IE & IT & IR & IW & IM) (LH & LB & LV) Hd. unfold ck_more. rewrite IE, IB.
  assert (B0 : B <> 0) by lia.
  pose proof (Nat.mod_upper_bound (ck_tail c) B B0) as Mt.
  pose proof (Nat.mod_upper_bound (ck_head c) B B0) as Mh.
  destruct (Nat.eq_dec (ck_tail c) (length S)) as [E|E].
  - left. split; auto. rewrite rd_read_end.
    + cbn [length Nat.ltb Nat.leb]. now rewrite IM.
    + rewrite IR. now apply skipn_nil_iff.
  - right.
    set (lim := if ck_head c mod B <=? ck_tail c mod B then B - ck_tail c mod B else ck_head c mod B - ck_tail c mod B).
    assert (0 < lim) by (unfold lim; destruct (Nat.leb_spec (ck_head c mod B) (ck_tail c mod B)); lia).
    destruct (rd_read_ok (ck_rd c) lim) as (n & sched & N1 & N2 & N3 & R); auto.
    { rewrite IR. intros X. apply skipn_nil_iff in X; lia. }
    rewrite R. rewrite IR in N3 |- *. rewrite skipn_length in N3.
    assert (LL : length (firstn n (skipn (ck_tail c) S)) = n) by (rewrite firstn_length, skipn_length; lia).
    rewrite LL. destruct (Nat.ltb_spec 0 n); [|lia].
    eexists; split; [reflexivity|].
    assert (HL : ck_tail c mod B + n <= B).
    { unfold lim in N2. destruct (Nat.leb_spec (ck_head c mod B) (ck_tail c mod B)); lia. }
    split; [|split; [|split; [|split]]]; cbn [ck_rd ck_buf ck_head ck_tail ck_err rd_rest rd_with rd_term rd_disc]; auto; try lia.
    + repeat split; cbn [ck_rd ck_buf ck_head ck_tail ck_err rd_rest rd_with rd_term rd_disc]; auto; try lia.
      * rewrite copy_at_length; [auto|]. lia.
      * rewrite skipn_skipn. reflexivity.
    + repeat split; cbn [ck_rd ck_buf ck_head ck_tail ck_err rd_rest rd_with rd_term rd_disc]; try lia.
      * destruct (Nat.le_gt_cases (ck_tail c + n - ck_head c) B) as [|X]; auto. exfalso.
        unfold lim in N2.
        pose proof (Nat.div_mod (ck_head c) B B0) as Dh. pose proof (Nat.div_mod (ck_tail c) B B0) as Dt.
        assert (ck_head c / B <= ck_tail c / B) by (apply Nat.div_le_mono; lia).
        set (qh := ck_head c / B) in *. set (qt := ck_tail c / B) in *.
        set (rh := ck_head c mod B) in *. set (rt := ck_tail c mod B) in *. clearbody qh qt rh rt.
        destruct (Nat.leb_spec rh rt).
        -- assert (qt = qh). { destruct (Nat.eq_dec qt qh); auto. assert (qh + 1 <= qt) by lia. nia. } subst. lia.
        -- assert (qt <= qh + 1). { destruct (Nat.le_gt_cases qt (qh + 1)); [lia|]. assert (qh + 2 <= qt) by lia. nia. }
           nia.
      * intros i Hi. rewrite at_copy_at by (rewrite LL; lia). rewrite LL.
        destruct (Nat.lt_ge_cases i (ck_tail c)) as [Hlt|Hge].
        -- destruct (ring_fresh (ck_head c) (ck_tail c) i) as [F1 F2]; [lia|lia|].
           replace ((ck_tail c mod B <=? i mod B) && (i mod B <? ck_tail c mod B + n)) with false.
           { apply LV. lia. }
           symmetry. apply andb_false_iff. rewrite Nat.leb_gt, Nat.ltb_ge. unfold lim in N2.
           destruct (Nat.leb_spec (ck_head c mod B) (ck_tail c mod B)) as [C|C]; [left; auto|].
           destruct (F2 C); [left; lia|right; lia].
        -- assert (E2 : i mod B = ck_tail c mod B + (i - ck_tail c)).
           { replace i with (ck_tail c + (i - ck_tail c)) at 1 by lia.
             rewrite <- Nat.add_mod_idemp_l by lia. apply Nat.mod_small. lia. }
           rewrite E2. replace ((_ <=? _) && _) with true.
           2:{ symmetry. apply andb_true_iff. rewrite Nat.leb_le, Nat.ltb_lt. lia. }
           rewrite at_firstn_lt by lia. rewrite nth_skipn. f_equal. lia.
Qed.

Lemma discard_loop_ok : forall fuel n c, n <= fuel -> Inv c ->
  (ck_tail c + n <= length S -> exists c', discard_loop fuel n c = (c', None) /\ Inv c' /\
     ck_head c' = ck_head c /\ ck_tail c' = ck_tail c + n) /\
  (length S < ck_tail c + n -> exists c', discard_loop fuel n c = (c', Some term) /\ ck_tail c' = length S /\ ck_err c' = Some term).
Proof.
  induction fuel as [|f IH]; intros n c Hn I.
  - assert (n = 0) by lia. subst. destruct I as (IB & IE & IT & IR & IW & IM). split; intros H; [|lia].
    exists c. repeat split; auto.
  - cbn [discard_loop]. destruct (Nat.eqb_spec n 0) as [->|Hn0].
    { destruct I as (IB & IE & IT & IR & IW & IM). split; intros H; [|lia]. exists c. repeat split; auto. }
    destruct I as (IB & IE & IT & IR & IW & IM). rewrite IB.
    destruct (Nat.eq_dec (ck_tail c) (length S)) as [E|E].
    + rewrite rd_read_end by (rewrite IR; now apply skipn_nil_iff). split; intros H; [lia|].
      eexists. split; [cbn [ck_rd ck_buf ck_head ck_tail length]; rewrite IM; reflexivity|]. cbn. split; [lia|reflexivity].
    + destruct (rd_read_ok (ck_rd c) (Nat.min B n)) as (m & sched & N1 & N2 & N3 & R); auto; [lia|..].
      { rewrite IR. intros X. apply skipn_nil_iff in X; lia. }
      rewrite R. rewrite IR in N3 |- *. rewrite skipn_length in N3.
      assert (LL : length (firstn m (skipn (ck_tail c) S)) = m) by (rewrite firstn_length, skipn_length; lia).
      rewrite LL.
      set (c1 := mkck _ _ _ _ _).
      assert (I1 : Inv c1).
      { unfold c1. repeat split; cbn [ck_rd ck_buf ck_head ck_tail ck_err rd_rest rd_with rd_term rd_disc]; auto; try lia.
        - rewrite copy_at_length; auto. lia.
        - now rewrite skipn_skipn. }
      assert (T1 : ck_tail c1 = ck_tail c + m) by reflexivity. assert (H1 : ck_head c1 = ck_head c) by reflexivity.
      clearbody c1. destruct (IH (n - m) c1) as [A1 A2]; [lia|auto|].
      split; intros H.
      * destruct A1 as (c' & ? & ? & ? & ?); [lia|]. exists c'. repeat split; try apply H2; auto; try congruence; try lia.
      * apply A2. lia.
Qed.
Lemma discard_ok : forall c n, Inv c ->
  (ck_tail c + n <= length S -> exists c', ck_discard c n = (c', None) /\ Inv c' /\
     ck_head c' = ck_head c /\ ck_tail c' = ck_tail c + n) /\
  (length S < ck_tail c + n -> exists c', ck_discard c n = (c', Some term) /\ ck_tail c' = length S /\ ck_err c' = Some term).
Proof.
  intros c n I. unfold ck_discard. destruct (I) as (IB & IE & IT & IR & IW & IM). rewrite IE.
  destruct (rd_disc (ck_rd c)); [|apply discard_loop_ok; auto].
  unfold rd_discard. rewrite IR, skipn_length. split; intros H.
  - rewrite Nat.min_l by lia. rewrite Nat.ltb_irrefl. eexists. split; [reflexivity|].
    repeat split; cbn [ck_rd ck_buf ck_head ck_tail ck_err rd_rest rd_with rd_term rd_disc]; auto.
    now rewrite skipn_skipn.
  - rewrite Nat.min_r by lia. destruct (Nat.ltb_spec (length S - ck_tail c) n); [|lia].
    rewrite IM. eexists. split; [reflexivity|]. cbn. split; [lia|reflexivity].
Qed.

Lemma prime_ok : forall fuel c, Inv c -> Live c -> ck_head c + w < ck_tail c + fuel ->
  (ck_head c + w <= length S -> exists c', prime_loop fuel w c = (c', None) /\ Inv c' /\ Live c' /\
     ck_head c' = ck_head c /\ ck_head c + w <= ck_tail c') /\
  (length S < ck_head c + w -> exists c', prime_loop fuel w c = (c', Some term) /\ ck_tail c' = length S /\ ck_err c' = Some term).
Proof.
  induction fuel as [|f IH]; intros c I L Hf.
  - pose proof I as (_ & _ & IT & _). split; intros; [|lia]. exists c. simpl. repeat split; try apply I; try apply L; lia.
  - cbn [prime_loop]. destruct (Nat.ltb_spec (ck_tail c) (ck_head c + w)) as [H|H].
    + destruct (more_ok c I L) as [[E M]|(c' & M & I' & L' & H' & T' & _)]; [lia| |]; rewrite M.
      * split; intros; [lia|]. eexists. split; [reflexivity|]. cbn. auto.
      * destruct (IH c') as [A1 A2]; auto; [lia|]. rewrite H' in *. split; auto.
    + split; intros Hs.
      * exists c. repeat split; try apply I; try apply L; auto.
      * destruct I as (_ & _ & IT & _). lia.
Qed.

Definition win (h : nat) : list N := firstn w (skipn h S).
Lemma window_hash_ok : forall c, Inv c -> Live c -> ck_head c + w <= ck_tail c ->
  is_rem p (be_val (win (ck_head c))) (ck_window_hash t c).
Proof.
  intros c I L H. unfold ck_window_hash. destruct (tab_deg p w t Ht Hp64) as (_ & _ & _ & _ & _ & RW). rewrite RW.
  destruct I as (IB & IE & IT & IR & IW & IM). destruct L as (LH & LB & LV). rewrite IB.
  assert (B0 : B <> 0) by lia. pose proof (Nat.mod_upper_bound (ck_head c) B B0) as Mh.
  set (b1 := skipn (ck_head c mod B) (ck_buf c)).
  assert (L1 : length b1 = B - ck_head c mod B) by (unfold b1; rewrite skipn_length; lia).
  assert (LW : length (win (ck_head c)) = w) by (unfold win; rewrite firstn_length, skipn_length; lia).
  assert (HWb : isbytes (win (ck_head c))) by (unfold win; apply isbytes_firstn, isbytes_skipn; auto).
  assert (AT : forall i, i < w -> at_ (win (ck_head c)) i = at_ (ck_buf c) ((ck_head c + i) mod B)).
  { intros i Hi. unfold win. rewrite at_firstn_lt by lia. rewrite nth_skipn. symmetry. apply LV. lia. }
  destruct (Nat.leb_spec w (length b1)) as [C|C].
  - assert (E : firstn w b1 = win (ck_head c)).
    { apply at_ext; [rewrite LW, firstn_length; lia|]. intros i Hi. rewrite firstn_length in Hi.
      rewrite at_firstn_lt by lia. rewrite AT by lia. unfold b1. rewrite nth_skipn. f_equal.
      rewrite <- Nat.add_mod_idemp_l by lia. symmetry. apply Nat.mod_small. lia. }
    rewrite E. unfold rabin_update at 1. cbn [fold_left]. apply (update_rem p w t Ht Hp64 (win (ck_head c)) [] 0%N); auto. apply is_rem_0.
  - assert (E : b1 ++ firstn (w - length b1) (ck_buf c) = win (ck_head c)).
    { apply at_ext; [rewrite app_length, firstn_length; lia|]. intros i Hi.
      rewrite app_length, firstn_length in Hi. rewrite AT by lia.
      destruct (Nat.lt_ge_cases i (length b1)) as [D|D].
      - unfold at_ at 1. rewrite app_nth1 by lia. unfold b1.
        pose proof (nth_skipn (ck_buf c) (ck_head c mod B) i) as X. unfold at_ at 1 in X. rewrite X. f_equal.
        rewrite <- Nat.add_mod_idemp_l by lia. symmetry. apply Nat.mod_small. lia.
      - unfold at_ at 1. rewrite app_nth2 by lia.
        pose proof (at_firstn_lt (ck_buf c) (w - length b1) (i - length b1)) as X. unfold at_ at 1 in X. rewrite X by lia.
        f_equal. rewrite <- Nat.add_mod_idemp_l by lia.
        replace (ck_head c mod B + i) with ((i - length b1) + 1 * B) by lia.
        rewrite Nat.mod_add by lia. symmetry. apply Nat.mod_small. lia. }
    unfold rabin_update. rewrite <- fold_left_app. rewrite E.
    apply (update_rem p w t Ht Hp64 (win (ck_head c)) [] 0%N); auto. apply is_rem_0.
Qed.

Lemma win_boundary : forall start head hash, start + minB - w <= head -> start <= length S -> head + w <= length S ->
  is_rem p (be_val (win head)) hash ->
  boundary p w maxB mask (skipn start S) (head + w - start) =
  ((N.land hash mask =? mask)%N || (head + w - start =? maxB))%bool.
Proof.
  intros start head hash H1 H0 H2 R. unfold boundary.
  replace (lastn w (firstn (head + w - start) (skipn start S))) with (win head).
  - destruct (tab_deg p w t Ht Hp64) as (_ & _ & P1 & _).
    rewrite (prem_unique p (be_val (win head)) hash); auto.
  - unfold lastn, win. rewrite firstn_length, skipn_length. rewrite Nat.min_l by lia.
    rewrite skipn_firstn_comm, skipn_skipn. f_equal; [lia|]. f_equal. lia.
Qed.

Lemma roll_ok : forall fuel start head hash c, Inv c ->
  ck_head c <= head -> head + w <= ck_tail c -> ck_tail c - ck_head c <= B ->
  (forall i, ck_head c <= i < ck_tail c -> at_ (ck_buf c) (i mod B) = at_ S i) ->
  start + minB - w <= head -> head <= start + maxB - w -> start + maxB - w - head < fuel ->
  is_rem p (be_val (win head)) hash ->
  let s := skipn start S in
  match find (boundary p w maxB mask s) (seq (head + w - start) (Datatypes.S (Nat.min maxB (length s)) - (head + w - start))) with
  | Some L => exists c' h', roll_loop fuel t mask (start + maxB - w) hash head (ck_tail c - w) c = (c', inl h') /\
       h' + w - start = L /\ Inv c' /\ Live (set_head c' (h' + w)) /\ start + w <= h' + w
  | None => exists c' h', (term = EOF -> roll_loop fuel t mask (start + maxB - w) hash head (ck_tail c - w) c = (c', inl h')) /\
       (term <> EOF -> roll_loop fuel t mask (start + maxB - w) hash head (ck_tail c - w) c = (c', inr term)) /\
       ck_err c' = Some term /\ h' + w = length S
  end.
Proof.
  destruct (tab_deg p w t Ht Hp64) as (_ & _ & _ & _ & _ & RW).
  induction fuel as [|f IH]; intros start head hash c I H1 H2 HLB HLV H3 H4 H5 HR s; [lia|].
  destruct (I) as (IB & IE & IT & IR & IW & IM).
  assert (LS : length s = length S - start) by (unfold s; apply skipn_length).
  assert (WB : boundary p w maxB mask s (head + w - start) = ((N.land hash mask =? mask)%N || (head + w - start =? maxB))%bool)
    by (apply win_boundary; auto; lia).
  replace (Datatypes.S (Nat.min maxB (length s)) - (head + w - start))
    with (Datatypes.S (Nat.min maxB (length s) - (head + w - start))) by lia.
  cbn [seq find]. rewrite WB. cbn [roll_loop]. rewrite RW.
  destruct (N.eqb_spec (N.land hash mask) mask) as [EM|EM]; cbn [orb negb andb].
  - exists c, head. split; [reflexivity|]. split; auto. split; auto. split; [|lia].
    repeat split; cbn [set_head ck_head ck_tail ck_buf]; try lia. intros i Hi. apply HLV. lia.
  - destruct (Nat.ltb_spec head (start + maxB - w)) as [HL|HL].
    2:{ replace (head + w - start =? maxB) with true by (symmetry; apply Nat.eqb_eq; lia).
        exists c, head. split; [reflexivity|]. split; auto. split; auto. split; [|lia].
        repeat split; cbn [set_head ck_head ck_tail ck_buf]; try lia. intros i Hi. apply HLV. lia. }
    replace (head + w - start =? maxB) with false by (symmetry; apply Nat.eqb_neq; lia).
    (* one step of the window *)
    assert (STEP : forall c1, Inv c1 -> ck_head c1 <= head -> head + w < ck_tail c1 -> ck_tail c1 - ck_head c1 <= B ->
      (forall i, ck_head c1 <= i < ck_tail c1 -> at_ (ck_buf c1) (i mod B) = at_ S i) ->
      is_rem p (be_val (win (Datatypes.S head)))
        (rabin_push t (N.lxor hash (at_ (rpop t) (N.to_nat (at_ (ck_buf c1) (head mod length (ck_buf c1))))))
           (at_ (ck_buf c1) ((head + w) mod length (ck_buf c1))))).
    { intros c1 (JB & JE & JT & JR & JW & JM) K1 K2 K3 K4. rewrite JB. rewrite !K4 by lia.
      assert (E1 : win head = at_ S head :: firstn (w - 1) (skipn (Datatypes.S head) S)).
      { unfold win. replace w with (Datatypes.S (w - 1)) at 1 by lia.
        rewrite (skipn_cons_at S head) by lia. reflexivity. }
      assert (E2 : win (Datatypes.S head) = firstn (w - 1) (skipn (Datatypes.S head) S) ++ [at_ S (head + w)]).
      { apply at_ext.
        - unfold win. rewrite app_length, !firstn_length, skipn_length. simpl. lia.
        - intros i Hi. unfold win in *. rewrite firstn_length, skipn_length in Hi. rewrite at_firstn_lt, nth_skipn by lia.
          unfold at_ at 2. destruct (Nat.lt_ge_cases i (w - 1)).
          + rewrite app_nth1 by (rewrite firstn_length, skipn_length; lia).
            pose proof (at_firstn_lt (skipn (Datatypes.S head) S) (w - 1) i) as X. unfold at_ at 1 in X.
            rewrite X by lia. now rewrite nth_skipn.
          + rewrite app_nth2 by (rewrite firstn_length, skipn_length; lia).
            rewrite firstn_length, skipn_length. replace (i - _) with 0 by lia. simpl. f_equal. lia. }
      rewrite E2. apply (roll_rem p w t Ht Hp64); auto.
      - rewrite firstn_length, skipn_length. lia.
      - rewrite <- E1. unfold win. apply isbytes_firstn, isbytes_skipn; auto.
      - unfold at_. pose proof (proj1 (Forall_nth _ S) HS) as X. apply X. lia.
      - now rewrite <- E1. }
    destruct (Nat.eqb_spec head (ck_tail c - w)) as [ER|ER].
    + assert (L1 : Live (set_head c head)).
      { repeat split; cbn [set_head ck_head ck_tail ck_buf]; try lia. intros i Hi. apply HLV. lia. }
      destruct (more_ok (set_head c head) I L1) as [[ET M]|(c' & M & I' & L' & H' & T' & _)].
      { cbn [set_head ck_head ck_tail]. lia. }
      * rewrite M. cbn [set_head ck_rd ck_buf ck_head ck_tail ck_err] in *.
        replace (Nat.min maxB (length s) - (head + w - start)) with 0 by lia. cbn [seq find].
        destruct term; eexists _, head; split; try congruence; split; try (intros; reflexivity); try congruence;
          cbn [ck_err]; split; auto; try lia; intros X; try discriminate; try congruence; reflexivity.
      * rewrite M. cbn [set_head ck_rd ck_buf ck_head ck_tail ck_err] in *. cbv zeta.
        destruct L' as (M1 & M2 & M3).
        assert (IT' : ck_tail c' <= length S) by apply I'.
        specialize (IH start (Datatypes.S head) _ c' I' ltac:(lia) ltac:(lia) ltac:(lia) M3 ltac:(lia) ltac:(lia) ltac:(lia)
          (STEP c' I' ltac:(lia) ltac:(lia) ltac:(lia) M3)).
        fold s in IH. cbv zeta in IH.
        replace (Datatypes.S head + w - start) with (Datatypes.S (head + w - start)) in IH by lia.
        replace (Datatypes.S (Nat.min maxB (length s)) - Datatypes.S (head + w - start))
          with (Nat.min maxB (length s) - (head + w - start)) in IH by lia.
        exact IH.
    + cbv zeta.
      specialize (IH start (Datatypes.S head) _ c I ltac:(lia) ltac:(lia) ltac:(lia) HLV ltac:(lia) ltac:(lia) ltac:(lia)
          (STEP c I ltac:(lia) ltac:(lia) ltac:(lia) HLV)).
        fold s in IH. cbv zeta in IH.
        replace (Datatypes.S head + w - start) with (Datatypes.S (head + w - start)) in IH by lia.
        replace (Datatypes.S (Nat.min maxB (length s)) - Datatypes.S (head + w - start))
          with (Nat.min maxB (length s) - (head + w - start)) in IH by lia.
        exact IH.
Qed.

Lemma cut_short : forall s, length s < minB -> cut p w minB maxB mask s = None.
Proof. intros s H. unfold cut. replace (Datatypes.S (Nat.min maxB (length s)) - minB) with 0 by lia. reflexivity. Qed.

Lemma next_ok : forall c, Inv c -> Live c ->
  let s := skipn (ck_head c) S in
  match cut p w minB maxB mask s with
  | Some L => exists c', ck_next t minB maxB mask c = (c', (L, None)) /\ Inv c' /\ Live c' /\ ck_head c' = ck_head c + L
  | None => exists c', ck_err c' = Some term /\
      ck_next t minB maxB mask c = (c', match term with
         | EOF => if (0 <? length s) || (w <? minB) then (length s, None) else (0, Some EOF)
         | e => (0, Some e) end)
  end.
Proof.
  intros c I L s. destruct (tab_deg p w t Ht Hp64) as (_ & _ & _ & _ & _ & RW).
  pose proof I as (IB & IE & IT & IR & IW & IM). pose proof L as (LH & LB & LV).
  assert (LS : length s = length S - ck_head c) by (unfold s; apply skipn_length).
  unfold ck_next. rewrite IE, RW. set (start := ck_head c) in *. set (c1 := set_head c (start + (minB - w))).
  assert (I1 : Inv c1) by exact I. assert (T1 : ck_tail c1 = ck_tail c) by reflexivity.
  assert (H1 : ck_head c1 = start + (minB - w)) by reflexivity.
  rewrite T1, H1.
  (* after skipping *)
  assert (D : (start + (minB - w) <= length S /\ exists c2,
       (if ck_tail c <? start + (minB - w) then ck_discard c1 (start + (minB - w) - ck_tail c) else (c1, None)) = (c2, None) /\
       Inv c2 /\ Live c2 /\ ck_head c2 = start + (minB - w)) \/
     (length S < start + (minB - w) /\ exists c2,
       (if ck_tail c <? start + (minB - w) then ck_discard c1 (start + (minB - w) - ck_tail c) else (c1, None)) = (c2, Some term) /\
       ck_tail c2 = length S /\ ck_err c2 = Some term)).
  { destruct (Nat.ltb_spec (ck_tail c) (start + (minB - w))) as [C|C].
    - destruct (discard_ok c1 (start + (minB - w) - ck_tail c) I1) as [A1 A2]. rewrite T1 in *.
      destruct (Nat.le_gt_cases (start + (minB - w)) (length S)) as [G|G].
      + left. split; auto. destruct A1 as (c2 & E & I2 & E2 & E3); [lia|]. exists c2. repeat split; auto; try apply I2; try lia.
      + right. split; auto. apply A2. lia.
    - left. split; [lia|]. exists c1. repeat split; try apply I1; auto; try lia.
      intros i Hi. apply LV. unfold c1 in Hi. cbn [set_head ck_head ck_tail] in Hi. lia. }
  destruct D as [(G & c2 & E & I2 & L2 & H2)|(G & c2 & E & E2 & E3)]; rewrite E; clear E.
  2:{ rewrite cut_short by lia. exists c2. split; auto. rewrite E2.
      replace (w <? minB) with true by (symmetry; apply Nat.ltb_lt; lia). rewrite orb_true_r, LS.
      destruct term; reflexivity. }
  clear c1 I1 T1 H1.
  destruct (prime_ok (Datatypes.S w) c2 I2 L2) as [A1 A2]. { destruct L2. lia. }
  rewrite H2 in *.
  destruct (Nat.le_gt_cases (start + (minB - w) + w) (length S)) as [K|K].
  2:{ destruct (A2 K) as (c3 & E & E2 & E3). rewrite E. rewrite cut_short by lia. exists c3. split; auto. rewrite E2, LS.
      replace (w <? minB) with (w <? minB) by auto.
      destruct (Nat.eqb_spec (length S) start) as [F|F].
      - replace (w <? minB) with false by (symmetry; apply Nat.ltb_ge; lia).
        replace (length S - start) with 0 by lia. destruct term; reflexivity.
      - replace (0 <? length S - start) with true by (symmetry; apply Nat.ltb_lt; lia). destruct term; reflexivity. }
  destruct (A1 K) as (c3 & E & I3 & L3 & H3 & H4). rewrite E. clear E A1 A2. rewrite H3.
  pose proof (window_hash_ok c3 I3 L3 ltac:(lia)) as HR. rewrite H3 in HR.
  pose proof L3 as (M1 & M2 & M3). assert (IT3 : ck_tail c3 <= length S) by apply I3.
  pose proof (roll_ok (Datatypes.S (start + maxB - w - (start + (minB - w)))) start (start + (minB - w)) _ c3 I3
    ltac:(lia) ltac:(lia) M2 M3 ltac:(lia) ltac:(lia) ltac:(lia) HR) as RO. cbv zeta in RO. fold s in RO.
  replace (start + (minB - w) + w - start) with minB in RO by lia. fold (cut p w minB maxB mask s) in RO.
  destruct (cut p w minB maxB mask s) as [Lc|].
  - destruct RO as (c4 & h' & E & EL & I4 & L4 & ?). rewrite E. exists (set_head c4 (h' + w)).
    rewrite EL. repeat split; try apply I4; try apply L4. cbn [set_head ck_head]. lia.
  - destruct RO as (c4 & h' & E1 & E2 & E3 & E4).
    destruct term.
    + rewrite (E1 eq_refl). exists (set_head c4 (h' + w)). split; [exact E3|]. rewrite E4, LS.
      replace (0 <? length S - start) with true by (symmetry; apply Nat.ltb_lt; lia). reflexivity.
    + rewrite E2 by discriminate. exists c4. split; auto.
    + rewrite E2 by discriminate. exists c4. split; auto.
Qed.

Lemma err_sticky : forall n c e, ck_err c = Some e -> ck_run t minB maxB mask n c = repeat (0, Some e) n.
Proof.
  induction n; intros c e H; auto. cbn [ck_run]. unfold ck_next. rewrite H. cbn [repeat]. f_equal. auto.
Qed.
Lemma ck_run_ok : forall n c, Inv c -> Live c ->
  ck_run t minB maxB mask n c = chunk_results p w minB maxB mask term (skipn (ck_head c) S) n.
Proof.
  induction n as [|n IH]; intros c I L; auto. cbn [ck_run chunk_results].
  pose proof (next_ok c I L) as NO. cbv zeta in NO.
  destruct (cut p w minB maxB mask (skipn (ck_head c) S)) as [Lc|].
  - destruct NO as (c' & E & I' & L' & H'). rewrite E. f_equal. rewrite IH, H' by auto. f_equal. now rewrite skipn_skipn.
  - destruct NO as (c' & E1 & E2). rewrite E2. rewrite (err_sticky n c' term E1).
    destruct term; auto. destruct ((0 <? _) || _); auto.
Qed.
End P.

Lemma chunker_lemma : forall p w t rd minB maxB avg c n, (p < 2 ^ 64)%N -> rabin_table p w = Some t ->
  isbytes (rd_rest rd) -> rd_with rd = false -> new_chunker t rd minB maxB avg = Some c ->
  ck_run t minB maxB (hash_mask avg) n c = chunk_results p w minB maxB (hash_mask avg) (rd_term rd) (rd_rest rd) n.
Proof.
  intros p w t rd minB maxB avg c n Hp Ht Hb Hwi Hc.
  destruct (tab_deg p w t Ht Hp) as (_ & _ & _ & _ & _ & RW).
  unfold new_chunker in Hc. rewrite RW in Hc. destruct (buf_size_ok w) as [B1 B2].
  set (B := buf_size w) in *. clearbody B.
  destruct (Nat.eqb_spec w 0); [discriminate|]. destruct (Nat.ltb_spec minB w); [discriminate|].
  destruct (Nat.ltb_spec maxB minB); [discriminate|]. destruct (negb _); [discriminate|].
  apply some_inj in Hc. subst c.
  rewrite (ck_run_ok p w t minB maxB (hash_mask avg) Ht Hp) with (S := rd_rest rd) (term := rd_term rd) (B := B); auto; try lia.
  - repeat split; auto; cbn [ck_tail]; try lia. apply zeros_length.
  - repeat split; cbn [ck_head ck_tail]; try lia.
Qed.

(** Consequences about the specification: coverage and sizes. *)
Lemma cut_bounds : forall p w minB maxB mask s L, minB <= maxB -> cut p w minB maxB mask s = Some L ->
  minB <= L <= maxB /\ L <= length s.
Proof.
  intros p w minB maxB mask s L Hm H. unfold cut in H. apply find_some in H. destruct H as [H _].
  apply in_seq in H. lia.
Qed.
Lemma chunk_cover : forall p w minB maxB mask, 0 < minB -> minB <= maxB -> forall k s, length s <= k ->
  exists ls last, forall n,
    chunk_results p w minB maxB mask EOF s (length ls + 1 + n) =
      map (fun L => (L, None)) ls ++
      (if (0 <? last) || (w <? minB) then [(last, None)] ++ repeat (0, Some EOF) n else repeat (0, Some EOF) (S n))
    /\ Forall (fun L => minB <= L <= maxB) ls /\ last < maxB /\ list_sum ls + last = length s.
Proof.
  intros p w minB maxB mask H0 Hm. induction k as [|k IH]; intros s Hs.
  - exists [], 0. intros n. destruct s; simpl in Hs; [|lia]. cbn [length plus map app chunk_results].
    assert (C : cut p w minB maxB mask [] = None).
    { unfold cut. cbn [length]. rewrite Nat.min_0_r. replace (1 - minB) with 0 by lia. reflexivity. }
    rewrite C. cbn [length].
    split; [|split; [constructor|split; [lia|reflexivity]]].
    destruct ((0 <? 0) || (w <? minB)); reflexivity.
  - destruct (cut p w minB maxB mask s) as [L|] eqn:C.
    + destruct (cut_bounds _ _ _ _ _ _ _ Hm C) as [B1 B2].
      destruct (IH (skipn L s)) as (ls & last & E). { rewrite skipn_length. lia. }
      exists (L :: ls), last. intros n. destruct (E n) as (E1 & E2 & E3 & E4). split; [|split; [|split]]; auto.
      * cbn [length plus chunk_results]. rewrite C, E1. reflexivity.
      * rewrite skipn_length in E4. change (list_sum (L :: ls)) with (L + list_sum ls). lia.
    + exists [], (length s). intros n. cbn [length plus map app chunk_results]. rewrite C.
      split; [|split; [constructor|split; [|reflexivity]]].
      * destruct ((0 <? length s) || (w <? minB)); reflexivity.
      * destruct (Nat.lt_ge_cases (length s) maxB) as [|G]; auto. exfalso.
        unfold cut in C. pose proof (find_none _ _ C maxB) as F.
        rewrite in_seq in F. specialize (F ltac:(lia)). unfold boundary in F. rewrite Nat.eqb_refl, orb_true_r in F. discriminate.
Qed.
