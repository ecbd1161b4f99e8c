(** PropFluentMem.v -- who can change the bytes of a Hash value (C142, C143). *)
From Coq Require Import List NArith Arith Lia Bool.
From Verif Require Import Base SpecMd2 PropFluent FluentMem.
Import ListNotations.

(** The slices a client passes are slices of memory. *)
Definition meant (m : mem) (e : mev) : Prop := match e with MFrom s | MSum s _ => sok m s | _ => True end.
(** A call or a store writes byte [i] of array [k]: Sum(s) does when the digest fits in the spare capacity of [s]. *)
Definition writes (e : mev) (k i : nat) : Prop :=
  match e with
  | MStore k' i' _ => k = k' /\ i = i'
  | MSum s d => s_len s + length d <= s_cap s /\ k = s_arr s /\ s_off s + s_len s <= i < s_off s + s_len s + length d
  | _ => False
  end.
(** No event of [evs] writes a byte that the slice [t] shows. *)
Fixpoint undisturbed (g : nat -> nat -> nat) (t : slice) (st : mem * list slice) (evs : list mev) : Prop :=
  match evs with
  | [] => True
  | e :: r => meant (fst st) e /\ (forall k i, writes e k i -> ~ shows t k i) /\ undisturbed g t (mstep g st e) r
  end.
Definition after (g : nat -> nat -> nat) (st : mem * list slice) (evs : list mev) : mem * list slice := fold_left (mstep g) evs st.

Lemma mstep_vals : forall g st e, exists l, snd (mstep g st e) = snd st ++ l.
Proof.
  intros g (m, vs) e. destruct e; cbn [mstep snd]; try (exists []; now rewrite app_nil_r); [now exists [s]| |].
  - destruct (go_append g m nil_slice (H (sbytes m (nth v vs nil_slice)))) as [m' s]. now exists [s].
  - destruct (go_append g m s d) as [m' s']. now exists [s'].
Qed.
Lemma mstep_keeps : forall g st e t, sok (fst st) t -> meant (fst st) e -> (forall k i, writes e k i -> ~ shows t k i) ->
  sok (fst (mstep g st e)) t /\ sbytes (fst (mstep g st e)) t = sbytes (fst st) t.
Proof.
  intros g (m, vs) e t T M W. cbn [fst] in *. destruct e; cbn [mstep fst].
  - split; [now apply sok_ext|now apply sbytes_grow].
  - apply store_other; auto. apply W. now split.
  - now split.
  - pose proof (go_append_other g m nil_slice (H (sbytes m (nth v vs nil_slice))) t (sok_nil m) T) as K.
    destruct (go_append g m nil_slice (H (sbytes m (nth v vs nil_slice)))) as [m' s]. cbn [fst]. apply K.
    cbn [nil_slice s_len s_cap s_off s_arr]. intros Q i I. lia.
  - pose proof (go_append_other g m s d t M T) as K. destruct (go_append g m s d) as [m' s']. cbn [fst]. apply K.
    intros Q i I. apply W. cbn [writes]. auto.
Qed.
(** ** A value keeps its bytes through every program that does not write to one of the bytes it shows. *)
Theorem C142_value_keeps_its_bytes : forall g evs st j, j < length (snd st) -> sok (fst st) (nth j (snd st) nil_slice) ->
  undisturbed g (nth j (snd st) nil_slice) st evs -> to_bytes (after g st evs) j = to_bytes st j.
Proof.
  intros g evs. induction evs as [|e r IH]; intros st j J T U; [reflexivity|]. destruct U as (M & W & U). cbn [after fold_left].
  destruct (mstep_keeps g st e _ T M W) as (T' & S). destruct (mstep_vals g st e) as (l & V).
  assert (E : nth j (snd (mstep g st e)) nil_slice = nth j (snd st) nil_slice) by (rewrite V; now apply app_nth1).
  change (to_bytes (after g (mstep g st e) r) j = to_bytes st j). rewrite IH.
  - unfold to_bytes. now rewrite E, S.
  - rewrite V, app_length. lia.
  - now rewrite E.
  - now rewrite E.
Qed.
(** The value each call makes, whether or not append works in place. *)
Theorem C142_value_made : forall g m vs e, meant m e ->
  let made := to_bytes (mstep g (m, vs) e) (length vs) in
  match e with
  | MFrom s => made = sbytes m s
  | MOne v H => made = H (to_bytes (m, vs) v)
  | MSum s d => made = sbytes m s ++ d
  | _ => True
  end /\ sok (fst (mstep g (m, vs) e)) (nth (length vs) (snd (mstep g (m, vs) e)) nil_slice).
Proof.
  intros g m vs e M made. subst made. unfold to_bytes. destruct e; cbn [mstep fst snd].
  - split; [exact I|]. rewrite (nth_overflow vs) by apply le_n. apply sok_nil.
  - split; [exact I|]. rewrite (nth_overflow vs) by apply le_n. apply sok_nil.
  - rewrite nth_middle. now split.
  - pose proof (go_append_ok g m nil_slice (H (sbytes m (nth v vs nil_slice))) (sok_nil m)) as K.
    destruct (go_append g m nil_slice (H (sbytes m (nth v vs nil_slice)))) as [m' s]. cbn [fst snd]. rewrite nth_middle.
    destruct K as (K1 & K2). split; auto.
  - pose proof (go_append_ok g m s d M) as K. destruct (go_append g m s d) as [m' s']. cbn [fst snd]. rewrite nth_middle.
    destruct K as (K1 & K2). split; auto.
Qed.
(** When no store happens and the slices given to Sum have no room for the digest (nil, say), no value ever changes. *)
Definition careful (e : mev) : Prop :=
  match e with MStore _ _ _ => False | MSum s d => s_cap s < s_len s + length d | _ => True end.
Fixpoint all_meant (g : nat -> nat -> nat) (st : mem * list slice) (evs : list mev) : Prop :=
  match evs with [] => True | e :: r => meant (fst st) e /\ all_meant g (mstep g st e) r end.
Theorem C142_careful_programs : forall g evs st j, Forall careful evs -> all_meant g st evs -> j < length (snd st) ->
  sok (fst st) (nth j (snd st) nil_slice) -> to_bytes (after g st evs) j = to_bytes st j.
Proof.
  intros g evs st j C A J T. apply C142_value_keeps_its_bytes; auto. clear J T. generalize (nth j (snd st) nil_slice) as t. intros t.
  revert st A. induction C as [|e r Ce C IH]; intros st A; [exact I|]. destruct A as (A1 & A2). cbn [undisturbed]. split; auto. split; [|now apply IH].
  intros k i W. destruct e; cbn [writes careful] in *; try contradiction. lia.
Qed.
(** ** "The bytes of a value do not change": false.  FromBytes keeps the caller's slice: a store through it shows. *)
Theorem C143_frombytes_alias_refuted : forall g m vs s i b, sok m s -> i < s_len s -> nth i (sbytes m s) 0%N <> b ->
  to_bytes (after g (m, vs) [MFrom s]) (length vs) = sbytes m s /\
  nth i (to_bytes (after g (m, vs) [MFrom s; MStore (s_arr s) (s_off s + i) b]) (length vs)) 0%N = b.
Proof.
  intros g m vs s i b (L & H) I _. unfold after, to_bytes. cbn [fold_left mstep fst snd]. rewrite nth_middle. split; [reflexivity|].
  unfold sbytes. rewrite nth_fst by lia. rewrite nth_skp. destruct H as [Z|(A & B)]; [lia|].
  rewrite nth_upd_same by lia. apply nth_upd_same. lia.
Qed.
(** Two Sums into the spare capacity of one slice: the first value now shows the second digest. *)
Theorem C143_sum_alias_refuted : forall g m vs s d d', sok m s -> length d = length d' -> s_len s + length d <= s_cap s ->
  to_bytes (after g (m, vs) [MSum s d]) (length vs) = sbytes m s ++ d /\
  to_bytes (after g (m, vs) [MSum s d; MSum s d']) (length vs) = sbytes m s ++ d'.
Proof.
  intros g m vs s d d' K E R. unfold after, to_bytes. cbn [fold_left mstep].
  pose proof (go_append_ok g m s d K) as P. pose proof (go_append_other g m s d s K K) as Q.
  destruct (go_append g m s d) as [m1 s1] eqn:G. destruct P as (P1 & P2). destruct Q as (Q1 & Q2).
  { intros _ i I (_ & J). lia. }
  cbn [mstep]. pose proof (go_append_ok g m1 s d' Q1) as P'. destruct (go_append g m1 s d') as [m2 s2] eqn:G'. destruct P' as (P1' & P2').
  cbn [fst snd]. rewrite <- app_assoc. split; [rewrite nth_middle; exact P2|].
  assert (S : s1 = s2).
  { unfold go_append in G, G'. rewrite (proj2 (Nat.leb_le _ _) R) in G. rewrite <- E, (proj2 (Nat.leb_le _ _) R) in G'.
    apply (f_equal snd) in G, G'. cbn [snd] in G, G'. now rewrite <- G, <- G'. }
  cbn [app]. rewrite nth_middle, S, P2', Q2. reflexivity.
Qed.
(** ** The one-shot methods: FromBytes(s).X() is the digest of what [s] showed when X was called, whatever the client
    stores in its arrays afterwards. *)
Theorem C142_oneshot_digest_stays : forall g m vs s x stores, sok m s -> named x (sbytes m s) <> [] ->
  Forall (fun e => match e with MStore k _ _ => k < length m | _ => False end) stores ->
  to_bytes (after g (m, vs) (MFrom s :: MOne (length vs) (named x) :: stores)) (S (length vs)) = named x (sbytes m s).
Proof.
  intros g m vs s x stores K NE F. unfold after. cbn [fold_left]. cbn [mstep]. rewrite nth_middle.
  pose proof (go_append_ok g m nil_slice (named x (sbytes m s)) (sok_nil m)) as P.
  destruct (go_append g m nil_slice (named x (sbytes m s))) as [m1 s1] eqn:G. destruct P as (P1 & P2).
  change (fold_left (mstep g) stores (m1, (vs ++ [s]) ++ [s1])) with (after g (m1, (vs ++ [s]) ++ [s1]) stores).
  assert (LL : length (vs ++ [s]) = S (length vs)) by (rewrite app_length; cbn [length]; lia).
  assert (NT : nth (S (length vs)) ((vs ++ [s]) ++ [s1]) nil_slice = s1) by (rewrite <- LL; apply nth_middle).
  assert (A1 : s_arr s1 = length m).
  { unfold go_append in G. cbn [nil_slice s_len s_cap] in G. destruct (0 + length (named x (sbytes m s)) <=? 0) eqn:Z.
    - apply Nat.leb_le in Z. destruct (named x (sbytes m s)); [now elim NE|cbn [length] in Z; lia].
    - inversion G. reflexivity. }
  rewrite C142_value_keeps_its_bytes.
  - unfold to_bytes. cbn [fst snd]. rewrite NT, P2. reflexivity.
  - cbn [snd]. rewrite app_length, LL. cbn [length]. lia.
  - cbn [fst snd]. rewrite NT. exact P1.
  - cbn [snd]. rewrite NT. clear - F A1. generalize (m1, (vs ++ [s]) ++ [s1]) as st. induction F as [|e r Fe F IH]; intros st; [exact I|].
    cbn [undisturbed]. destruct e; try contradiction. split; [exact I|]. split; [|apply IH].
    intros k0 i0 (-> & ->) (Q & _). lia.
Qed.
(** Non-trivial cases: a buffer of 3 bytes in an array of 40, and its digest. *)
Example C142_hyps : let m := [zeros 40] in let s := mksl 0 2 3 38 in
  sok m s /\ 1 < s_len s /\ nth 1 (sbytes m s) 0%N <> 7%N /\ s_len s + 16 <= s_cap s /\ named MD2 (sbytes m s) <> [] /\
  all_meant (fun _ _ => 5) (m, [s]) [MSum (mksl 0 0 0 0) [1; 2]%N; MFrom s; MOne 0 (named MD2)] /\
  undisturbed (fun _ _ => 5) s (m, [s]) [MSum s (zeros 16); MStore 0 1 9%N; MOne 0 (named MD2)].
Proof.
  cbv zeta. assert (K : sok [zeros 40] (mksl 0 2 3 38)) by (split; cbn; [lia|right; lia]).
  split; [exact K|]. split; [cbn; lia|]. split; [cbn; discriminate|]. split; [cbn; lia|].
  split. { cbn [named]. intros E. assert (L : length (rfc1319_md2 (sbytes [zeros 40] (mksl 0 2 3 38))) = 16) by reflexivity. rewrite E in L. discriminate. }
  split.
  - cbn [all_meant meant]. split; [apply sok_nil|]. split; [|now split]. cbn [mstep]. apply sok_ext. exact K.
  - cbn [undisturbed meant writes]. split; [exact K|]. split.
    { intros k i (_ & _ & A) (_ & B). cbn in A, B. lia. }
    split; [exact I|]. split. { intros k i (-> & ->) (_ & B). cbn in B. lia. }
    split; [exact I|]. split; [|exact I]. intros k i [].
Qed.
