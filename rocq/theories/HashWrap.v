(** HashWrap.v -- model of the wrapper package /repo/hash: LeftCRCPadding, DataSet, TypeSet,
    the RWMutex protocol of DataSet, and the error field of call chains. *)
From Coq Require Import List NArith Arith Lia Bool.
From Verif Require Import Base Crc16.
Import ListNotations.

(** hash/hash_helper.go:15-31 LeftCRCPadding (text as bytes; size < 1 is size = 0 here). *)
Definition LeftCRCPadding (text : list N) (size : nat) : list N :=
  let n := length text in
  if (n =? 0) || (size <? 1) then text
  else
    let paddingSize := size - n mod size in
    if paddingSize =? size then text
    else repeat 48%N paddingSize ++ text.

Lemma LeftCRCPadding_lemma : forall text size, 0 < size ->
  exists k, LeftCRCPadding text size = repeat 48%N k ++ text /\ k < size /\
            length (LeftCRCPadding text size) mod size = 0 /\
            (forall j, (j + length text) mod size = 0 -> k <= j).
Proof.
  intros text size Hs. unfold LeftCRCPadding.
  assert (Hm : length text mod size < size) by (apply Nat.mod_upper_bound; lia).
  destruct (Nat.eqb_spec (length text) 0) as [e|e].
  { exists 0. simpl. rewrite e. repeat split; try lia. apply Nat.mod_0_l. lia. }
  destruct (Nat.ltb_spec size 1); [lia|]. cbn [orb].
  destruct (Nat.eqb_spec (size - length text mod size) size) as [f|f].
  - exists 0. simpl. repeat split; try lia.
  - exists (size - length text mod size).
    assert (Hpos : 0 < length text mod size) by lia.
    repeat split; try lia.
    + rewrite app_length, repeat_length.
      rewrite (Nat.div_mod (length text) size) at 2 by lia.
      replace (size - length text mod size + (size * (length text / size) + length text mod size))
        with ((1 + length text / size) * size) by lia.
      apply Nat.mod_mul. lia.
    + intros j Hj.
      destruct (Nat.le_gt_cases (size - length text mod size) j); auto. exfalso.
      rewrite Nat.add_mod in Hj by lia. rewrite (Nat.mod_small j) in Hj by lia.
      rewrite Nat.mod_small in Hj by lia. lia.
Qed.

(** ** DataSet: hash/hash_data_set.go.  The Go map is an association list without duplicate keys;
    iteration order (Names) is unspecified in Go, so theorems speak about membership only. *)
Section DataSet.
Variables K V : Type.
Variable eqb : K -> K -> bool.
Hypothesis eqb_spec : forall a b, reflect (a = b) (eqb a b).

Definition ds := list (K * V).
(** hash_data_set.go:26-30 *)
Definition ds_new : ds := [].
(** hash_data_set.go:65-72 Remove: delete(this.data, name) *)
Definition ds_remove (d : ds) (k : K) : ds := filter (fun p => negb (eqb (fst p) k)) d.
(** hash_data_set.go:33-40 Add: this.data[name] = data *)
Definition ds_add (d : ds) (k : K) (v : V) : ds := (k, v) :: ds_remove d k.
(** hash_data_set.go:53-62 Get (nil = None) *)
Definition ds_get (d : ds) (k : K) : option V := option_map snd (find (fun p => eqb (fst p) k) d).
(** hash_data_set.go:42-51 Has *)
Definition ds_has (d : ds) (k : K) : bool := if find (fun p => eqb (fst p) k) d then true else false.
(** hash_data_set.go:74-81 Names *)
Definition ds_names (d : ds) : list K := map fst d.
(** hash_data_set.go:87-94 Clean: deletes every name of the range *)
Definition ds_clean (d : ds) : ds := fold_left ds_remove (ds_names d) d.
(** hash_data_set.go:96-98 Len *)
Definition ds_len (d : ds) : nat := length d.

Inductive ds_op := DAdd (k : K) (v : V) | DRemove (k : K) | DClean.
Definition ds_step (d : ds) (o : ds_op) : ds :=
  match o with DAdd k v => ds_add d k v | DRemove k => ds_remove d k | DClean => ds_clean d end.

(** Specification: a partial function. *)
Definition fm_step (m : K -> option V) (o : ds_op) : K -> option V :=
  match o with
  | DAdd k v => fun x => if eqb x k then Some v else m x
  | DRemove k => fun x => if eqb x k then None else m x
  | DClean => fun _ => None
  end.

Lemma ds_get_remove : forall d k x, ds_get (ds_remove d k) x = if eqb x k then None else ds_get d x.
Proof.
  intros. unfold ds_get, ds_remove. induction d as [|[a v] d IH]; simpl.
  - now destruct (eqb x k).
  - destruct (eqb_spec a k) as [->|Hn]; simpl.
    + rewrite IH. destruct (eqb_spec x k) as [Hx|Hx]; [reflexivity|].
      destruct (eqb_spec k x); [congruence|]. reflexivity.
    + destruct (eqb_spec a x) as [->|Hax]; simpl; auto.
      destruct (eqb_spec x k); [congruence|]. reflexivity.
Qed.
Lemma ds_get_none : forall d k, ds_get d k = None <-> ~ In k (ds_names d).
Proof.
  unfold ds_get, ds_names. induction d as [|[a v] d IH]; simpl; intros.
  - tauto.
  - destruct (eqb_spec a k) as [->|H]; simpl.
    + split; [discriminate|]. intros X. exfalso. apply X. auto.
    + rewrite IH. tauto.
Qed.
Lemma ds_has_get : forall d k, ds_has d k = true <-> ds_get d k <> None.
Proof. intros. unfold ds_has, ds_get. destruct (find _ d); simpl; split; congruence. Qed.
Lemma ds_remove_nil : forall ks d, (forall k, In k (ds_names d) -> In k ks) -> fold_left ds_remove ks d = [].
Proof.
  induction ks as [|k ks IH]; intros d H; simpl.
  - destruct d as [|p d]; auto. exfalso. apply (H (fst p)). simpl. auto.
  - apply IH. intros x Hx. unfold ds_names, ds_remove in Hx. apply in_map_iff in Hx.
    destruct Hx as (p & <- & Hp). apply filter_In in Hp. destruct Hp as [Hp Hk].
    destruct (eqb_spec (fst p) k); [discriminate|].
    assert (In (fst p) (k :: ks)) as [|]; auto; [|congruence].
    apply H. now apply in_map.
Qed.
Lemma ds_nodup_remove : forall d k, NoDup (ds_names d) -> NoDup (ds_names (ds_remove d k)).
Proof.
  unfold ds_names, ds_remove. induction d as [|[a v] d IH]; simpl; intros k H; auto.
  inversion H; subst. destruct (eqb a k); simpl; auto. constructor; auto.
  intros X. apply H2. apply in_map_iff in X. destruct X as (p & E & Hp). apply filter_In in Hp.
  rewrite <- E. now apply in_map.
Qed.
Definition ds_inv (d : ds) (m : K -> option V) : Prop := NoDup (ds_names d) /\ forall k, ds_get d k = m k.
Lemma ds_step_inv : forall d m o, ds_inv d m -> ds_inv (ds_step d o) (fm_step m o).
Proof.
  intros d m o [Hn Hg]. destruct o as [k v|k|]; simpl.
  - split.
    + unfold ds_add, ds_names. simpl. constructor; [|now apply ds_nodup_remove].
      change (~ In k (ds_names (ds_remove d k))). apply ds_get_none. rewrite ds_get_remove.
      destruct (eqb_spec k k); congruence.
    + intros x. unfold ds_add. unfold ds_get at 1. simpl.
      destruct (eqb_spec k x) as [->|Hx]; simpl.
      * destruct (eqb_spec x x); congruence.
      * destruct (eqb_spec x k); [congruence|]. fold (ds_get (ds_remove d k) x).
        rewrite ds_get_remove. destruct (eqb_spec x k); [congruence|]. apply Hg.
  - split; [now apply ds_nodup_remove|]. intros x. rewrite ds_get_remove. now destruct (eqb x k).
  - unfold ds_clean. rewrite ds_remove_nil by auto. split; [constructor|]. reflexivity.
Qed.
Lemma ds_lemma : forall ops,
  let d := fold_left ds_step ops ds_new in
  let m := fold_left fm_step ops (fun _ => None) in
  (forall k, ds_get d k = m k) /\
  (forall k, ds_has d k = true <-> m k <> None) /\
  (forall k, In k (ds_names d) <-> m k <> None) /\
  NoDup (ds_names d) /\ ds_len d = length (ds_names d).
Proof.
  intros ops. cbv zeta.
  assert (H : forall ops d m, ds_inv d m -> ds_inv (fold_left ds_step ops d) (fold_left fm_step ops m)).
  { clear ops. induction ops as [|o ops IH]; simpl; intros; auto. apply IH. now apply ds_step_inv. }
  specialize (H ops ds_new (fun _ => None)). destruct H as [Hn Hg].
  { split; [constructor|reflexivity]. }
  repeat split; auto.
  - intros X. rewrite <- Hg. now apply ds_has_get.
  - intros X. apply ds_has_get. now rewrite Hg.
  - intros X Y. rewrite <- Hg in Y. apply ds_get_none in Y. auto.
  - intros X. destruct (in_dec (fun a b => match eqb_spec a b with ReflectT _ e => left e | ReflectF _ n => right n end) k (ds_names (fold_left ds_step ops ds_new))); auto.
    exfalso. apply X. rewrite <- Hg. now apply ds_get_none.
  - unfold ds_len, ds_names. now rewrite map_length.
Qed.
End DataSet.

(** ** TypeSet.Generate: hash/hash_type_set.go:27-32 (N = uint, 64 bit). *)
Definition generate (max : N) : N * N := (w64 (max + 1), max).
Fixpoint generate_n (n : nat) (max : N) : list N :=
  match n with
  | O => []
  | S n' => let '(max', id) := generate max in id :: generate_n n' max'
  end.
Lemma generate_nth : forall n max i, i < n -> (max < 2 ^ 64)%N ->
  nth i (generate_n n max) 0%N = ((max + N.of_nat i) mod 2 ^ 64)%N.
Proof.
  induction n; intros max i Hi Hm; [lia|]. simpl.
  destruct i as [|i].
  - simpl. rewrite N.add_0_r, N.mod_small; auto.
  - rewrite IHn; [|lia|apply w64_lt]. rewrite w64_mod.
    change 18446744073709551616%N with (2 ^ 64)%N.
    rewrite N.add_mod_idemp_l by discriminate. f_equal. lia.
Qed.
Lemma generate_length : forall n max, length (generate_n n max) = n.
Proof. induction n; simpl; auto. Qed.
Lemma generate_distinct : forall n max, (max < 2 ^ 64)%N -> (N.of_nat n <= 2 ^ 64)%N -> NoDup (generate_n n max).
Proof.
  intros n max Hm Hn. apply (NoDup_nth _ 0%N). rewrite generate_length. intros i j Hi Hj E.
  rewrite !generate_nth in E by assumption.
  assert (K : forall x, ((max + x) mod 2 ^ 64 = if (max + x <? 2 ^ 64) then max + x else max + x - 2 ^ 64)%N \/ (x >= 2 ^ 64)%N).
  { intros x. destruct (N.lt_ge_cases x (2 ^ 64)); [left|right; lia].
    destruct (N.ltb_spec (max + x) (2 ^ 64)%N).
    - now apply N.mod_small.
    - symmetry. apply (N.mod_unique _ _ 1%N); lia. }
  destruct (K (N.of_nat i)) as [Ki|]; [|lia]. destruct (K (N.of_nat j)) as [Kj|]; [|lia].
  rewrite Ki, Kj in E.
  destruct (N.ltb_spec (max + N.of_nat i) (2 ^ 64)%N), (N.ltb_spec (max + N.of_nat j) (2 ^ 64)%N); lia.
Qed.

(** ** Locking protocol of DataSet *)
Inductive act := ALock | AUnlock | ARLock | ARUnlock | ARead | AWrite.
Inductive meth := MAdd | MHas | MGet | MRemove | MClean | MNames | MAll | MLen.
(** The accesses each method makes, in order, with the lock calls around them
    (hash_data_set.go:33-98): Names, All and Len take no lock. *)
Definition meth_acts (m : meth) : list act :=
  match m with
  | MAdd => [ALock; AWrite; AUnlock]            (* :34-37 *)
  | MHas => [ARLock; ARead; ARUnlock]           (* :43-46 *)
  | MGet => [ARLock; ARead; ARUnlock]           (* :54-57 *)
  | MRemove => [ALock; AWrite; AUnlock]         (* :66-69 *)
  | MClean => [ALock; ARead; AWrite; AUnlock]   (* :88-93 *)
  | MNames => [ARead]                           (* :74-81 *)
  | MAll => [ARead]                             (* :83-85 *)
  | MLen => [ARead]                             (* :96-98 *)
  end.
(** Shared state: the RWMutex (writer flag, reader count) and what each goroutine has left. *)
Record world := mkworld { wlock : bool; rcount : nat; threads : list (list act) }.
Inductive wstep : world -> world -> Prop :=
| wstep_lock : forall r pre post t, r = 0 ->
    wstep (mkworld false r (pre ++ (ALock :: t) :: post)) (mkworld true r (pre ++ t :: post))
| wstep_unlock : forall w r pre post t,
    wstep (mkworld w r (pre ++ (AUnlock :: t) :: post)) (mkworld false r (pre ++ t :: post))
| wstep_rlock : forall r pre post t,
    wstep (mkworld false r (pre ++ (ARLock :: t) :: post)) (mkworld false (S r) (pre ++ t :: post))
| wstep_runlock : forall w r pre post t,
    wstep (mkworld w r (pre ++ (ARUnlock :: t) :: post)) (mkworld w (r - 1) (pre ++ t :: post))
| wstep_read : forall w r pre post t,
    wstep (mkworld w r (pre ++ (ARead :: t) :: post)) (mkworld w r (pre ++ t :: post))
| wstep_write : forall w r pre post t,
    wstep (mkworld w r (pre ++ (AWrite :: t) :: post)) (mkworld w r (pre ++ t :: post)).
Inductive wsteps : world -> world -> Prop :=
| wsteps_refl : forall a, wsteps a a
| wsteps_trans : forall a b c, wsteps a b -> wstep b c -> wsteps a c.
Definition start (progs : list (list meth)) : world :=
  mkworld false 0 (map (fun p => concat (map meth_acts p)) progs).
(** A data race: two goroutines are both about to access the map and one access is a write. *)
Definition race (s : world) : Prop :=
  exists pre mid post t1 t2 a1 a2,
    threads s = pre ++ (a1 :: t1) :: mid ++ (a2 :: t2) :: post /\
    ((a1 = AWrite /\ (a2 = AWrite \/ a2 = ARead)) \/ (a1 = ARead /\ a2 = AWrite)).

Inductive hold := HNone | HR | HW.
Fixpoint wf (h : hold) (t : list act) : Prop :=
  match t with
  | [] => h = HNone
  | a :: t' =>
    match h, a with
    | HNone, ALock => wf HW t'
    | HNone, ARLock => wf HR t'
    | HW, AUnlock => wf HNone t'
    | HR, ARUnlock => wf HNone t'
    | HW, AWrite => wf HW t'
    | HW, ARead => wf HW t'
    | HR, ARead => wf HR t'
    | _, _ => False
    end
  end.
Definition locked (m : meth) : Prop := m <> MNames /\ m <> MAll /\ m <> MLen.
Lemma wf_app : forall a h t, wf h a -> wf HNone t -> wf h (a ++ t).
Proof.
  induction a as [|x a IH]; simpl; intros h t Ha Ht; [now subst|].
  destruct h, x; auto; contradiction.
Qed.
Lemma wf_prog : forall p, Forall locked p -> wf HNone (concat (map meth_acts p)).
Proof.
  induction p as [|m p IH]; intros H; [reflexivity|]. inversion H as [|? ? [H1 [H2 H3]] H4]; subst. simpl.
  apply wf_app; auto. destruct m; try congruence; simpl; auto.
Qed.
Definition isW (h : hold) := match h with HW => 1 | _ => 0 end.
Definition isR (h : hold) := match h with HR => 1 | _ => 0 end.
Definition cnt (f : hold -> nat) (hs : list hold) := list_sum (map f hs).
Definition winv (s : world) : Prop :=
  exists hs, Forall2 wf hs (threads s) /\ rcount s = cnt isR hs /\
    (if wlock s then cnt isW hs = 1 /\ cnt isR hs = 0 else cnt isW hs = 0).
Lemma cnt_app : forall f a b, cnt f (a ++ b) = cnt f a + cnt f b.
Proof. intros. unfold cnt. rewrite map_app. apply list_sum_app. Qed.
Lemma cnt_cons : forall f h b, cnt f (h :: b) = f h + cnt f b.
Proof. reflexivity. Qed.

Lemma winv_step : forall a b, winv a -> wstep a b -> winv b.
Proof.
  intros a b (hs & F & R & W) S.
  inversion S; subst; simpl in *; apply Forall2_app_inv_r in F;
  destruct F as (h1 & h2' & F1 & F2 & ->); inversion F2 as [|h ? h2 ? Fh F3]; subst;
  rewrite !cnt_app, !cnt_cons in *;
  destruct h; simpl in Fh; try contradiction; cbn [isR isW] in *.
  - exists (h1 ++ HW :: h2). split; [apply Forall2_app; auto; constructor; auto|].
    rewrite !cnt_app, !cnt_cons. cbn [isR isW rcount wlock]. repeat split; lia.
  - exists (h1 ++ HNone :: h2). split; [apply Forall2_app; auto; constructor; auto|].
    rewrite !cnt_app, !cnt_cons. cbn [isR isW rcount wlock]. destruct w; lia.
  - exists (h1 ++ HR :: h2). split; [apply Forall2_app; auto; constructor; auto|].
    rewrite !cnt_app, !cnt_cons. cbn [isR isW rcount wlock]. lia.
  - exists (h1 ++ HNone :: h2). split; [apply Forall2_app; auto; constructor; auto|].
    rewrite !cnt_app, !cnt_cons. cbn [isR isW rcount wlock]. destruct w; lia.
  - exists (h1 ++ HR :: h2). split; [apply Forall2_app; auto; constructor; auto|].
    rewrite !cnt_app, !cnt_cons. cbn [isR isW rcount wlock]. destruct w; lia.
  - exists (h1 ++ HW :: h2). split; [apply Forall2_app; auto; constructor; auto|].
    rewrite !cnt_app, !cnt_cons. cbn [isR isW rcount wlock]. destruct w; lia.
  - exists (h1 ++ HW :: h2). split; [apply Forall2_app; auto; constructor; auto|].
    rewrite !cnt_app, !cnt_cons. cbn [isR isW rcount wlock]. destruct w; lia.
Qed.
Lemma winv_start : forall progs, Forall (Forall locked) progs -> winv (start progs).
Proof.
  intros progs H. exists (map (fun _ => HNone) progs). unfold start; simpl. split; [|split].
  - induction H; simpl; constructor; auto. now apply wf_prog.
  - induction progs; simpl; auto. inversion H; auto.
  - induction progs; simpl; auto. inversion H; auto.
Qed.
Lemma winv_reach : forall progs s, Forall (Forall locked) progs -> wsteps (start progs) s -> winv s.
Proof.
  intros progs s H S. remember (start progs) as s0. revert Heqs0.
  induction S; intros; subst.
  - now apply winv_start.
  - eapply winv_step; eauto.
Qed.
Lemma winv_no_race : forall s, winv s -> ~ race s.
Proof.
  intros s (hs & F & R & W) (pre & mid & post & t1 & t2 & a1 & a2 & E & C).
  rewrite E in F. apply Forall2_app_inv_r in F. destruct F as (h1 & h2' & F1 & F2 & ->).
  inversion F2 as [|ha ? h2 ? Fa F3]; subst. apply Forall2_app_inv_r in F3.
  destruct F3 as (h3 & h4' & F4 & F5 & ->). inversion F5 as [|hb ? h4 ? Fb F6]; subst.
  rewrite !cnt_app, !cnt_cons, !cnt_app, !cnt_cons in *.
  destruct C as [[-> [-> | ->]]|[-> ->]]; destruct ha; simpl in Fa; try contradiction;
  destruct hb; simpl in Fb; try contradiction; cbn [isR isW] in *; destruct (wlock s); lia.
Qed.
Lemma dataset_race_free_lemma : forall progs s, Forall (Forall locked) progs -> wsteps (start progs) s -> ~ race s.
Proof. intros. apply winv_no_race. eapply winv_reach; eauto. Qed.

(** No deadlock: as long as some goroutine is not finished, some goroutine can move. *)
Lemma cnt_pos_split : forall f hs ts, Forall2 wf hs ts -> 0 < cnt f hs -> (forall h, f h <= 1) ->
  exists h1 h h2 t1 t t2, hs = h1 ++ h :: h2 /\ ts = t1 ++ t :: t2 /\ f h = 1 /\ wf h t.
Proof.
  intros f hs ts F. induction F as [|h t hs ts Hw F IH]; intros P B.
  - unfold cnt in P. simpl in P. lia.
  - rewrite cnt_cons in P. pose proof (B h). destruct (Nat.eq_dec (f h) 1).
    + exists [], h, hs, [], t, ts. auto.
    + destruct IH as (h1 & h' & h2 & t1 & t' & t2 & -> & -> & ? & ?); auto; [lia|].
      exists (h :: h1), h', h2, (t :: t1), t', t2. auto.
Qed.
Lemma winv_progress : forall s, winv s -> (exists t, In t (threads s) /\ t <> []) -> exists s', wstep s s'.
Proof.
  intros [w r ts] (hs & F & R & W) (t & Hin & Hne). simpl in *.
  destruct w.
  - destruct W as [W _].
    destruct (cnt_pos_split isW hs ts F) as (h1 & h & h2 & t1 & t' & t2 & -> & -> & H1 & H2).
    lia. intros []; simpl; lia.
    destruct h; try discriminate. destruct t' as [|a t']; [discriminate|].
    destruct a; simpl in H2; try contradiction; eexists; constructor.
  - destruct (Nat.eq_dec r 0) as [->|Hr].
    + apply in_split in Hin. destruct Hin as (t1 & t2 & ->).
      apply Forall2_app_inv_r in F. destruct F as (h1 & h2' & F1 & F2 & ->).
      inversion F2 as [|h ? h2 ? Fh F3]; subst. destruct t as [|a t]; [congruence|].
      rewrite cnt_app, cnt_cons in R, W.
      destruct h; simpl in R, W; try lia. destruct a; simpl in Fh; try contradiction.
      * eexists. apply wstep_lock. reflexivity.
      * eexists. apply wstep_rlock.
    + destruct (cnt_pos_split isR hs ts F) as (h1 & h & h2 & t1 & t' & t2 & -> & -> & H1 & H2).
      lia. intros []; simpl; lia.
      destruct h; try discriminate. destruct t' as [|a t']; [discriminate|].
      destruct a; simpl in H2; try contradiction; eexists; constructor.
Qed.
Lemma dataset_no_deadlock_lemma : forall progs s, Forall (Forall locked) progs -> wsteps (start progs) s ->
  (exists t, In t (threads s) /\ t <> []) -> exists s', wstep s s'.
Proof. intros. apply winv_progress; auto. eapply winv_reach; eauto. Qed.

(** Len (or Names, All) concurrent with Add reaches a race. *)
Lemma dataset_race_refuted_lemma : forall m, m = MNames \/ m = MAll \/ m = MLen ->
  exists s, wsteps (start [[m]; [MAdd]]) s /\ race s.
Proof.
  intros m Hm. exists (mkworld true 0 [[ARead]; [AWrite; AUnlock]]). split.
  - apply wsteps_trans with (start [[m]; [MAdd]]); [apply wsteps_refl|].
    assert (start [[m]; [MAdd]] = mkworld false 0 ([[ARead]] ++ (ALock :: [AWrite; AUnlock]) :: [])) as ->
      by (destruct Hm as [->|[->| ->]]; reflexivity).
    apply (wstep_lock 0 [[ARead]] []). reflexivity.
  - exists [], [], [], [], [AUnlock], ARead, AWrite. simpl. auto.
Qed.

(** ** Chains: hash/hash.go:22-31 struct Hash (data, Error). *)
Record wrap := mkwrap { wdata : list N; werr : bool }.
(** encoding/hex.DecodeString: the bytes decoded before the first problem, and whether there was one. *)
Fixpoint hex_decode_partial (s : list N) : list N * bool :=
  match s with
  | [] => ([], false)
  | [_] => ([], true)
  | a :: b :: t =>
    match unhex a, unhex b with
    | Some x, Some y => let '(r, e) := hex_decode_partial t in ((16 * x + y)%N :: r, e)
    | _, _ => ([], true)
    end
  end.
Inductive wop :=
| FromBytes (d : list N)               (* hash_from.go:9-13 *)
| FromHexString (s : list N)           (* hash_from.go:45-49 *)
| ChecksumW (h : list N -> list N)     (* hash.go:76-82, and MD5(), SM3() ... which are instances *)
| FuncHash (f : list N -> list N * bool)   (* hash.go:85-89, also SumBy with a registered mode (hash_use.go:56-66) *)
| SumByUnknown                         (* hash_use.go:57-61 *)
| CRC16X25.                            (* crc16.go:9-15 *)
Definition wrap_step (w : wrap) (o : wop) : wrap :=
  match o with
  | FromBytes d => mkwrap d (werr w)
  | FromHexString s => let '(d, e) := hex_decode_partial s in mkwrap d e
  | ChecksumW h => mkwrap (h (wdata w)) (werr w)
  | FuncHash f => let '(d, e) := f (wdata w) in mkwrap d e
  | SumByUnknown => mkwrap (wdata w) true
  | CRC16X25 => let '(d, e) := hex_decode_partial (x25_Checksum (wdata w)) in mkwrap d e
  end.
Definition wrap_new : wrap := mkwrap [] false.
(** A chain reports an error (GetError) at the end whenever some call in it failed. *)
Fixpoint some_call_failed (w : wrap) (ops : list wop) : bool :=
  match ops with
  | [] => false
  | o :: t => let w' := wrap_step (mkwrap (wdata w) false) o in werr w' || some_call_failed w' t
  end.
Definition keeps_error (o : wop) : bool := match o with FromBytes _ | ChecksumW _ | SumByUnknown => true | _ => false end.

Lemma wrap_error_lost_lemma : exists ops, some_call_failed wrap_new ops = true /\
  werr (fold_left wrap_step ops wrap_new) = false.
Proof. exists [FromHexString [52; 49; 122; 122]%N; CRC16X25]. vm_compute. auto. Qed.
Lemma wrap_keeps_lemma : forall ops w, forallb keeps_error ops = true -> werr w = true ->
  werr (fold_left wrap_step ops w) = true.
Proof.
  induction ops as [|o ops IH]; intros w H E; auto. simpl in H. apply andb_prop in H. destruct H.
  simpl. apply IH; auto. destruct o; try discriminate; auto.
Qed.
Lemma hex_partial_complete : forall s, snd (hex_decode_partial s) = false <-> hex_decode s <> None.
Proof.
  intros s. remember (length s) as n eqn:L. revert s L.
  induction n as [n IH] using lt_wf_ind. intros s L.
  destruct s as [|a [|b t]]; simpl; try (split; congruence).
  specialize (IH (length t)). simpl in L. specialize (IH ltac:(lia) t eq_refl).
  destruct (unhex a), (unhex b); simpl; try (split; congruence).
  destruct (hex_decode_partial t) as [r e]; simpl in *.
  destruct (hex_decode t); split; intros X; try congruence.
  - apply IH. discriminate.
  - apply IH in X. congruence.
Qed.
