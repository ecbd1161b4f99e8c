(** Fluent.v -- model of the call chains of /repo/hash: the struct Hash (hash.go:22-31) is passed by
    value, its field [hash] is a pointer to a hash.Hash object shared by every copy. *)
From Coq Require Import List NArith Arith Lia Bool.
From Verif Require Import Base HashAPI.
Import ListNotations.

(** A constructor of the library: the object it makes and how the three methods act on it. *)
Record alg : Type := mkalg { a_state : Type; a_impl : impl a_state; a_new : a_state }.
(** An object: which type it has, and its state. *)
Record obj : Type := mkobj { o_alg : alg; o_st : a_state o_alg }.
Definition o_new (a : alg) : obj := mkobj a (a_new a).
Definition o_write (o : obj) (p : list N) : obj := mkobj (o_alg o) (fst (i_write (a_impl (o_alg o)) (o_st o) p)).
Definition o_sum (o : obj) (i : list N) : obj * list N :=
  let '(s, out) := i_sum (a_impl (o_alg o)) (o_st o) i in (mkobj (o_alg o) s, out).
Definition o_reset (o : obj) : obj := mkobj (o_alg o) (i_reset (a_impl (o_alg o)) (o_st o)).

(** hash/hash.go:22-31; the pointer is an index in the heap, None = nil.  Slices are values here (FluentMem.v has them as windows of arrays): the
    buffers a client passes are assumed not to be shared with other slices. *)
Record hv := mkhv { h_data : list N; h_ref : option nat; h_err : bool }.
(** hash/hash.go:34-36 NewHash *)
Definition hv_new : hv := mkhv [] None false.

(** [A]: the constructors of the library. *)
Inductive call (A : Type) :=
| CFromBytes (d : list N)
| CNew (a : A)
| COne (a : A)
| CNewHash (v : nat)
| CChecksum (v : nat)
| CWrite (p : list N)
| CWriteReader (chunks : list (list N)) (fails : bool)
| CSum (i : list N)
| CReset.
Arguments CFromBytes {A}. Arguments CNew {A}. Arguments COne {A}. Arguments CNewHash {A}. Arguments CChecksum {A}.
Arguments CWrite {A}. Arguments CWriteReader {A}. Arguments CSum {A}. Arguments CReset {A}.

Section Machine.
Variable A : Type.
Variable algs : A -> alg.

(** The calls on a value [x], [vars] the values made before; None = panic (nil interface). *)
Definition call_step (heap : list obj) (vars : list hv) (x : hv) (c : call A) : option (list obj * hv) :=
  let on (r : option nat) (f : nat -> obj -> option (list obj * hv)) :=
    match r with None => None | Some k => match nth_error heap k with None => None | Some o => f k o end end in
  match c with
  (* hash/hash_from.go:9-13 FromBytes *)
  | CFromBytes d => Some (heap, mkhv d (h_ref x) (h_err x))
  (* NewMD2(), NewSM3(), ... (hash/md2.go:18-22 and the like): this.hash = pkg.New() *)
  | CNew a => Some (heap ++ [o_new (algs a)], mkhv (h_data x) (Some (length heap)) (h_err x))
  (* MD2(), SM3(), ... (hash/md2.go:8-15 and the like): h := pkg.New(); h.Write(this.data); this.data = h.Sum(nil) *)
  | COne a => Some (heap, mkhv (snd (o_sum (o_write (o_new (algs a)) (h_data x)) [])) (h_ref x) (h_err x))
  (* hash/hash.go:69-73 NewHash(v.Hash()), hash_sum.go:78-80 Hash *)
  | CNewHash v => Some (heap, mkhv (h_data x) (h_ref (nth v vars hv_new)) (h_err x))
  (* hash/hash.go:76-82 Checksum(v.Hash()) *)
  | CChecksum v => on (h_ref (nth v vars hv_new)) (fun k o =>
      let '(o', out) := o_sum (o_write o (h_data x)) [] in
      Some (upd heap k o', mkhv out (h_ref x) (h_err x)))
  (* hash/hash_sum.go:9-13 Write, 16-21 WriteString *)
  | CWrite p => on (h_ref x) (fun k o => Some (upd heap k (o_write o p), x))
  (* hash/hash_sum.go:24-37 WriteReader: io.Copy writes what each Read returned, and stops at the error *)
  | CWriteReader cs fails => on (h_ref x) (fun k o =>
      Some (upd heap k (fold_left o_write cs o), mkhv (h_data x) (h_ref x) (h_err x || fails)))
  (* hash/hash_sum.go:40-44 Sum *)
  | CSum i => on (h_ref x) (fun k o =>
      let '(o', out) := o_sum o i in Some (upd heap k o', mkhv out (h_ref x) (h_err x)))
  (* hash/hash_sum.go:65-69 Reset *)
  | CReset => on (h_ref x) (fun k o => Some (upd heap k (o_reset o), x))
  end.
(** A program: each instruction calls a method on an earlier value (0 is NewHash()), the result is the
    next value. *)
Fixpoint prog_run (heap : list obj) (vars : list hv) (p : list (nat * call A)) : option (list hv) :=
  match p with
  | [] => Some vars
  | (s, c) :: t => match call_step heap vars (nth s vars hv_new) c with
                   | None => None
                   | Some (heap', y) => prog_run heap' (vars ++ [y]) t
                   end
  end.
End Machine.
Arguments call_step {A}. Arguments prog_run {A}.

(** ** Specification.  A log of what was written to each object, in program order. *)
Inductive event := EWrite (obj : nat) (p : list N) | EReset (obj : nat).
(** What object [k] has absorbed since it was made or last Reset. *)
Fixpoint absorbed (k : nat) (m : list N) (log : list event) : list N :=
  match log with
  | [] => m
  | EWrite j p :: t => absorbed k (if j =? k then m ++ p else m) t
  | EReset j :: t => absorbed k (if j =? k then [] else m) t
  end.
Definition no_hash : list N -> list N := fun _ => [].
Section Spec.
Variable A : Type.
(** The hash function of each constructor. *)
Variable H : A -> list N -> list N.
(** [made]: the hash function of each object; [log]: the events so far.  The value [x] is (bytes, object,
    error). *)
Definition spec_step (made : list (list N -> list N)) (log : list event) (vars : list hv) (x : hv) (c : call A)
  : option (list (list N -> list N) * list event * hv) :=
  match c with
  | CFromBytes d => Some (made, log, mkhv d (h_ref x) (h_err x))
  | CNew a => Some (made ++ [H a], log, mkhv (h_data x) (Some (length made)) (h_err x))
  | COne a => Some (made, log, mkhv (H a (h_data x)) (h_ref x) (h_err x))
  | CNewHash v => Some (made, log, mkhv (h_data x) (h_ref (nth v vars hv_new)) (h_err x))
  | CChecksum v =>
      match h_ref (nth v vars hv_new) with
      | None => None
      | Some k => let log' := log ++ [EWrite k (h_data x)] in
                  Some (made, log', mkhv (nth k made no_hash (absorbed k [] log')) (h_ref x) (h_err x))
      end
  | CWrite p => match h_ref x with None => None | Some k => Some (made, log ++ [EWrite k p], x) end
  | CWriteReader cs fails =>
      match h_ref x with
      | None => None
      | Some k => Some (made, log ++ [EWrite k (concat cs)], mkhv (h_data x) (h_ref x) (h_err x || fails))
      end
  | CSum i =>
      match h_ref x with
      | None => None
      | Some k => Some (made, log, mkhv (i ++ nth k made no_hash (absorbed k [] log)) (h_ref x) (h_err x))
      end
  | CReset => match h_ref x with None => None | Some k => Some (made, log ++ [EReset k], x) end
  end.
Fixpoint spec_run (made : list (list N -> list N)) (log : list event) (vars : list hv) (p : list (nat * call A)) : option (list hv) :=
  match p with
  | [] => Some vars
  | (s, c) :: t => match spec_step made log vars (nth s vars hv_new) c with
                   | None => None
                   | Some (made', log', y) => spec_run made' log' (vars ++ [y]) t
                   end
  end.
End Spec.
Arguments spec_step {A}. Arguments spec_run {A}.

(** The hash.Hash contract of a constructor. *)
Definition meets (a : alg) (H : list N -> list N) : Prop :=
  forall ops, run (a_impl a) (a_new a) ops = ideal_run H [] ops.

(** * Proofs *)
Definition obj_rel (H : list N -> list N) (o : obj) (m : list N) : Prop :=
  forall ops, run (a_impl (o_alg o)) (o_st o) ops = ideal_run H m ops.
Lemma o_write_rel : forall H o m p, obj_rel H o m -> obj_rel H (o_write o p) (m ++ p).
Proof.
  intros H o m p R ops. specialize (R (Write p :: ops)). cbn [run ideal_run] in R. unfold o_write. cbn [o_alg o_st].
  destruct (i_write _ _ p) as [d n]. cbn [fst]. injection R. auto.
Qed.
Lemma o_sum_rel : forall H o m i, obj_rel H o m -> obj_rel H (fst (o_sum o i)) m /\ snd (o_sum o i) = i ++ H m.
Proof.
  intros H o m i R. unfold o_sum. assert (K : forall ops, run (a_impl (o_alg o)) (o_st o) (Sum i :: ops) = ideal_run H m (Sum i :: ops)) by (intros; apply R).
  destruct (i_sum _ _ i) as [d out] eqn:E. cbn [fst snd].
  assert (K' : forall ops, Summed out = Summed (i ++ H m) /\ run (a_impl (o_alg o)) d ops = ideal_run H m ops).
  { intros ops. specialize (K ops). cbn [run ideal_run] in K. rewrite E in K. injection K. intros. subst. auto. }
  split; [intros ops; apply (K' ops)|]. destruct (K' []) as [S0 _]. injection S0. auto.
Qed.
Lemma o_reset_rel : forall H o m, obj_rel H o m -> obj_rel H (o_reset o) [].
Proof. intros H o m R ops. exact (R (Reset :: ops)). Qed.
Lemma o_writes_rel : forall H cs o m, obj_rel H o m -> obj_rel H (fold_left o_write cs o) (m ++ concat cs).
Proof.
  induction cs as [|c cs IH]; intros o m R; cbn [fold_left concat]; [now rewrite app_nil_r|].
  rewrite app_assoc. apply IH. now apply o_write_rel.
Qed.
Lemma absorbed_app : forall a b k m, absorbed k m (a ++ b) = absorbed k (absorbed k m a) b.
Proof. induction a as [|[j p|j] a IH]; intros b k m; cbn [app absorbed]; auto. Qed.

Section Refine.
Variable A : Type.
Variable algs : A -> alg.
Variable H : A -> list N -> list N.
Hypothesis HA : forall a, meets (algs a) (H a).
Definition heap_rel (heap : list obj) (made : list (list N -> list N)) (log : list event) : Prop :=
  length heap = length made /\
  (forall k o, nth_error heap k = Some o -> obj_rel (nth k made no_hash) o (absorbed k [] log)) /\
  (forall k, length made <= k -> absorbed k [] log = []).
Definition refs_ok (n : nat) (vars : list hv) : Prop := forall x k, In x vars -> h_ref x = Some k -> k < n.

Lemma nth_error_upd : forall A (l : list A) i j v, nth_error (upd l i v) j = if (i =? j) && (j <? length l) then Some v else nth_error l j.
Proof.
  induction l as [|x l IH]; intros i j v.
  - cbn [upd length]. change (j <? 0) with false. rewrite andb_false_r. reflexivity.
  - destruct i as [|i], j as [|j]; cbn [upd nth_error length]; auto. rewrite IH. reflexivity.
Qed.
Lemma heap_upd : forall heap made log k o o' e,
  heap_rel heap made log -> nth_error heap k = Some o ->
  (forall j m, j <> k -> absorbed j m [e] = m) ->
  obj_rel (nth k made no_hash) o' (absorbed k [] (log ++ [e])) -> heap_rel (upd heap k o') made (log ++ [e]).
Proof.
  intros heap made log k o o' e (HL & HR & HO) Hk He R.
  assert (Lk : k < length heap) by (apply nth_error_Some; congruence).
  split; [now rewrite upd_length|]. split.
  - intros j x Hj. rewrite nth_error_upd in Hj. destruct (Nat.eqb_spec k j) as [<-|NE].
    + destruct (Nat.ltb_spec k (length heap)); [|lia]. cbn [andb] in Hj. injection Hj as <-. exact R.
    + cbn [andb] in Hj. rewrite absorbed_app, He by auto. now apply HR.
  - intros j Hj. rewrite absorbed_app, He by lia. now apply HO.
Qed.
Lemma heap_upd_same : forall heap made log k o o', heap_rel heap made log -> nth_error heap k = Some o ->
  obj_rel (nth k made no_hash) o' (absorbed k [] log) -> heap_rel (upd heap k o') made log.
Proof.
  intros heap made log k o o' (HL & HR & HO) Hk R.
  assert (Lk : k < length heap) by (apply nth_error_Some; congruence).
  split; [now rewrite upd_length|]. split; auto.
  intros j x Hj. rewrite nth_error_upd in Hj. destruct (Nat.eqb_spec k j) as [<-|NE].
  - destruct (Nat.ltb_spec k (length heap)); [|lia]. cbn [andb] in Hj. injection Hj as <-. exact R.
  - now apply HR.
Qed.
Lemma write_other : forall k j p m, j <> k -> absorbed j m [EWrite k p] = m.
Proof. intros. cbn [absorbed]. destruct (Nat.eqb_spec k j); congruence. Qed.
Lemma reset_other : forall k j m, j <> k -> absorbed j m [EReset k] = m.
Proof. intros. cbn [absorbed]. destruct (Nat.eqb_spec k j); congruence. Qed.
Lemma write_self : forall k log p, absorbed k [] (log ++ [EWrite k p]) = absorbed k [] log ++ p.
Proof. intros. rewrite absorbed_app. cbn [absorbed]. now rewrite Nat.eqb_refl. Qed.
Lemma reset_self : forall k log, absorbed k [] (log ++ [EReset k]) = [].
Proof. intros. rewrite absorbed_app. cbn [absorbed]. now rewrite Nat.eqb_refl. Qed.

Lemma call_step_ok : forall heap made log vars x c, heap_rel heap made log -> refs_ok (length made) vars ->
  (forall k, h_ref x = Some k -> k < length made) ->
  match call_step algs heap vars x c, spec_step H made log vars x c with
  | None, None => True
  | Some (heap', y), Some (made', log', y') =>
      y = y' /\ heap_rel heap' made' log' /\ length made <= length made' /\ (forall k, h_ref y = Some k -> k < length made')
  | _, _ => False
  end.
Proof.
  intros heap made log vars x c HR Hv Hx. pose proof HR as (HL & HRel & HO).
  assert (Hn : forall v k, h_ref (nth v vars hv_new) = Some k -> k < length made).
  { intros v k E. destruct (nth_in_or_default v vars hv_new) as [I|D]; [exact (Hv _ _ I E)|]. rewrite D in E. discriminate. }
  assert (Hget : forall k, k < length made -> exists o, nth_error heap k = Some o /\ obj_rel (nth k made no_hash) o (absorbed k [] log)).
  { intros k L. destruct (nth_error heap k) as [o|] eqn:E; [exists o; auto|]. apply nth_error_None in E. lia. }
  destruct c as [d|a|a|v|v|p|cs f|i|]; cbn [call_step spec_step].
  - repeat split; auto.
  - rewrite HL. split; [reflexivity|]. split; [|split; [rewrite app_length; lia|]].
    + split; [rewrite !app_length; cbn; lia|]. split.
      * intros k o Hk. destruct (Nat.lt_ge_cases k (length heap)) as [L|G].
        -- rewrite nth_error_app1 in Hk by assumption. rewrite app_nth1 by lia. auto.
        -- rewrite nth_error_app2 in Hk by assumption. destruct (k - length heap) as [|q] eqn:Q; [|destruct q; discriminate].
           cbn [nth_error] in Hk. injection Hk as <-. assert (k = length made) as -> by lia.
           rewrite app_nth2 by lia. rewrite Nat.sub_diag. cbn [nth]. rewrite HO by lia. exact (HA a).
      * intros k L. rewrite app_length in L. apply HO. lia.
    + cbn [h_ref]. intros k E. injection E as <-. rewrite app_length. cbn. lia.
  - assert (R0 : obj_rel (H a) (o_new (algs a)) []) by exact (HA a).
    pose proof (o_write_rel _ _ _ (h_data x) R0) as R1. destruct (o_sum_rel _ _ _ [] R1) as [_ E]. cbn [app] in E.
    rewrite E. repeat split; auto.
  - repeat split; auto. cbn [h_ref]. intros k E. exact (Hn v k E).
  - destruct (h_ref (nth v vars hv_new)) as [k|] eqn:Ev; [|exact I]. destruct (Hget k (Hn v k Ev)) as (o & Eo & Ro). rewrite Eo.
    pose proof (o_write_rel _ _ _ (h_data x) Ro) as R1. destruct (o_sum_rel _ _ _ [] R1) as [R2 E]. cbn [app] in E.
    destruct (o_sum (o_write o (h_data x)) []) as [o' out]. cbn [fst snd] in R2, E. subst out.
    rewrite write_self. split; [reflexivity|]. split; [|split; [lia|exact Hx]].
    eapply heap_upd; eauto using write_other. now rewrite write_self.
  - destruct (h_ref x) as [k|] eqn:Ex; [|exact I]. destruct (Hget k (Hx k eq_refl)) as (o & Eo & Ro). rewrite Eo.
    split; [reflexivity|]. split; [|split; [lia|rewrite Ex; exact Hx]].
    eapply heap_upd; eauto using write_other. rewrite write_self. now apply o_write_rel.
  - destruct (h_ref x) as [k|] eqn:Ex; [|exact I]. destruct (Hget k (Hx k eq_refl)) as (o & Eo & Ro). rewrite Eo.
    split; [reflexivity|]. split; [|split; [lia|exact Hx]].
    eapply heap_upd; eauto using write_other. rewrite write_self. now apply o_writes_rel.
  - destruct (h_ref x) as [k|] eqn:Ex; [|exact I]. destruct (Hget k (Hx k eq_refl)) as (o & Eo & Ro). rewrite Eo.
    destruct (o_sum_rel _ _ _ i Ro) as [R2 E]. destruct (o_sum o i) as [o' out]. cbn [fst snd] in R2, E. subst out.
    split; [reflexivity|]. split; [|split; [lia|exact Hx]]. eapply heap_upd_same; eauto.
  - destruct (h_ref x) as [k|] eqn:Ex; [|exact I]. destruct (Hget k (Hx k eq_refl)) as (o & Eo & Ro). rewrite Eo.
    split; [reflexivity|]. split; [|split; [lia|rewrite Ex; exact Hx]].
    eapply heap_upd; eauto using reset_other. rewrite reset_self. eapply o_reset_rel; eauto.
Qed.
Lemma prog_run_ok : forall p heap made log vars, heap_rel heap made log -> refs_ok (length made) vars ->
  prog_run algs heap vars p = spec_run H made log vars p.
Proof.
  induction p as [|[s c] p IH]; intros heap made log vars HR Hv; [reflexivity|]. cbn [prog_run spec_run].
  assert (Hx : forall k, h_ref (nth s vars hv_new) = Some k -> k < length made).
  { intros k E. destruct (nth_in_or_default s vars hv_new) as [I|D]; [exact (Hv _ _ I E)|]. rewrite D in E. discriminate. }
  pose proof (call_step_ok heap made log vars (nth s vars hv_new) c HR Hv Hx) as K.
  destruct (call_step algs heap vars (nth s vars hv_new) c) as [[heap' y]|], (spec_step H made log vars (nth s vars hv_new) c) as [[[made' log'] y']|];
    try contradiction; [|reflexivity].
  destruct K as (-> & HR' & L & Hy). apply IH; auto.
  intros z k Hz E. apply in_app_iff in Hz. destruct Hz as [Hz|[<-|[]]]; [|exact (Hy k E)]. pose proof (Hv z k Hz E). lia.
Qed.
Lemma fluent_lemma : forall p, prog_run algs [] [hv_new] p = spec_run H [] [] [hv_new] p.
Proof.
  intros p. apply prog_run_ok.
  - split; [reflexivity|]. split; [intros [|k]; discriminate|reflexivity].
  - intros x k [<-|[]] E. discriminate.
Qed.
End Refine.
