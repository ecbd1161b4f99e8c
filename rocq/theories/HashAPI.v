(** HashAPI.v -- the specification vocabulary for Go's hash.Hash contract.

    A client drives a digest object with any finite sequence of calls
    [Write(p)], [Sum(in)], [Reset()].  What it can observe is the count
    returned by each Write and the slice returned by each Sum.

    [ideal_run H hist ops] is what a client expects from a correct
    implementation of the hash function [H] (a pure function from whole
    messages to digests): Write returns the length of its argument, Sum returns
    its argument followed by [H] of everything written since the object was
    created or last Reset, and Sum changes nothing. *)
From Coq Require Import List NArith.
Import ListNotations.

Inductive op : Type :=
| Write (p : list N)
| Sum (inp : list N)
| Reset.

Inductive obs : Type :=
| Wrote (n : nat)
| Summed (out : list N).

Fixpoint ideal_run (H : list N -> list N) (hist : list N) (ops : list op) : list obs :=
  match ops with
  | [] => []
  | Write p :: t => Wrote (length p) :: ideal_run H (hist ++ p) t
  | Sum i :: t => Summed (i ++ H hist) :: ideal_run H hist t
  | Reset :: t => ideal_run H [] t
  end.

(** A (model of a) digest implementation: how each call changes the object and
    what it returns. *)
Record impl (D : Type) : Type := mkimpl {
  i_write : D -> list N -> D * nat;
  i_sum : D -> list N -> D * list N;
  i_reset : D -> D
}.
Arguments i_write {D}. Arguments i_sum {D}. Arguments i_reset {D}. Arguments mkimpl {D}.

Fixpoint run {D} (I : impl D) (d : D) (ops : list op) : list obs :=
  match ops with
  | [] => []
  | Write p :: t => let '(d', n) := i_write I d p in Wrote n :: run I d' t
  | Sum i :: t => let '(d', out) := i_sum I d i in Summed out :: run I d' t
  | Reset :: t => run I (i_reset I d) t
  end.

(** State after a sequence of calls. *)
Fixpoint exec {D} (I : impl D) (d : D) (ops : list op) : D :=
  match ops with
  | [] => d
  | Write p :: t => exec I (fst (i_write I d p)) t
  | Sum i :: t => exec I (fst (i_sum I d i)) t
  | Reset :: t => exec I (i_reset I d) t
  end.

(** What has been written since creation / the last Reset. *)
Fixpoint history (hist : list N) (ops : list op) : list N :=
  match ops with
  | [] => hist
  | Write p :: t => history (hist ++ p) t
  | Sum _ :: t => history hist t
  | Reset :: t => history [] t
  end.

(** Simulation: a relation between object states and histories that is
    preserved by the calls gives the whole contract. *)
Lemma run_refines : forall D (I : impl D) (H : list N -> list N) (R : D -> list N -> Prop),
  (forall d m p, R d m -> R (fst (i_write I d p)) (m ++ p)) ->
  (forall d m p, R d m -> snd (i_write I d p) = length p) ->
  (forall d m i, R d m -> R (fst (i_sum I d i)) m) ->
  (forall d m i, R d m -> snd (i_sum I d i) = i ++ H m) ->
  (forall d m, R d m -> R (i_reset I d) []) ->
  forall ops d m, R d m -> run I d ops = ideal_run H m ops.
Proof.
  intros D I H R Hw Hwn Hs Hso Hr ops.
  induction ops as [|o ops IH]; intros d m HR; auto.
  destruct o as [p|i|]; simpl.
  - specialize (Hw d m p HR). specialize (Hwn d m p HR).
    destruct (i_write I d p) as [d' n]; simpl in *. subst. f_equal. apply IH; auto.
  - specialize (Hs d m i HR). specialize (Hso d m i HR).
    destruct (i_sum I d i) as [d' o]; simpl in *. subst. f_equal. apply IH; auto.
  - apply IH. eapply Hr; eauto.
Qed.

Lemma exec_refines : forall D (I : impl D) (R : D -> list N -> Prop),
  (forall d m p, R d m -> R (fst (i_write I d p)) (m ++ p)) ->
  (forall d m i, R d m -> R (fst (i_sum I d i)) m) ->
  (forall d m, R d m -> R (i_reset I d) []) ->
  forall ops d m, R d m -> R (exec I d ops) (history m ops).
Proof.
  intros D I R Hw Hs Hr ops.
  induction ops as [|o ops IH]; intros d m HR; simpl; auto.
  destruct o as [p|i|]; simpl; apply IH; auto. eapply Hr; eauto.
Qed.

(** Calls whose Write arguments are byte strings (always the case in Go). *)
Definition op_bytes (o : op) : Prop :=
  match o with Write p => Forall (fun b => (b < 256)%N) p | _ => True end.

Lemma run_refines_bytes : forall D (I : impl D) (H : list N -> list N) (R : D -> list N -> Prop),
  (forall d m p, Forall (fun b => (b < 256)%N) p -> R d m -> R (fst (i_write I d p)) (m ++ p)) ->
  (forall d m p, Forall (fun b => (b < 256)%N) p -> R d m -> snd (i_write I d p) = length p) ->
  (forall d m i, R d m -> R (fst (i_sum I d i)) m) ->
  (forall d m i, R d m -> snd (i_sum I d i) = i ++ H m) ->
  (forall d m, R d m -> R (i_reset I d) []) ->
  forall ops d m, Forall op_bytes ops -> R d m -> run I d ops = ideal_run H m ops.
Proof.
  intros D I H R Hw Hwn Hs Hso Hr ops.
  induction ops as [|o ops IH]; intros d m HF HR; auto.
  inversion HF as [|? ? Ho HF']; subst.
  destruct o as [p|i|]; simpl.
  - specialize (Hw d m p Ho HR). specialize (Hwn d m p Ho HR).
    destruct (i_write I d p) as [d' n]; simpl in *. subst. f_equal. apply IH; auto.
  - specialize (Hs d m i HR). specialize (Hso d m i HR).
    destruct (i_sum I d i) as [d' o]; simpl in *. subst. f_equal. apply IH; auto.
  - apply IH; auto. eapply Hr; eauto.
Qed.
