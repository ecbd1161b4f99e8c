(** WrapRace.v -- goroutines that share the registry of package hash: SumBy / NewBy against Add, Remove
    and Clean (C139), and concurrent TypeSet.Generate (C140). *)
From Coq Require Import List NArith Arith Lia Bool.
From Verif Require Import Base.
Import ListNotations.

(** ** The registry UseHash.  A name is a number; the map gives the constructor registered for it. *)
Definition reg := nat -> option nat.
(** What a goroutine still has to do.  The methods of DataSet hold its lock from beginning to end
    (hash/hash_data_set.go:33-72, 87-94), so each is one step; getHash (hash/hash_use.go:44-53) is two:
    Has, and then Get followed by the call of what Get returned. *)
Inductive task :=
| TUse (name : nat)        (* SumBy(name) or NewBy(name): about to call UseHash.Has *)
| TGet (name : nat)        (* Has returned true: about to call UseHash.Get and the result *)
| TAdd (name f : nat) | TRemove (name : nat) | TClean.
(** What a goroutine has got from its last SumBy / NewBy. *)
Inductive outcome := Idle | Found (f : nat) | Unknown | Panicked.
Record gor := mkgor { todo : list task; got : outcome }.
Definition reg_set (m : reg) (k : nat) (v : option nat) : reg := fun x => if x =? k then v else m x.
(** One step of a goroutine (None: it has finished or has panicked). *)
Definition gstep (m : reg) (g : gor) : option (reg * gor) :=
  match got g, todo g with
  | Panicked, _ => None
  | _, [] => None
  | _, TUse k :: t => match m k with
                      | None => Some (m, mkgor t Unknown)                       (* "Hash type [..] is error." *)
                      | Some _ => Some (m, mkgor (TGet k :: t) (got g))
                      end
  | _, TGet k :: t => match m k with
                      | None => Some (m, mkgor t Panicked)                      (* newHash is nil: newHash() panics *)
                      | Some f => Some (m, mkgor t (Found f))
                      end
  | _, TAdd k f :: t => Some (reg_set m k (Some f), mkgor t (got g))
  | _, TRemove k :: t => Some (reg_set m k None, mkgor t (got g))
  | _, TClean :: t => Some (fun _ => None, mkgor t (got g))
  end.
Inductive rstep : reg * list gor -> reg * list gor -> Prop :=
| RStep : forall m a g b m' g', gstep m g = Some (m', g') -> rstep (m, a ++ g :: b) (m', a ++ g' :: b).
Inductive rsteps : reg * list gor -> reg * list gor -> Prop :=
| RNil : forall w, rsteps w w
| RCons : forall a b c, rsteps a b -> rstep b c -> rsteps a c.
(** A client's goroutine: it starts idle, and only makes the calls of the API. *)
Definition client_task (t : task) : Prop := match t with TGet _ => False | _ => True end.
Definition client (g : gor) : Prop := Forall client_task (todo g) /\ got g = Idle.
Definition removes (k : nat) (t : task) : Prop := match t with TRemove j => j = k | TClean => True | _ => False end.

Lemma rsteps_split : forall m a g b m' w', gstep m g = Some (m', w') -> rstep (m, a ++ g :: b) (m', a ++ w' :: b).
Proof. intros. now constructor. Qed.
(** Nothing panics when no goroutine removes a name that some goroutine uses. *)
Definition safe_task (m : reg) (t : task) : Prop := match t with TGet k => m k <> None | _ => True end.
Section NoRemove.
Variable used : nat -> Prop.
Definition ok_task (t : task) : Prop := match t with
  | TUse k | TGet k => used k
  | TRemove k => ~ used k
  | TClean => forall k, ~ used k
  | TAdd _ _ => True end.
Definition ok_gor (m : reg) (g : gor) : Prop :=
  got g <> Panicked /\ Forall ok_task (todo g) /\ Forall (safe_task m) (todo g).
Definition keeps (m m' : reg) : Prop := forall k, used k -> m k <> None -> m' k <> None.
Lemma ok_keeps : forall m m' g, keeps m m' -> ok_gor m g -> ok_gor m' g.
Proof.
  intros m m' g K (A & B & C). split; [exact A|]. split; [exact B|].
  rewrite Forall_forall in *. intros t Ht. specialize (B t Ht). specialize (C t Ht). destruct t; cbn in *; auto.
Qed.
Lemma gstep_ok : forall m g m' g', ok_gor m g -> gstep m g = Some (m', g') -> keeps m m' /\ ok_gor m' g'.
Proof.
  intros m [t o] m' g' (A & B & C) E. unfold gstep in E. cbn [got todo] in *.
  destruct t as [|t ts]; [destruct o; discriminate|]. inversion B as [|? ? B1 B2]; subst. inversion C as [|? ? C1 C2]; subst.
  assert (E' : match t with
    | TUse k => match m k with None => Some (m, mkgor ts Unknown) | Some _ => Some (m, mkgor (TGet k :: ts) o) end
    | TGet k => match m k with None => Some (m, mkgor ts Panicked) | Some f => Some (m, mkgor ts (Found f)) end
    | TAdd k f => Some (reg_set m k (Some f), mkgor ts o)
    | TRemove k => Some (reg_set m k None, mkgor ts o)
    | TClean => Some (fun _ => None, mkgor ts o) end = Some (m', g')) by (destruct o; [exact E|exact E|exact E|congruence]).
  clear E. 
  assert (G : forall mm oo, keeps m mm -> oo <> Panicked -> keeps m mm /\ ok_gor mm (mkgor ts oo)).
  { intros mm oo K Ho. split; [exact K|]. apply (ok_keeps m mm _ K). repeat split; auto. }
  assert (K0 : keeps m m) by (intros k _ H; exact H).
  destruct t as [k|k|k f|k|]; cbn in B1, C1.
  - destruct (m k) as [f|] eqn:Em; injection E' as <- <-.
    + split; [exact K0|]. split; [exact A|]. split; constructor; auto. cbn. congruence.
    + apply G; [exact K0|discriminate].
  - destruct (m k) as [f|] eqn:Em; [|congruence]. injection E' as <- <-. apply G; [exact K0|discriminate].
  - injection E' as <- <-. apply G; [|exact A]. intros j Hj Hm. unfold reg_set. destruct (Nat.eqb_spec j k); [discriminate|exact Hm].
  - injection E' as <- <-. apply G; [|exact A]. intros j Hj Hm. unfold reg_set. destruct (Nat.eqb_spec j k) as [->|]; [contradiction|exact Hm].
  - injection E' as <- <-. apply G; [|exact A]. intros j Hj Hm. now destruct (B1 j).
Qed.
Lemma rsteps_ok : forall w w', rsteps w w' -> Forall (ok_gor (fst w)) (snd w) -> Forall (ok_gor (fst w')) (snd w').
Proof.
  intros w w' R. induction R as [|a b c R IH S]; auto. intros H. specialize (IH H). destruct S as [m x g y m' g' E].
  cbn [fst snd] in *. apply Forall_app in IH. destruct IH as [Ix Iy]. inversion Iy as [|? ? Ig Iy']; subst.
  destruct (gstep_ok m g m' g' Ig E) as [K G]. apply Forall_app. split; [|constructor; auto];
    (eapply Forall_impl; [|eassumption]; intros z Hz; now apply (ok_keeps m m')).
Qed.
End NoRemove.
Lemma no_panic_lemma : forall m gs w', Forall client gs ->
  (forall g1 g2 k, In g1 gs -> In g2 gs -> In (TUse k) (todo g1) -> forall t, In t (todo g2) -> ~ removes k t) ->
  rsteps (m, gs) w' -> forall g, In g (snd w') -> got g <> Panicked.
Proof.
  intros m gs w' HC HN R g Hg.
  assert (F : Forall (ok_gor (fun k => exists g1, In g1 gs /\ In (TUse k) (todo g1)) m) gs).
  { rewrite Forall_forall in *. intros h Hh. destruct (HC h Hh) as [C1 C2]. split; [rewrite C2; discriminate|].
    rewrite Forall_forall in C1. split; apply Forall_forall; intros t Ht; specialize (C1 t Ht).
    - destruct t as [k|k|k f|k|]; cbn in *; auto; try contradiction.
      + exists h. auto.
      + intros (g1 & I1 & I2). exact (HN g1 h k I1 Hh I2 _ Ht eq_refl).
      + intros k (g1 & I1 & I2). exact (HN g1 h k I1 Hh I2 _ Ht I).
    - destruct t; cbn in *; auto. }
  pose proof (rsteps_ok _ _ _ R F) as K. cbn [fst snd] in K. rewrite Forall_forall in K. apply (K g Hg).
Qed.

(** ** TypeSet.Generate (hash/hash_type_set.go:27-32): old := this.max; this.max++; return old.  No lock:
    two loads and a store. *)
Inductive gpc := GStart | GLoaded (old : N) | GInc (old tmp : N) | GDone (old : N).
Definition gen_step (max : N) (p : gpc) : option (N * gpc) :=
  match p with
  | GStart => Some (max, GLoaded max)
  | GLoaded o => Some (max, GInc o max)
  | GInc o t => Some (w64 (t + 1), GDone o)
  | GDone _ => None
  end.
Inductive gen_steps : N * list gpc -> N * list gpc -> Prop :=
| GNil : forall w, gen_steps w w
| GCons : forall w m a p b m' p', gen_steps w (m, a ++ p :: b) -> gen_step m p = Some (m', p') -> gen_steps w (m', a ++ p' :: b).
Lemma gen_trans : forall a b c, gen_steps a b -> gen_steps b c -> gen_steps a c.
Proof. intros a b c H1 H2. revert a H1. induction H2; intros a0 H1; auto. econstructor; eauto. Qed.
Lemma gen_all : forall max p q, gen_step max p = Some (max, q) -> forall n pre,
  gen_steps (max, pre ++ repeat p n) (max, pre ++ repeat q n).
Proof.
  intros max p q E. induction n as [|n IH]; intros pre; [constructor|]. cbn [repeat].
  apply gen_trans with (max, pre ++ q :: repeat p n).
  - eapply GCons; [constructor|exact E].
  - specialize (IH (pre ++ [q])). rewrite <- !app_assoc in IH. exact IH.
Qed.
Lemma gen_store : forall o t n pre max, gen_steps (max, pre ++ repeat (GInc o t) n)
  (match n with O => max | S _ => w64 (t + 1) end, pre ++ repeat (GDone o) n).
Proof.
  intros o t. induction n as [|n IH]; intros pre max; [constructor|]. cbn [repeat].
  apply gen_trans with (w64 (t + 1), pre ++ GDone o :: repeat (GInc o t) n).
  - eapply GCons; [constructor|reflexivity].
  - specialize (IH (pre ++ [GDone o]) (w64 (t + 1))). rewrite <- !app_assoc in IH. cbn [app] in IH.
    destruct n; exact IH.
Qed.
Lemma gen_same_lemma : forall n max, gen_steps (max, repeat GStart (S n)) (w64 (max + 1), repeat (GDone max) (S n)).
Proof.
  intros n max. apply gen_trans with (max, repeat (GLoaded max) (S n)); [exact (gen_all max GStart (GLoaded max) eq_refl (S n) [])|].
  apply gen_trans with (max, repeat (GInc max max) (S n)); [exact (gen_all max (GLoaded max) (GInc max max) eq_refl (S n) [])|].
  exact (gen_store max max (S n) [] max).
Qed.
