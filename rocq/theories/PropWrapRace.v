(** PropWrapRace.v -- goroutines that share the registries of package hash (C139, C140). *)
From Coq Require Import List NArith Arith Lia Bool.
From Verif Require Import Base WrapRace.
Import ListNotations.

(** ** C139.  "SumBy and NewBy never panic: an unknown name gives an error": false when another goroutine
    removes the name, for every registered name. *)
Theorem C139_usehash_panics_refuted : forall (m : reg) k f, m k = Some f ->
  let gs := [mkgor [TUse k] Idle; mkgor [TRemove k] Idle] in
  Forall client gs /\ exists w, rsteps (m, gs) w /\ exists g, In g (snd w) /\ got g = Panicked.
Proof.
  intros m k f E gs. split; [repeat constructor|].
  exists (reg_set m k None, [mkgor [] Panicked; mkgor [] Idle]). split; [|eexists; split; [left; reflexivity|reflexivity]].
  eapply RCons; [eapply RCons; [eapply RCons; [apply RNil|]|]|].
  - apply (RStep m [] (mkgor [TUse k] Idle) [mkgor [TRemove k] Idle] m (mkgor [TGet k] Idle)). cbn. now rewrite E.
  - apply (RStep m [mkgor [TGet k] Idle] (mkgor [TRemove k] Idle) [] (reg_set m k None) (mkgor [] Idle)). reflexivity.
  - apply (RStep (reg_set m k None) [] (mkgor [TGet k] Idle) [mkgor [] Idle] (reg_set m k None) (mkgor [] Panicked)).
    cbn. unfold reg_set. now rewrite Nat.eqb_refl.
Qed.
(** What holds: any number of goroutines, any schedule, as long as no goroutine removes a name that some
    goroutine uses. *)
Theorem C139_usehash_no_panic : forall m gs w', Forall client gs ->
  (forall g1 g2 k, In g1 gs -> In g2 gs -> In (TUse k) (todo g1) -> forall t, In t (todo g2) -> ~ removes k t) ->
  rsteps (m, gs) w' -> forall g, In g (snd w') -> got g <> Panicked.
Proof. exact no_panic_lemma. Qed.
Example C139_nonvacuous :
  let gs := [mkgor [TUse 1; TUse 2] Idle; mkgor [TAdd 2 7; TRemove 3] Idle] in
  Forall client gs /\
  (forall g1 g2 k, In g1 gs -> In g2 gs -> In (TUse k) (todo g1) -> forall t, In t (todo g2) -> ~ removes k t).
Proof.
  split; [repeat constructor|]. intros g1 g2 k H1 H2 HU t Ht.
  destruct H1 as [<-|[<-|[]]]; destruct H2 as [<-|[<-|[]]]; cbn [todo] in *;
    repeat match goal with H : In _ _ |- _ => destruct H as [H|H] | H : False |- _ => destruct H end;
    subst; try discriminate; cbn; try (injection HU as <-); auto; lia.
Qed.

(** ** C140.  "Generate never returns the same id twice": false when called from several goroutines; any
    number of them can get the same id, and the counter then moves by one. *)
Theorem C140_generate_race_refuted : forall n max,
  gen_steps (max, repeat GStart (S n)) (w64 (max + 1), repeat (GDone max) (S n)).
Proof. exact gen_same_lemma. Qed.
(** One call at a time: a call that runs from beginning to end returns the counter and adds one. *)
Theorem C140_generate_alone : forall max a b, (max < 2 ^ 64 - 1)%N ->
  gen_steps (max, a ++ GStart :: b) ((max + 1)%N, a ++ GDone max :: b).
Proof.
  intros max a b L. rewrite <- (w64_small (max + 1)%N) by (change (2 ^ 64)%N with 18446744073709551616%N in *; lia).
  eapply GCons; [eapply GCons; [eapply GCons; [constructor|reflexivity]|reflexivity]|reflexivity].
Qed.

Print Assumptions C139_usehash_panics_refuted.
Print Assumptions C139_usehash_no_panic.
Print Assumptions C140_generate_race_refuted.
Print Assumptions C140_generate_alone.
