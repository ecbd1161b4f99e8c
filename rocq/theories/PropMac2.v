(** PropMac2.v -- final theorems about chaskey. *)
From Coq Require Import List NArith Arith Lia.
From Verif Require Import Base HashAPI Refine SpecChaskey Chaskey.
Import ListNotations.

(** ** C24: a message given in one Write *)
Theorem C24_chaskey_oneshot : forall key r m inp, length key = 16 -> isbytes key -> isbytes m ->
  exists d, chaskey_new key r = Some d /\
  run chaskey_impl d [Write m; Sum inp] = ideal_run (chaskey_spec r key) [] [Write m; Sum inp].
Proof.
  intros key r m inp Lk Hk Hm. destruct (chaskey_new key r) as [d|] eqn:E.
  - exists d. split; auto. pose proof (chaskey_oneshot_lemma key r m d E Hk Hm inp) as K.
    cbn [run chaskey_impl i_write i_sum ideal_run app].
    assert (C : snd (chaskey_write d m) = length m).
    { unfold chaskey_write. cbv zeta. repeat match goal with |- context [let '(_, _) := ?X in _] => destruct X end. reflexivity. }
    destruct (chaskey_write d m) as [d1 n]. cbn [fst snd] in *. subst n.
    destruct (chaskey_sum d1 inp) as [d2 o]. cbn [fst snd] in *. now subst o.
  - unfold chaskey_new in E. rewrite Lk in E. discriminate.
Qed.
(** Writing in pieces is not equivalent: a block completed by a second Write is absorbed at once
    (5 + 11 bytes), and bytes of an earlier block leak into the padding of the last one (16 + 1). *)
Theorem C24_chaskey_streaming_refuted : exists key r, length key = 16 /\
  forall d, chaskey_new key r = Some d ->
  (exists m1 m2, run chaskey_impl d [Write m1; Write m2; Sum []] <> ideal_run (chaskey_spec r key) [] [Write m1; Write m2; Sum []]) /\
  (exists m1 m2, length m1 = 16 /\ length m2 = 1 /\
     run chaskey_impl d [Write m1; Write m2; Sum []] <> ideal_run (chaskey_spec r key) [] [Write m1; Write m2; Sum []]).
Proof.
  exists ck_test_key, 8. split; [reflexivity|]. intros d E. apply some_inj in E. subst d. split.
  - exists (map N.of_nat (seq 0 5)), (map N.of_nat (seq 5 11)). vm_compute. discriminate.
  - exists (map N.of_nat (seq 0 16)), (map N.of_nat (seq 16 1)). split; [reflexivity|]. split; [reflexivity|]. vm_compute. discriminate.
Qed.
Example C24_nonvacuous : chaskey_spec 8 ck_test_key [1]%N <> chaskey_spec 8 ck_test_key [1; 0]%N.
Proof. vm_compute. discriminate. Qed.

(** ** C25: after Reset the key is gone *)
Theorem C25_chaskey_reset_refuted : exists key r, length key = 16 /\
  forall d, chaskey_new key r = Some d ->
  run chaskey_impl d [Reset; Sum []] <> ideal_run (chaskey_spec r key) [] [Reset; Sum []].
Proof.
  exists ck_test_key, 8. split; [reflexivity|]. intros d E. apply some_inj in E. subst d. vm_compute. discriminate.
Qed.
(** Whatever the key was and whatever was written, after Reset all later results are those of the
    all-zero key with zero subkeys: two objects with different keys cannot be told apart. *)
Theorem C25_chaskey_reset_forgets_key : forall key1 key2 r d1 d2 before1 before2 after,
  chaskey_new key1 r = Some d1 -> chaskey_new key2 r = Some d2 ->
  run chaskey_impl (chaskey_reset (exec chaskey_impl d1 before1)) after =
  run chaskey_impl (chaskey_reset (exec chaskey_impl d2 before2)) after.
Proof.
  assert (W : forall d p, cr (fst (chaskey_write d p)) = cr d).
  { intros. unfold chaskey_write. cbv zeta. repeat match goal with |- context [let '(_, _) := ?X in _] => destruct X end. reflexivity. }
  assert (R : forall ops d, cr (exec chaskey_impl d ops) = cr d).
  { induction ops as [|[p|i|] ops IH]; intros d; auto; cbn [exec chaskey_impl i_write i_sum i_reset]; rewrite IH; auto.
    unfold chaskey_sum. destruct (chaskey_last d) as [[[? ?] ?] ?]. reflexivity. }
  assert (Nw : forall key r d, chaskey_new key r = Some d -> cr d = r).
  { intros key r d H. unfold chaskey_new in H. destruct (negb _); [discriminate|]. apply some_inj in H. now subst d. }
  intros. f_equal. unfold chaskey_reset. rewrite !R, (Nw _ _ _ H), (Nw _ _ _ H0). reflexivity.
Qed.

Print Assumptions C24_chaskey_oneshot.
Print Assumptions C24_chaskey_streaming_refuted.
Print Assumptions C25_chaskey_reset_refuted.
Print Assumptions C25_chaskey_reset_forgets_key.
