(** PropBlake.v -- properties C34, C35, C36: packages blake256 and blake512. *)
From Coq Require Import List NArith Arith Lia Bool.
From Verif Require Import Base Words HashAPI Buf MD Refine SpecBlake BlakeP Blake256 Blake256P Blake512 Blake512P MakwaR.
Import ListNotations.
Local Ltac Zify.zify_post_hook ::= idtac.

Lemma ideal_run_ext : forall H1 H2, (forall m, H1 m = H2 m) -> forall ops m, ideal_run H1 m ops = ideal_run H2 m ops.
Proof. intros H1 H2 E ops. induction ops as [|[p|i|] ops IH]; intros m; cbn [ideal_run]; rewrite ?E, ?IH; reflexivity. Qed.

(** ** C34: the hash.Hash contract. *)
(** New, New224, New384, New(512): any sequence of Write, Sum and Reset. *)
Theorem C34_blake256_contract : forall ops,
  run (b256_impl 256 b256_iv256) (b256_new b256_iv256) ops = ideal_run (blake256_spec (zeros 16)) [] ops.
Proof.
  intros ops. rewrite (b256_history b256_iv256 256 eq_refl (or_intror eq_refl) ops _ [] (b256_new_rel _)). apply ideal_run_ext. intros m. rewrite b256_spec_256, zero_salt. reflexivity.
Qed.
Theorem C34_blake224_contract : forall ops,
  run (b256_impl 224 b256_iv224) (b256_new b256_iv224) ops = ideal_run (blake224_spec (zeros 16)) [] ops.
Proof.
  intros ops. rewrite (b256_history b256_iv224 224 eq_refl (or_introl eq_refl) ops _ [] (b256_new_rel _)). apply ideal_run_ext. intros m. rewrite b256_spec_224, zero_salt. reflexivity.
Qed.
Theorem C34_blake512_contract : forall ops,
  run (b512_impl 64 b512_iv512) (b512_new b512_iv512) ops = ideal_run (blake512_spec (zeros 32)) [] ops.
Proof.
  intros ops. rewrite (b512_history b512_iv512 64 eq_refl (or_intror eq_refl) ops _ [] (b512_new_rel _)). apply ideal_run_ext. intros m. rewrite b512_spec_512, zero_salt64. reflexivity.
Qed.
Theorem C34_blake384_contract : forall ops,
  run (b512_impl 48 b512_iv384) (b512_new b512_iv384) ops = ideal_run (blake384_spec (zeros 32)) [] ops.
Proof.
  intros ops. rewrite (b512_history b512_iv384 48 eq_refl (or_introl eq_refl) ops _ [] (b512_new_rel _)). apply ideal_run_ext. intros m. rewrite b512_spec_384, zero_salt64. reflexivity.
Qed.

(** One-shot functions. *)
Theorem C34_blake256_oneshot : forall data, b256_Sum data = blake256_spec (zeros 16) data /\ b256_Sum224 data = blake224_spec (zeros 16) data.
Proof.
  intros data. split; [pose proof (C34_blake256_contract [Write data; Sum []]) as K; unfold b256_Sum|pose proof (C34_blake224_contract [Write data; Sum []]) as K; unfold b256_Sum224];
  cbn [run ideal_run] in K; unfold b256_impl in K; cbn [i_write i_sum] in K; destruct (b256_write _ data) as [d' n]; cbn [fst]; destruct (b256_sum _ d' []) as [d'' o]; cbn [snd app] in *; congruence.
Qed.
Theorem C34_blake512_oneshot : forall data, b512_Sum data = blake512_spec (zeros 32) data /\ b512_Sum384 data = blake384_spec (zeros 32) data.
Proof.
  intros data. split; [pose proof (C34_blake512_contract [Write data; Sum []]) as K; unfold b512_Sum|pose proof (C34_blake384_contract [Write data; Sum []]) as K; unfold b512_Sum384];
  cbn [run ideal_run] in K; unfold b512_impl in K; cbn [i_write i_sum] in K; destruct (b512_write _ data) as [d' n]; cbn [fst]; destruct (b512_sum _ d' []) as [d'' o]; cbn [snd app] in *; congruence.
Qed.

(** NewWithSalt and friends: the object exists (the call does not panic) exactly for salts of the right size, and
    then any sequence of Write and Sum computes the salted digest.  (Reset: see C35.) *)
Theorem C34_blake256_salted : forall salt ops, Forall no_reset ops ->
  match b256_newWithSalt b256_iv256 salt with
  | Some d => length salt = 16 /\ run (b256_impl 256 b256_iv256) d ops = ideal_run (blake256_spec salt) [] ops
  | None => length salt <> 16
  end /\
  match b256_newWithSalt b256_iv224 salt with
  | Some d => length salt = 16 /\ run (b256_impl 224 b256_iv224) d ops = ideal_run (blake224_spec salt) [] ops
  | None => length salt <> 16
  end.
Proof.
  intros salt ops HN. split; match goal with |- match ?n with _ => _ end => destruct n as [d|] eqn:E end.
  - destruct (salted_rel _ _ _ E) as [R L]. split; [exact L|]. rewrite (b256_history_noreset _ b256_iv256 256 eq_refl (or_intror eq_refl) ops d [] HN R). reflexivity.
  - intros L. unfold b256_newWithSalt in E. rewrite L in E. discriminate E.
  - destruct (salted_rel _ _ _ E) as [R L]. split; [exact L|]. rewrite (b256_history_noreset _ b256_iv224 224 eq_refl (or_introl eq_refl) ops d [] HN R). reflexivity.
  - intros L. unfold b256_newWithSalt in E. rewrite L in E. discriminate E.
Qed.
Theorem C34_blake512_salted : forall salt ops, Forall no_reset ops ->
  match b512_newWithSalt b512_iv512 salt with
  | Some d => length salt = 32 /\ run (b512_impl 64 b512_iv512) d ops = ideal_run (blake512_spec salt) [] ops
  | None => length salt <> 32
  end /\
  match b512_newWithSalt b512_iv384 salt with
  | Some d => length salt = 32 /\ run (b512_impl 48 b512_iv384) d ops = ideal_run (blake384_spec salt) [] ops
  | None => length salt <> 32
  end.
Proof.
  intros salt ops HN. split; match goal with |- match ?n with _ => _ end => destruct n as [d|] eqn:E end.
  - destruct (salted_rel512 _ _ _ E) as [R L]. split; [exact L|]. rewrite (b512_history_noreset _ b512_iv512 64 eq_refl (or_intror eq_refl) ops d [] HN R). reflexivity.
  - intros L. unfold b512_newWithSalt in E. rewrite L in E. discriminate E.
  - destruct (salted_rel512 _ _ _ E) as [R L]. split; [exact L|]. rewrite (b512_history_noreset _ b512_iv384 48 eq_refl (or_introl eq_refl) ops d [] HN R). reflexivity.
  - intros L. unfold b512_newWithSalt in E. rewrite L in E. discriminate E.
Qed.
Example C34_salted_nonvacuous : exists d, b256_newWithSalt b256_iv256 (repeat 7%N 16) = Some d /\ Forall no_reset [Write [1]%N; Sum []].
Proof. eexists. split; [reflexivity|]. repeat constructor; discriminate. Qed.

(** ** C35: Reset and the salt.  The documented behaviour ("leaves salt intact") is false: after Reset every object,
    whatever its salt and history, is the unsalted hash. *)
Theorem C35_reset_drops_salt : forall (d : b256) (e : b512) ops,
  run (b256_impl 256 b256_iv256) d (Reset :: ops) = ideal_run (blake256_spec (zeros 16)) [] ops /\
  run (b256_impl 224 b256_iv224) d (Reset :: ops) = ideal_run (blake224_spec (zeros 16)) [] ops /\
  run (b512_impl 64 b512_iv512) e (Reset :: ops) = ideal_run (blake512_spec (zeros 32)) [] ops /\
  run (b512_impl 48 b512_iv384) e (Reset :: ops) = ideal_run (blake384_spec (zeros 32)) [] ops.
Proof.
  intros d e ops. cbn [run].
  split; [exact (C34_blake256_contract ops)|]. split; [exact (C34_blake224_contract ops)|]. split; [exact (C34_blake512_contract ops)|exact (C34_blake384_contract ops)].
Qed.
Theorem C35_salt_kept_refuted :
  ~ (forall salt d ops, b256_newWithSalt b256_iv256 salt = Some d -> run (b256_impl 256 b256_iv256) d (Reset :: ops) = run (b256_impl 256 b256_iv256) d ops).
Proof.
  intros C. specialize (C (repeat 7%N 16) _ [Sum []] eq_refl). revert C. vm_compute. discriminate.
Qed.
Theorem C35_salt_kept_512_refuted :
  ~ (forall salt d ops, b512_newWithSalt b512_iv512 salt = Some d -> run (b512_impl 64 b512_iv512) d (Reset :: ops) = run (b512_impl 64 b512_iv512) d ops).
Proof.
  intros C. specialize (C (repeat 7%N 32) _ [Sum []] eq_refl). revert C. vm_compute. discriminate.
Qed.

(** ** C36: serialised states. *)
Lemma salt_wide : forall k n salt, 0 < k -> length salt = n * k -> isbytes salt -> length (map be_val (chunks k salt)) = n /\ Forall (fun x => (x < 256 ^ N.of_nat k)%N) (map be_val (chunks k salt)).
Proof.
  intros k n salt Hk L B. split; [rewrite map_length, chunks_length, L by lia; apply Nat.div_mul; lia|].
  apply Forall_map, Forall_forall. intros c Hc. pose proof (chunks_all_length _ k salt Hk) as A. rewrite Forall_forall in A. specialize (A c Hc). rewrite <- A. apply be_val_lt.
  unfold chunks in Hc. apply in_map_iff in Hc. destruct Hc as (i & <- & _). now apply isbytes_firstn, isbytes_skipn.
Qed.

Lemma wide256 : forall salt iv, length salt = 16 -> isbytes salt -> length iv = 8 -> Forall is32 iv -> b256_wide (map be_val (chunks 4 salt)) iv.
Proof. intros salt iv L B Li Wi. destruct (salt_wide 4 4 salt ltac:(lia) L B) as [A W]. repeat split; auto. Qed.
Lemma wide512 : forall salt iv, length salt = 32 -> isbytes salt -> length iv = 8 -> Forall is64 iv -> b512_wide (map be_val (chunks 8 salt)) iv.
Proof. intros salt iv L B Li Wi. destruct (salt_wide 8 4 salt ltac:(lia) L B) as [A W]. repeat split; auto. Qed.
Lemma b256_round_trip : forall iv hs salt d0 ops r, length iv = 8 -> Forall is32 iv -> (hs = 224 \/ hs = 256) -> isbytes salt -> b256_newWithSalt iv salt = Some d0 -> Forall no_reset ops -> length (dx (snd r)) = 64 ->
  exists d', b256_unmarshal r (b256_marshal (exec (b256_impl hs iv) d0 ops)) = inl d' /\
    forall ops', Forall no_reset ops' -> run (b256_impl hs iv) d' ops' = ideal_run (b256_spec iv hs (map be_val (chunks 4 salt))) (history [] ops) ops'.
Proof.
  intros iv hs salt d0 ops r Li Wi Hh B E HN Lr. destruct (salted_rel _ _ _ E) as [R L].
  pose proof (b256_exec_noreset _ iv hs ops d0 [] HN R) as R'. destruct (b256_unmarshal_marshal _ iv _ _ r (wide256 salt iv L B Li Wi) R' Lr) as (d' & U & R'').
  exists d'. split; [exact U|]. intros ops' HN'. exact (b256_history_noreset _ iv hs Li Hh ops' d' _ HN' R'').
Qed.
Lemma b512_round_trip : forall iv hs salt d0 ops r, length iv = 8 -> Forall is64 iv -> (hs = 48 \/ hs = 64) -> isbytes salt -> b512_newWithSalt iv salt = Some d0 -> Forall no_reset ops -> length (dx (snd r)) = 128 ->
  exists d', b512_unmarshal r (b512_marshal (exec (b512_impl hs iv) d0 ops)) = inl d' /\
    forall ops', Forall no_reset ops' -> run (b512_impl hs iv) d' ops' = ideal_run (b512_spec iv hs (map be_val (chunks 8 salt))) (history [] ops) ops'.
Proof.
  intros iv hs salt d0 ops r Li Wi Hh B E HN Lr. destruct (salted_rel512 _ _ _ E) as [R L].
  pose proof (b512_exec_noreset _ iv hs ops d0 [] HN R) as R'. destruct (b512_unmarshal_marshal _ iv _ _ r (wide512 salt iv L B Li Wi) R' Lr) as (d' & U & R'').
  exists d'. split; [exact U|]. intros ops' HN'. exact (b512_history_noreset _ iv hs Li Hh ops' d' _ HN' R'').
Qed.
Lemma iv_is32 : Forall is32 b256_iv256 /\ Forall is32 b256_iv224.
Proof. split; repeat constructor. Qed.
Lemma iv_is64 : Forall is64 b512_iv512 /\ Forall is64 b512_iv384.
Proof. split; repeat constructor. Qed.

(** A marshalled state, restored into any object of the same variant, continues the original history (the all-zero
    salt is the unsalted hash). *)
Theorem C36_blake256_round_trip : forall salt d0 ops r, isbytes salt -> b256_newWithSalt b256_iv256 salt = Some d0 -> Forall no_reset ops -> length (dx (snd r)) = 64 ->
  exists d', b256_unmarshal r (b256_marshal (exec (b256_impl 256 b256_iv256) d0 ops)) = inl d' /\
    forall ops', Forall no_reset ops' -> run (b256_impl 256 b256_iv256) d' ops' = ideal_run (blake256_spec salt) (history [] ops) ops'.
Proof. intros salt d0 ops r B E HN Lr. exact (b256_round_trip b256_iv256 256 salt d0 ops r eq_refl (proj1 iv_is32) (or_intror eq_refl) B E HN Lr). Qed.
Theorem C36_blake224_round_trip : forall salt d0 ops r, isbytes salt -> b256_newWithSalt b256_iv224 salt = Some d0 -> Forall no_reset ops -> length (dx (snd r)) = 64 ->
  exists d', b256_unmarshal r (b256_marshal (exec (b256_impl 224 b256_iv224) d0 ops)) = inl d' /\
    forall ops', Forall no_reset ops' -> run (b256_impl 224 b256_iv224) d' ops' = ideal_run (blake224_spec salt) (history [] ops) ops'.
Proof. intros salt d0 ops r B E HN Lr. exact (b256_round_trip b256_iv224 224 salt d0 ops r eq_refl (proj2 iv_is32) (or_introl eq_refl) B E HN Lr). Qed.
Theorem C36_blake512_round_trip : forall salt d0 ops r, isbytes salt -> b512_newWithSalt b512_iv512 salt = Some d0 -> Forall no_reset ops -> length (dx (snd r)) = 128 ->
  exists d', b512_unmarshal r (b512_marshal (exec (b512_impl 64 b512_iv512) d0 ops)) = inl d' /\
    forall ops', Forall no_reset ops' -> run (b512_impl 64 b512_iv512) d' ops' = ideal_run (blake512_spec salt) (history [] ops) ops'.
Proof. intros salt d0 ops r B E HN Lr. exact (b512_round_trip b512_iv512 64 salt d0 ops r eq_refl (proj1 iv_is64) (or_intror eq_refl) B E HN Lr). Qed.
Theorem C36_blake384_round_trip : forall salt d0 ops r, isbytes salt -> b512_newWithSalt b512_iv384 salt = Some d0 -> Forall no_reset ops -> length (dx (snd r)) = 128 ->
  exists d', b512_unmarshal r (b512_marshal (exec (b512_impl 48 b512_iv384) d0 ops)) = inl d' /\
    forall ops', Forall no_reset ops' -> run (b512_impl 48 b512_iv384) d' ops' = ideal_run (blake384_spec salt) (history [] ops) ops'.
Proof. intros salt d0 ops r B E HN Lr. exact (b512_round_trip b512_iv384 48 salt d0 ops r eq_refl (proj2 iv_is64) (or_introl eq_refl) B E HN Lr). Qed.

(** Exactly which inputs UnmarshalBinary accepts: it looks at the magic and the length only. *)
Theorem C36_accepts : forall (r : b256) (r' : b512) b,
  ((exists d', b256_unmarshal r b = inl d') <-> (firstn 9 b = b256_magic /\ length b = 138)) /\
  ((exists d', b512_unmarshal r' b = inl d') <-> (firstn 9 b = b512_magic /\ length b = 257)).
Proof. intros. split; [apply b256_accepts|apply b512_accepts]. Qed.

(** The property fails: a state of a BLAKE-224 object is accepted by a BLAKE-256 object after every history, and the
    receiver's digest is never the original one; likewise 384 and 512. *)
Lemma len_checkSum256 : forall hs d, length (b256_checkSum hs d) = hs / 8.
Proof. intros. unfold b256_checkSum. cbv zeta. rewrite copy_at_length by lia. apply zeros_length. Qed.
Lemma len_out512 : forall l h o, (forall i, In i l -> 8 * i <= length o) -> length (fold_left (fun o i => copy_at o (8 * i) (be_bytes 8 (at_ h i))) l o) = length o.
Proof.
  induction l as [|i l IH]; intros h o H; [reflexivity|]. cbn [fold_left]. assert (K : length (copy_at o (8 * i) (be_bytes 8 (at_ h i))) = length o) by (apply copy_at_length, H; now left).
  rewrite IH; [exact K|]. intros j Hj. rewrite K. apply H. now right.
Qed.
Lemma len_checkSum512 : forall hs d, hs = 48 \/ hs = 64 -> length (b512_checkSum hs d) = hs.
Proof.
  intros hs d H. unfold b512_checkSum. cbv zeta. set (h := ch _). clearbody h.
  assert (K : length (fold_left (fun o i => copy_at o (8 * i) (be_bytes 8 (at_ h i))) (seq 0 6) (zeros hs)) = hs).
  { rewrite len_out512; [apply zeros_length|]. intros i Hi. apply in_seq in Hi. rewrite zeros_length. lia. }
  destruct (Nat.eqb_spec hs 64) as [E|E]; [|exact K]. rewrite len_out512; rewrite K; [reflexivity|]. intros i Hi. apply in_seq in Hi. lia.
Qed.
Theorem C36_variant_refuted : forall salt d0 ops r, isbytes salt -> b256_newWithSalt b256_iv224 salt = Some d0 -> Forall no_reset ops -> length (dx (snd r)) = 64 ->
  exists d', b256_unmarshal r (b256_marshal (exec (b256_impl 224 b256_iv224) d0 ops)) = inl d' /\
    snd (b256_sum 256 d' []) <> snd (b256_sum 224 (exec (b256_impl 224 b256_iv224) d0 ops) []).
Proof.
  intros salt d0 ops r B E HN Lr. destruct (C36_blake224_round_trip salt d0 ops r B E HN Lr) as (d' & U & _). exists d'. split; [exact U|].
  unfold b256_sum. cbn [snd app]. intros C. apply (f_equal (@length N)) in C. rewrite !len_checkSum256 in C. discriminate C.
Qed.
Theorem C36_variant_512_refuted : forall salt d0 ops r, isbytes salt -> b512_newWithSalt b512_iv384 salt = Some d0 -> Forall no_reset ops -> length (dx (snd r)) = 128 ->
  exists d', b512_unmarshal r (b512_marshal (exec (b512_impl 48 b512_iv384) d0 ops)) = inl d' /\
    snd (b512_sum 64 d' []) <> snd (b512_sum 48 (exec (b512_impl 48 b512_iv384) d0 ops) []).
Proof.
  intros salt d0 ops r B E HN Lr. destruct (C36_blake384_round_trip salt d0 ops r B E HN Lr) as (d' & U & _). exists d'. split; [exact U|].
  unfold b512_sum. cbn [snd app]. intros C. apply (f_equal (@length N)) in C. rewrite !len_checkSum512 in C by tauto. discriminate C.
Qed.
(** ... and not even the common prefix agrees, nor is it the BLAKE-256 digest of what was written. *)
Theorem C36_variant_prefix_refuted : exists ops d', Forall no_reset ops /\
  b256_unmarshal (b256_new b256_iv256) (b256_marshal (exec (b256_impl 224 b256_iv224) (b256_new b256_iv224) ops)) = inl d' /\
  firstn 28 (snd (b256_sum 256 d' [])) <> blake224_spec (zeros 16) (history [] ops) /\ snd (b256_sum 256 d' []) <> blake256_spec (zeros 16) (history [] ops).
Proof.
  exists [Write [1; 2; 3]%N]. eexists. split; [repeat constructor; discriminate|]. split; [vm_compute; reflexivity|]. split; vm_compute; discriminate.
Qed.
Example C36_nonvacuous : exists d0, isbytes (repeat 7%N 16) /\ b256_newWithSalt b256_iv224 (repeat 7%N 16) = Some d0 /\ Forall no_reset [Write (zeros 65); Sum []] /\ length (dx (snd (b256_new b256_iv256))) = 64.
Proof. eexists. split; [repeat constructor|]. split; [reflexivity|]. split; [repeat constructor; discriminate|reflexivity]. Qed.
