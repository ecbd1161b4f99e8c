(** PropSm3Rand.v -- C57, C58, C73, C74: the SM3 DRBG (sm3/rand.go, sm3/rand_df.go). *)
From Coq Require Import List NArith ZArith Arith Lia Bool.
From Verif Require Import Base Words HashAPI MD Refine SpecSm3 Sm3 Sm3Rand.
Import ListNotations.

(** ** C57: beAdd *)
(** The byte at distance j from the end. *)
Definition from_end (l : list N) (j : nat) : N := nth j (rev l) 0%N.
Lemma beadd_length : forall r a c, length (beadd_loop c r a) = length r.
Proof. induction r as [|x r IH]; intros [|y a] c; cbn [beadd_loop length]; cbv zeta; try reflexivity; now rewrite IH. Qed.
(** What beAdd computes, for all operands: each byte is the sum of the two bytes modulo 256; no carry
    ever reaches the next byte. *)
Theorem C57_beadd_exact : forall r a, isbytes r -> length a <= length r ->
  length (beAdd r a) = length r /\
  forall j, j < length r -> from_end (beAdd r a) j = ((from_end r j + from_end a j) mod 256)%N.
Proof.
  intros r a Hr L. unfold beAdd, from_end. split; [now rewrite rev_length, beadd_length, rev_length|].
  intros j Hj. rewrite rev_involutive, beadd_nocarry; [|now apply Forall_rev|now rewrite !rev_length]. rewrite rev_length.
  rewrite (nth_indep _ 0%N (w8 (at_ (rev r) 0 + at_ (rev a) 0))) by (now rewrite map_length, seq_length).
  rewrite (map_nth (fun i => w8 (at_ (rev r) i + at_ (rev a) i))), seq_nth by exact Hj. rewrite Nat.add_0_l, w8_mod. reflexivity.
Qed.
(** It is addition modulo 2^(8 len) when no byte position overflows ... *)
Lemma le_val_pointwise : forall r a, length a <= length r -> (forall j, j < length r -> (at_ r j + at_ a j < 256)%N) ->
  le_val (map (fun i => w8 (at_ r i + at_ a i)) (seq 0 (length r))) = (le_val r + le_val a)%N.
Proof.
  induction r as [|x r IH]; intros a L H; [destruct a; [reflexivity|simpl in L; lia]|].
  cbn [length]. rewrite seq_cons. cbn [map le_val]. rewrite <- seq_shift, map_map.
  pose proof (H 0 ltac:(simpl; lia)) as H0. unfold at_ in H0. cbn [nth] in H0.
  destruct a as [|y a].
  - cbn [le_val nth] in *. rewrite N.add_0_r in *. rewrite (map_ext _ (fun i => w8 (at_ r i + at_ [] i))) by (intros i; unfold at_; cbn [nth]; destruct i; reflexivity).
    rewrite IH; [|simpl; lia|intros j Hj; specialize (H (S j) ltac:(simpl; lia)); unfold at_ in *; cbn [nth] in H; destruct j; exact H].
    cbn [le_val]. unfold at_. cbn [nth]. rewrite N.add_0_r, w8_small by lia. lia.
  - cbn [le_val]. rewrite (map_ext _ (fun i => w8 (at_ r i + at_ a i))) by (intros i; reflexivity).
    rewrite IH; [|simpl in L; lia|intros j Hj; exact (H (S j) ltac:(simpl; lia))].
    unfold at_. cbn [nth] in *. rewrite w8_small by lia. lia.
Qed.
Theorem C57_beadd_no_overflow : forall r a, isbytes r -> length a <= length r ->
  (forall j, j < length r -> (from_end r j + from_end a j < 256)%N) ->
  be_val (beAdd r a) = ((be_val r + be_val a) mod 256 ^ N.of_nat (length r))%N.
Proof.
  intros r a Hr L H. unfold beAdd, be_val. rewrite rev_involutive, beadd_nocarry; [|now apply Forall_rev|now rewrite !rev_length].
  rewrite le_val_pointwise; [|now rewrite !rev_length|intros j Hj; apply H; now rewrite rev_length in Hj].
  symmetry. apply N.mod_small. rewrite <- (le_val_pointwise (rev r) (rev a)); [|now rewrite !rev_length|intros j Hj; apply H; now rewrite rev_length in Hj].
  set (l := map _ _). replace (length r) with (length l) by (unfold l; now rewrite map_length, seq_length, rev_length).
  replace (256 ^ N.of_nat (length l))%N with (2 ^ N.of_nat (8 * length l))%N by (rewrite Nat2N.inj_mul, N.pow_mul_r; reflexivity).
  apply le_val_lt. unfold l. apply Forall_forall. intros z Hz. apply in_map_iff in Hz. destruct Hz as [i [<- _]]. apply w8_lt.
Qed.
(** ... and it is not addition in general: adding 1 to 0...0ff gives 0...00, not 0...0100. *)
Theorem C57_beadd_refuted : exists r a, isbytes r /\ isbytes a /\ length r = 55 /\ length a = 4 /\
  be_val (beAdd r a) <> ((be_val r + be_val a) mod 2 ^ 440)%N.
Proof.
  exists (zeros 54 ++ [255%N]), [0%N; 0%N; 0%N; 1%N].
  split; [apply Forall_app; split; [apply zeros_isbytes|repeat constructor]|].
  split; [repeat constructor; reflexivity|]. split; [reflexivity|]. split; [reflexivity|]. vm_compute. discriminate.
Qed.
Example C57_nonvacuous : be_val (beAdd (zeros 54 ++ [200%N]) [1%N; 2%N]) = 458%N.
Proof. vm_compute. reflexivity. Qed.

(** ** C58: the derivation function *)
(** Hash_df of GM/T 0105 (NIST SP 800-90A 10.3.1) for 440 bits: the first 55 bytes of
    SM3(01 || 440 || m) || SM3(02 || 440 || m), with the four-byte counters the code uses. *)
Definition df_input (k : N) (m : list N) : list N := [0; 0; 0; k]%N ++ be_bytes 4 440 ++ m.
Definition hash_df (m : list N) : list N := firstn 55 (sm3_spec (df_input 1 m) ++ sm3_spec (df_input 2 m)).
Lemma df_input_eq : forall k m, df_prefix k ++ m = df_input k m.
Proof. intros. reflexivity. Qed.
(** For every sequence of Writes, Sum appends 55 bytes: 23 bytes of the second hash, 9 bytes of the first
    hash and 23 zero bytes. *)
Theorem C58_df_exact : forall ws inp,
  let m := concat ws in
  df_sum (fold_left df_write ws df_new) inp
  = inp ++ firstn 23 (sm3_spec (df_input 2 m)) ++ skipn 23 (sm3_spec (df_input 1 m)) ++ repeat 0%N 23.
Proof.
  intros ws inp m. unfold df_sum. rewrite (df_checkSum_ok _ m); [reflexivity|].
  exact (df_fold_rel ws df_new [] df_new_rel).
Qed.
Theorem C58_df_tail_zero : forall ws j, 32 <= j -> nth j (df_sum (fold_left df_write ws df_new) []) 0%N = 0%N.
Proof.
  intros ws j Hj. rewrite C58_df_exact. cbn [app].
  rewrite app_nth2; rewrite firstn_length, sm3_spec_len; [|lia]. rewrite app_nth2; rewrite skipn_length, sm3_spec_len; [|lia].
  set (i := j - _ - _). destruct (Nat.lt_ge_cases i 23) as [H|H]; [apply nth_repeat|apply nth_overflow; rewrite repeat_length; lia].
Qed.
Theorem C58_df_refuted : exists ws, df_sum (fold_left df_write ws df_new) [] <> hash_df (concat ws).
Proof. exists [[0%N]]. vm_compute. discriminate. Qed.
(** The 55 bytes are determined by their first 32: the function's range has 2^256 elements, not 2^440. *)
Theorem C58_df_entropy_refuted : forall ws ws',
  firstn 32 (df_sum (fold_left df_write ws df_new) []) = firstn 32 (df_sum (fold_left df_write ws' df_new) []) ->
  df_sum (fold_left df_write ws df_new) [] = df_sum (fold_left df_write ws' df_new) [].
Proof.
  intros ws ws'. rewrite !C58_df_exact. cbn [app]. rewrite !(app_assoc (firstn 23 _)).
  assert (L : forall a b, length (firstn 23 (sm3_spec a) ++ skipn 23 (sm3_spec b)) = 32) by (intros; rewrite app_length, firstn_length, skipn_length, !sm3_spec_len; reflexivity).
  assert (F : forall a b z, firstn 32 ((firstn 23 (sm3_spec a) ++ skipn 23 (sm3_spec b)) ++ z) = firstn 23 (sm3_spec a) ++ skipn 23 (sm3_spec b)).
  { intros a b z. specialize (L a b). set (x := _ ++ skipn _ _) in *. clearbody x. rewrite firstn_app, L, Nat.sub_diag, firstn_O, app_nil_r. apply firstn_all2. lia. }
  rewrite !F. now intros ->.
Qed.

(** ** C73: Generate fills the output *)
(** The value of V from which the output is taken: reseeding and additional input are applied first. *)
Definition gen_V (t : sm3rand) (addin entropy : list N) (now : N) : list N :=
  if needs_reseed t now then rV (rand_reseed t entropy addin now)
  else if 0 <? length addin then beAdd (rV t) (sm3_spec (2%N :: rV t ++ addin)) else rV t.
Lemma gen_out : forall t out addin entropy now,
  snd (rand_generate t out addin entropy now) =
  (if length out <? 32 then copy_at out 0 (firstn (length out) (sm3_spec (gen_V t addin entropy now))) else copy_at out 0 (sm3_spec (gen_V t addin entropy now))).
Proof.
  intros. unfold rand_generate, gen_V. cbv zeta. cbn [snd]. rewrite !sm3_of_ok. cbn [concat].
  destruct (needs_reseed t now); [cbn [length]; change (0 <? 0) with false; cbv iota; now rewrite app_nil_r|].
  rewrite ?app_nil_r. destruct (0 <? length addin); cbn [app]; reflexivity.
Qed.
(** For every state, clock, entropy, additional input and buffer: the first 32 bytes of the buffer (all of a
    shorter one) become the corresponding bytes of SM3(V); every later byte keeps its old value. *)
Theorem C73_generate_exact : forall t out addin entropy now,
  snd (rand_generate t out addin entropy now)
  = firstn (length out) (sm3_spec (gen_V t addin entropy now)) ++ skipn 32 out.
Proof.
  intros. rewrite gen_out. set (h := sm3_spec _). assert (L : length h = 32) by apply sm3_spec_len. clearbody h.
  unfold copy_at. rewrite Nat.sub_0_r. cbn [firstn app]. destruct (Nat.ltb_spec (length out) 32) as [H|H].
  - rewrite firstn_firstn, Nat.min_id, !firstn_length, L. rewrite !skipn_all2 by lia. reflexivity.
  - rewrite (firstn_all2 h) by lia. rewrite L. f_equal. f_equal. lia.
Qed.
(** In particular a caller's buffer of more than 32 bytes is left unfilled from byte 32 on, in every state. *)
Theorem C73_generate_tail_unchanged_refuted : forall t out addin entropy now j, 32 <= j ->
  nth j (snd (rand_generate t out addin entropy now)) 0%N = nth j out 0%N.
Proof.
  intros t out addin entropy now j Hj. rewrite C73_generate_exact. set (h := sm3_spec _). assert (L : length h = 32) by apply sm3_spec_len. clearbody h.
  destruct (Nat.lt_ge_cases j (length out)) as [H|H].
  - rewrite app_nth2; rewrite firstn_length, L; [|lia]. replace (Nat.min (length out) 32) with 32 by lia.
    rewrite <- (firstn_skipn 32 out) at 2. rewrite app_nth2; rewrite firstn_length; [|lia]. now replace (Nat.min 32 (length out)) with 32 by lia.
  - rewrite !nth_overflow; [reflexivity|lia|]. rewrite app_length, firstn_length, skipn_length, L. lia.
Qed.
(** State update: V + H + C + counter with the byte-wise (carry-less) addition; C and the time are kept. *)
Theorem C73_generate_state : forall t out addin entropy now,
  let t1 := if needs_reseed t now then rand_reseed t entropy addin now else t in
  let V := gen_V t addin entropy now in
  fst (rand_generate t out addin entropy now)
  = mkrand (beAdd (beAdd (beAdd V (sm3_spec (3%N :: V))) (rC t1)) (be_bytes 4 (rCtr t1))) (rC t1) ((rCtr t1 + 1) mod 2 ^ 32) (rTime t1).
Proof.
  intros. subst t1 V. unfold rand_generate, gen_V. cbv zeta. cbn [fst]. rewrite !sm3_of_ok. cbn [concat]. rewrite ?app_nil_r, <- !w32_mod.
  destruct (needs_reseed t now); [reflexivity|]. destruct (0 <? length addin); reflexivity.
Qed.
(** Every V and C of a reachable generator has 55 bytes, so beAdd's fixed index 54 never goes out of range. *)
Inductive rand_reach : sm3rand -> Prop :=
| rr_new : forall entropy nonce label now, rand_reach (rand_new entropy nonce label now)
| rr_gen : forall t out addin entropy now, rand_reach t -> rand_reach (fst (rand_generate t out addin entropy now)).
Lemma df_of_len : forall ps, length (df_of ps) = 55.
Proof. intros. unfold df_of. rewrite C58_df_exact. cbn [app]. rewrite !app_length, firstn_length, skipn_length, !sm3_spec_len, repeat_length. reflexivity. Qed.
Lemma beAdd_len : forall r a, length (beAdd r a) = length r.
Proof. intros. unfold beAdd. now rewrite rev_length, beadd_length, rev_length. Qed.
Theorem C73_reachable_lengths : forall t, rand_reach t -> length (rV t) = 55 /\ length (rC t) = 55.
Proof.
  induction 1 as [e n l w|t out addin e w _ [IV IC]].
  - unfold rand_new. cbn [rV rC]. split; apply df_of_len.
  - rewrite C73_generate_state. cbv zeta. cbn [rV rC]. rewrite !beAdd_len. unfold gen_V.
    destruct (needs_reseed t w).
    + unfold rand_reseed. cbn [rV rC]. split; apply df_of_len.
    + destruct (0 <? length addin); rewrite ?beAdd_len; auto.
Qed.

(** ** C74: reseeding *)
(** Generate reseeds exactly when the call counter exceeds 2^20: the elapsed-time condition compares the
    seconds-of-the-minute of the two clock readings, so it never holds, however much time has passed. *)
Theorem C74_reseed_iff : forall t now, needs_reseed t now = true <-> (2 ^ 20 < rCtr t)%N.
Proof.
  intros t now. unfold needs_reseed. change (2 ^ 20)%N with 1048576%N. rewrite orb_true_iff, N.ltb_lt, Z.ltb_lt.
  pose proof (N.mod_lt now 60 ltac:(lia)) as Hm. revert Hm. generalize (now mod 60)%N (rTime t mod 60)%N. intros a b Hm. split; [intros [H1|H1]; [exact H1|lia]|auto].
Qed.
Theorem C74_time_reseed_refuted : forall t now, (rCtr t <= 2 ^ 20)%N -> (rTime t + 600 < now)%N -> needs_reseed t now = false.
Proof. intros t now H _. destruct (needs_reseed t now) eqn:E; [|reflexivity]. apply C74_reseed_iff in E. lia. Qed.
(** A generator that has served n <= 2^20 requests since it was created has never reseeded. *)
Fixpoint gen_n (t : sm3rand) (reqs : list (list N * list N * list N * N)) : sm3rand :=
  match reqs with
  | [] => t
  | (out, addin, e, now) :: reqs => gen_n (fst (rand_generate t out addin e now)) reqs
  end.
Lemma gen_step_keep : forall t out addin e w, (rCtr t <= 2 ^ 20)%N ->
  rCtr (fst (rand_generate t out addin e w)) = (rCtr t + 1)%N /\ rTime (fst (rand_generate t out addin e w)) = rTime t /\ rC (fst (rand_generate t out addin e w)) = rC t.
Proof.
  intros t out addin e w H. rewrite C73_generate_state. cbv zeta. cbn [rCtr rTime rC].
  destruct (needs_reseed t w) eqn:E; [apply C74_reseed_iff in E; lia|]. split; [|auto]. apply N.mod_small.
  change (2 ^ 32)%N with 4294967296%N. change (2 ^ 20)%N with 1048576%N in H. lia.
Qed.
Theorem C74_counter : forall reqs t, (rCtr t + N.of_nat (length reqs) <= 2 ^ 20 + 1)%N ->
  rCtr (gen_n t reqs) = (rCtr t + N.of_nat (length reqs))%N /\ rTime (gen_n t reqs) = rTime t /\ rC (gen_n t reqs) = rC t.
Proof.
  induction reqs as [|[[[out addin] e] w] reqs IH]; intros t H; cbn [gen_n length] in *; [rewrite N.add_0_r; auto|].
  destruct (gen_step_keep t out addin e w ltac:(lia)) as [A [B C]].
  destruct (IH (fst (rand_generate t out addin e w)) ltac:(lia)) as [A' [B' C']]. rewrite A', B', C', A, B, C. split; [lia|auto].
Qed.
Theorem C74_counter_reseed : forall t out addin e now, (2 ^ 20 < rCtr t)%N ->
  let t' := fst (rand_generate t out addin e now) in
  rCtr t' = 2%N /\ rTime t' = now /\ rC t' = rC (rand_reseed t e addin now).
Proof.
  intros t out addin e now H t'. subst t'. rewrite C73_generate_state. cbv zeta. cbn [rCtr rTime rC].
  apply C74_reseed_iff with (now := now) in H. rewrite H. auto.
Qed.
Example C74_nonvacuous : exists t, rand_reach t /\ rCtr t = 1%N /\ needs_reseed t 100000 = false.
Proof. exists (rand_new [] [] [] 5%N). split; [constructor|]. split; reflexivity. Qed.
