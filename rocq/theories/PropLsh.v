(** PropLsh.v -- packages lsh256 and lsh512 against the LSH specification (C85, C86, C87). *)
From Coq Require Import List NArith Arith Lia Bool.
From Verif Require Import Base Words HashAPI Buf MD Bytes SpecLsh Lsh LshP.
Import ListNotations.
Opaque l_CF.

(** The constructors: (configuration, family, digest size in bytes, initial value chosen by Reset). *)
Definition lsh256_params (hs : nat) (iv : list N) : Prop := In (hs, iv) [(28, lsh256_iv224); (32, lsh256_iv256)].
Definition lsh512_params (hs : nat) (iv : list N) : Prop := In (hs, iv) [(28, lsh512_iv224); (32, lsh512_iv256); (48, lsh512_iv384); (64, lsh512_iv512)].

Lemma words_zeros : forall F wb, 0 < wb -> l_bytes F = wb -> l_words F (zeros (32 * wb)) = zeros 32.
Proof.
  intros F wb Hw E. unfold l_words. rewrite E. unfold chunks. unfold zeros at 2. rewrite repeat_length, Nat.div_mul by lia. rewrite map_map. 
  transitivity (map (fun _ : nat => 0%N) (seq 0 32)); [|reflexivity]. apply map_ext_in. intros i Hi. apply in_seq in Hi.
  assert (Z : forall a b, exists c, firstn a (skipn b (zeros (32 * wb))) = zeros c).
  { intros a b. unfold zeros. generalize (32 * wb). intro n. revert b. induction n as [|n IH]; intro b; [exists 0; destruct b, a; reflexivity|].
    destruct b as [|b]; [|cbn [repeat]; rewrite skipn_cons; apply IH]. rewrite skipn_O. exists (min a (S n)). clear. revert a. induction (S n); intros [|a]; cbn; f_equal; auto. }
  destruct (Z wb (i * wb)) as [c ->]. induction c as [|c IH]; [reflexivity|]. cbn [zeros repeat le_val]. unfold zeros in IH. rewrite IH. reflexivity.
Qed.
Lemma iv_ok : forall G F hs iv, lmatch G F -> fst (lsh_compress G (l_w F :: (8 * N.of_nat hs)%N :: zeros 14, zeros (16 * (g_numStep G + 1))) (zeros (32 * g_wb G))) = iv -> iv = l_IV F (8 * N.of_nat hs).
Proof.
  intros G F hs iv HM E. destruct (compress_ok G F HM (l_w F :: (8 * N.of_nat hs)%N :: zeros 14) (zeros (16 * (g_numStep G + 1))) (zeros (32 * g_wb G))) as [A _]; [apply repeat_length|apply repeat_length|].
  rewrite E, words_zeros in A by (apply (lm_wb _ _ HM) || apply (l_bytes_wb _ _ HM)). exact A.
Qed.
Lemma params256 : forall hs iv, lsh256_params hs iv -> hs <= 8 * 4 /\ iv = l_IV LSH256 (8 * N.of_nat hs).
Proof.
  intros hs iv H. destruct H as [H|[H|[]]]; injection H as <- <-; (split; [lia|]); apply (iv_ok lsh256_cfg); (exact match256 || (vm_compute; reflexivity)).
Qed.
Lemma params512 : forall hs iv, lsh512_params hs iv -> hs <= 8 * 8 /\ iv = l_IV LSH512 (8 * N.of_nat hs).
Proof.
  intros hs iv H. destruct H as [H|[H|[H|[H|[]]]]]; injection H as <- <-; (split; [lia|]); apply (iv_ok lsh512_cfg); (exact match512 || (vm_compute; reflexivity)).
Qed.

(** Histories, for either family. *)
Lemma lsh_histories : forall G F hs iv, lmatch G F -> (exists e, g_wb G = 2 ^ e) -> hs <= 8 * g_wb G -> iv = l_IV F (8 * N.of_nat hs) ->
  forall ops, run (lsh_impl G hs iv) (lsh_new G iv) ops = ideal_run (lsh F hs) [] ops.
Proof.
  intros G F hs iv HM He Hh Hiv ops. assert (Hb : 0 < lsh_bs G) by (unfold lsh_bs; pose proof (lm_wb _ _ HM); lia).
  assert (N0 : lsh_rel G iv (lsh_new G iv) []) by (apply (dig_rel_new (lsh_bs G) (lsh_compress G) Hb); apply repeat_length).
  apply (run_refines _ (lsh_impl G hs iv) (lsh F hs) (lsh_rel G iv)); cbn [i_write i_sum i_reset lsh_impl].
  - intros d m p HR. apply (write_nolen_rel (lsh_bs G) (lsh_compress G) Hb). exact HR.
  - intros d m p _. apply (write_nolen_count (lsh_bs G) (lsh_compress G)).
  - intros d m i HR. exact HR.
  - intros d m i HR. unfold lsh_sum. cbn [snd]. f_equal. now apply (checkSum_ok G F HM iv).
  - intros d m _. exact N0.
  - exact N0.
Qed.
Lemma lsh_hash_length : forall G F hs iv m, lmatch G F -> (exists e, g_wb G = 2 ^ e) -> hs <= 8 * g_wb G -> iv = l_IV F (8 * N.of_nat hs) -> length (lsh F hs m) = hs.
Proof.
  intros G F hs iv m HM He Hh Hiv. unfold lsh. rewrite firstn_length, flat_map_concat_map. rewrite <- (map_map (fun l => N.lxor (at_ _ l) (at_ _ (l + 8))) (le_bytes (l_bytes F))).
  rewrite concat_le_length, map_length, seq_length, (l_bytes_wb _ _ HM). lia.
Qed.
Lemma lsh_oneshot_ok : forall G F hs iv size, lmatch G F -> (exists e, g_wb G = 2 ^ e) -> hs <= 8 * g_wb G -> iv = l_IV F (8 * N.of_nat hs) -> size <= hs ->
  forall m, lsh_oneshot G hs iv size m = firstn size (lsh F hs m).
Proof.
  intros G F hs iv size HM He Hh Hiv Hs m. unfold lsh_oneshot, lsh_sum. cbn [snd app]. rewrite (checkSum_ok G F HM iv hs _ m); auto.
  - pose proof (lsh_hash_length G F hs iv m HM He Hh Hiv). rewrite copy_at_over by (rewrite firstn_length; unfold zeros; rewrite repeat_length; lia).
    rewrite skipn_all2 by (rewrite firstn_length; unfold zeros; rewrite repeat_length; lia). apply app_nil_r.
  - assert (Hb : 0 < lsh_bs G) by (unfold lsh_bs; pose proof (lm_wb _ _ HM); lia). apply (write_nolen_rel (lsh_bs G) (lsh_compress G) Hb _ (lsh_new G iv) []).
    apply (dig_rel_new (lsh_bs G) (lsh_compress G) Hb). apply repeat_length.
Qed.
Lemma p2_4 : exists e, g_wb lsh256_cfg = 2 ^ e. Proof. now exists 2. Qed.
Lemma p2_8 : exists e, g_wb lsh512_cfg = 2 ^ e. Proof. now exists 3. Qed.

(** C85: every history of Write, Sum and Reset on lsh256.New224 and lsh256.New, and the one-shot functions. No length bound. *)
Theorem C85_lsh256_histories : forall hs iv, lsh256_params hs iv -> forall ops,
  run (lsh_impl lsh256_cfg hs iv) (lsh_new lsh256_cfg iv) ops = ideal_run (lsh LSH256 hs) [] ops.
Proof. intros hs iv HP ops. destruct (params256 hs iv HP). apply (lsh_histories lsh256_cfg LSH256 hs iv match256 p2_4); assumption. Qed.
Theorem C85_lsh256_Sum : forall m, lsh256_Sum256 m = lsh LSH256 32 m /\ lsh256_Sum224 m = lsh LSH256 28 m.
Proof.
  intro m. destruct (params256 32 lsh256_iv256 ltac:(right; left; reflexivity)) as [A B]. destruct (params256 28 lsh256_iv224 ltac:(left; reflexivity)) as [C D].
  split; [unfold lsh256_Sum256|unfold lsh256_Sum224].
  - rewrite (lsh_oneshot_ok lsh256_cfg LSH256 32 lsh256_iv256 32 match256 p2_4 A B (le_n _)). apply firstn_all2. rewrite (lsh_hash_length lsh256_cfg LSH256 32 lsh256_iv256 m match256 p2_4 A B). lia.
  - rewrite (lsh_oneshot_ok lsh256_cfg LSH256 28 lsh256_iv224 28 match256 p2_4 C D (le_n _)). apply firstn_all2. rewrite (lsh_hash_length lsh256_cfg LSH256 28 lsh256_iv224 m match256 p2_4 C D). lia.
Qed.
(** C86: the same for lsh512.New224, New256, New384, New, and lsh512.Sum. *)
Theorem C86_lsh512_histories : forall hs iv, lsh512_params hs iv -> forall ops,
  run (lsh_impl lsh512_cfg hs iv) (lsh_new lsh512_cfg iv) ops = ideal_run (lsh LSH512 hs) [] ops.
Proof. intros hs iv HP ops. destruct (params512 hs iv HP). apply (lsh_histories lsh512_cfg LSH512 hs iv match512 p2_8); assumption. Qed.
Theorem C86_lsh512_Sum : forall m, lsh512_Sum m = lsh LSH512 64 m.
Proof.
  intro m. destruct (params512 64 lsh512_iv512 ltac:(right; right; right; left; reflexivity)) as [A B]. unfold lsh512_Sum.
  rewrite (lsh_oneshot_ok lsh512_cfg LSH512 64 lsh512_iv512 64 match512 p2_8 A B (le_n _)). apply firstn_all2. rewrite (lsh_hash_length lsh512_cfg LSH512 64 lsh512_iv512 m match512 p2_8 A B). lia.
Qed.
(** C87: the three truncated one-shot functions of lsh512 return a prefix of the LSH-512-512 digest on every input ... *)
Theorem C87_lsh512_truncated_Sums_actual : forall m,
  lsh512_Sum384 m = firstn 48 (lsh LSH512 64 m) /\ lsh512_Sum256 m = firstn 32 (lsh LSH512 64 m) /\ lsh512_Sum224 m = firstn 28 (lsh LSH512 64 m).
Proof.
  intro m. destruct (params512 64 lsh512_iv512 ltac:(right; right; right; left; reflexivity)) as [A B].
  split; [|split]; apply (lsh_oneshot_ok lsh512_cfg LSH512 64 lsh512_iv512 _ match512 p2_8 A B); lia.
Qed.
(** ... which is not what New384, New256 and New224 (LSH-512-384, LSH-512-256, LSH-512-224) compute: on the empty message they differ. *)
Theorem C87_lsh512_truncated_Sums_refuted :
  lsh512_Sum384 [] <> lsh LSH512 48 [] /\ lsh512_Sum256 [] <> lsh LSH512 32 [] /\ lsh512_Sum224 [] <> lsh LSH512 28 [].
Proof.
  assert (E : forall hs iv, lsh512_params hs iv -> lsh LSH512 hs [] = lsh_checkSum lsh512_cfg hs (lsh_new lsh512_cfg iv)).
  { intros hs iv HP. destruct (params512 hs iv HP) as [A B]. symmetry. apply (checkSum_ok lsh512_cfg LSH512 match512 iv hs _ []); auto using p2_8.
    apply (dig_rel_new (lsh_bs lsh512_cfg) (lsh_compress lsh512_cfg)); [vm_compute; lia|reflexivity]. }
  rewrite (E 48 lsh512_iv384), (E 32 lsh512_iv256), (E 28 lsh512_iv224) by (unfold lsh512_params; cbn [In]; tauto).
  split; [|split]; vm_compute; discriminate.
Qed.
(** Known answers (lsh256_test.go, first vectors of LSH-256-224) *)
Example lsh256_224_empty : lsh LSH256 28 [] = be_bytes 28 0x48A0D55B2B3D91F26E06F7110FE9CE8EA0E2656BBE344CB1C5930653.
Proof. rewrite <- (proj2 (C85_lsh256_Sum [])). vm_compute. reflexivity. Qed.
Example lsh256_224_one : lsh LSH256 28 [0x56%N] = be_bytes 28 0x6B3F5B095692AF487964F51B3248FE88132AD3F428969102AB3C2CF3.
Proof. rewrite <- (proj2 (C85_lsh256_Sum [0x56%N])). vm_compute. reflexivity. Qed.
(** The hypotheses are met by a history with writes that cross a block boundary, an intermediate Sum and a Reset. *)
Example lsh256_history : run (lsh_impl lsh256_cfg 28 lsh256_iv224) (lsh_new lsh256_cfg lsh256_iv224) [Write (zeros 100); Sum []; Write (zeros 100); Reset; Write [0x56%N]; Sum [7%N]] =
  [Wrote 100; Summed (lsh LSH256 28 (zeros 100)); Wrote 100; Wrote 1; Summed (7%N :: be_bytes 28 0x6B3F5B095692AF487964F51B3248FE88132AD3F428969102AB3C2CF3)].
Proof. rewrite C85_lsh256_histories by (left; reflexivity). cbn [ideal_run app]. rewrite lsh256_224_one. reflexivity. Qed.
