(** PropSkein.v -- final theorems about packages skein, skein256, skein1024 and threefish. *)
From Coq Require Import List NArith Arith Lia Bool.
From Verif Require Import Base Words HashAPI Buf Buf3 Refine SpecCmac SpecSkein ThreefishTab Threefish Skein.
Import ListNotations.

(** ** C40: Threefish.  NewCipher accepts exactly the three key sizes; its ciphers are the Threefish of the Skein paper and
    Decrypt and Encrypt are inverse to each other on all blocks. *)
Lemma NewCipher_inv : forall tweak key c, NewCipher tweak key = Some c ->
  exists v, length key = nb v /\ c = (v, newCipher v tweak key).
Proof.
  intros tweak key c H. unfold NewCipher in H.
  destruct (Nat.eqb_spec (length key) 32) as [E|_]; [exists V256; inversion H; auto|].
  destruct (Nat.eqb_spec (length key) 64) as [E|_]; [exists V512; inversion H; auto|].
  destruct (Nat.eqb_spec (length key) 128) as [E|_]; [exists V1024; inversion H; auto|]. discriminate.
Qed.
Theorem C40_threefish_key_sizes : forall tweak key, NewCipher tweak key = None <-> ~ In (length key) [32; 64; 128].
Proof.
  intros tweak key. unfold NewCipher. cbn [In].
  destruct (Nat.eqb_spec (length key) 32); [split; [discriminate|intros H; exfalso; apply H; auto]|].
  destruct (Nat.eqb_spec (length key) 64); [split; [discriminate|intros H; exfalso; apply H; auto]|].
  destruct (Nat.eqb_spec (length key) 128); [split; [discriminate|intros H; exfalso; apply H; auto]|].
  split; auto. intros _ [H|[H|[H|[]]]]; congruence.
Qed.
Theorem C40_threefish_is_standard : forall tweak key c src, NewCipher tweak key = Some c -> length src = length key ->
  exists v, length key = nb v /\
  tf_Encrypt c src = to_bytes (threefish v (to_words key) (le_val (slice tweak 0 8), le_val (slice tweak 8 16)) (to_words src)).
Proof.
  intros tweak key c src H L. destruct (NewCipher_inv _ _ _ H) as (v & Lk & ->). exists v. split; auto.
  rewrite newCipher_eq by auto. unfold tf_Encrypt. rewrite bytesToBlock_ok by congruence.
  rewrite Encrypt_ok by (rewrite to_words_len, Lk; unfold nb; now rewrite Nat.mul_comm, Nat.div_mul). reflexivity.
Qed.
Theorem C40_threefish_decrypt_encrypt : forall tweak key c src, NewCipher tweak key = Some c ->
  isbytes key -> isbytes src -> length src = length key -> tf_Decrypt c (tf_Encrypt c src) = src.
Proof.
  intros tweak key c src H Bk Bs L. destruct (NewCipher_inv _ _ _ H) as (v & Lk & ->).
  pose proof (newCipher_wf v tweak key Bk) as WK. destruct (newCipher v tweak key) as [keys tw]. cbn [fst] in WK.
  unfold tf_Decrypt, tf_Encrypt. destruct (Dec_Enc v (bytesToBlock v src) keys tw (bytesToBlock_wf v src Bs) WK) as [E W].
  rewrite bytes_block by auto. rewrite E. apply block_bytes; auto. congruence.
Qed.
Theorem C40_threefish_encrypt_decrypt : forall tweak key c src, NewCipher tweak key = Some c ->
  isbytes key -> isbytes src -> length src = length key -> tf_Encrypt c (tf_Decrypt c src) = src.
Proof.
  intros tweak key c src H Bk Bs L. destruct (NewCipher_inv _ _ _ H) as (v & Lk & ->).
  pose proof (newCipher_wf v tweak key Bk) as WK. destruct (newCipher v tweak key) as [keys tw]. cbn [fst] in WK.
  unfold tf_Decrypt, tf_Encrypt. destruct (Enc_Dec v (bytesToBlock v src) keys tw (bytesToBlock_wf v src Bs) WK) as [E W].
  rewrite bytes_block by auto. rewrite E. apply block_bytes; auto. congruence.
Qed.
(** the exported word-level functions, for arbitrary expanded keys and tweaks *)
Theorem C40_threefish_words : forall v block keys tweak,
  length block = nw v -> Forall is64 block -> length keys = nw v + 1 -> Forall is64 keys ->
  Decrypt v (Encrypt v block keys tweak) keys tweak = block /\ Encrypt v (Decrypt v block keys tweak) keys tweak = block.
Proof. intros v b k t L1 F1 L2 F2. split; [apply Dec_Enc|apply Enc_Dec]; split; auto. Qed.
Example C40_nonvacuous : match NewCipher (zeros 16) (zeros 64) with Some c => tf_Encrypt c (zeros 64) <> zeros 64 | None => False end.
Proof. vm_compute. discriminate. Qed.

(** ** C41: New(hashsize, conf) of the three packages, New512(key) and New256(key): the hash.Hash contract for Skein with every
    configuration, for all call histories in which every Sum is preceded by a Write and fewer than 2^64 bytes are written. *)
Theorem C41_skein_contract : forall v hashsize c ops, 1 <= hashsize -> config_small c -> written_first false ops = true -> (ops_total ops < 2 ^ 64)%N ->
  exists s, sk_initialize v hashsize c = Some s /\ run (sk_impl v) s ops = ideal_run (skein v hashsize c) [] ops.
Proof.
  intros v hs c ops Hh HC WF HB. destruct (skein_chain_ok v hs c HC) as [E L]. rewrite E. destruct (Nat.ltb_spec hs 1); [lia|].
  exists (sk_fresh v hs (skein_chain v hs c)). split; auto. apply (sk_run_ok v hs (skein_chain v hs c) ops false); auto. apply fresh_sk.
Qed.
Lemma iv_facts : iv512 = skein_chain V512 64 no_config /\ iv384 = skein_chain V512 48 no_config /\
  iv256 = skein_chain V512 32 no_config /\ iv160 = skein_chain V512 20 no_config.
Proof. repeat split; vm_compute; reflexivity. Qed.
Lemma key_config_small : forall key, (N.of_nat (length key) < 2 ^ 64)%N -> config_small (key_config key).
Proof. intros key H. repeat constructor; exact H. Qed.
Lemma sk_keyed_ok : forall hs iv key, 1 <= hs -> iv = skein_chain V512 hs no_config -> (N.of_nat (length key) < 2 ^ 64)%N ->
  sk_keyed hs iv key = Some (sk_fresh V512 hs (skein_chain V512 hs (key_config key))).
Proof.
  intros hs iv key Hh -> HK. unfold sk_keyed. destruct key as [|x key]; [reflexivity|]. change (0 <? length (x :: key)) with true. cbv iota.
  destruct (skein_chain_ok V512 hs (key_config (x :: key)) (key_config_small _ HK)) as [E _]. rewrite E. destruct (Nat.ltb_spec hs 1); [lia|reflexivity].
Qed.
Theorem C41_skein_New512_New256 : forall key ops, (N.of_nat (length key) < 2 ^ 64)%N -> written_first false ops = true -> (ops_total ops < 2 ^ 64)%N ->
  exists s5 s2, New512 key = Some s5 /\ New256 key = Some s2 /\
  run (sk_impl V512) s5 ops = ideal_run (skein V512 64 (key_config key)) [] ops /\
  run (sk_impl V512) s2 ops = ideal_run (skein V512 32 (key_config key)) [] ops.
Proof.
  intros key ops HK WF HB. destruct iv_facts as (E5 & _ & E2 & _). unfold New512, New256.
  rewrite (sk_keyed_ok 64 iv512 key ltac:(lia) E5 HK), (sk_keyed_ok 32 iv256 key ltac:(lia) E2 HK).
  destruct (skein_chain_ok V512 64 (key_config key) (key_config_small _ HK)) as [_ L5]. destruct (skein_chain_ok V512 32 (key_config key) (key_config_small _ HK)) as [_ L2].
  eexists _, _. split; [reflexivity|]. split; [reflexivity|]. split; apply (sk_run_ok V512 _ _ ops false); auto; apply fresh_sk.
Qed.
(** hashsize 0 is rejected (panic). *)
Theorem C41_skein_hashsize_zero : forall v c, sk_initialize v 0 c = None.
Proof. reflexivity. Qed.
Example C41_nonvacuous : written_first false [Write [1]%N; Sum []; Write (zeros 64); Sum [7]%N; Reset; Write []; Sum []] = true /\
  config_small (mkconfig [1; 2]%N [3]%N [] [] [4]%N) /\
  skein V512 16 (mkconfig [1; 2]%N [3]%N [] [] [4]%N) [9]%N <> skein V512 16 no_config [9]%N /\ skein V256 40 no_config [] <> skein V256 40 no_config [0]%N.
Proof. split; [reflexivity|]. split; [repeat constructor|]. split; vm_compute; discriminate. Qed.

(** ** C42: the one-shot functions. *)
Lemma sum1_ok : forall v hs c msg n, config_small c -> n <= nb v -> n = hs -> 1 <= hs -> (N.of_nat (length msg) < 2 ^ 64)%N ->
  sk_sum1 v n (sk_fresh v hs (skein_chain v hs c)) msg = skein v hs c msg.
Proof.
  intros v hs c msg n HC Hn -> Hh HB. destruct (skein_chain_ok v hs c HC) as [_ L]. unfold sk_sum1, skein, skein_output.
  destruct (write_sk v hs (skein_chain v hs c) false _ [] msg (fresh_sk v hs _)) as [(_ & _ & _ & W & _) _]. cbn [app] in W.
  destruct (sk_finalize_ok v 48 _ _ msg L ltac:(tyin) W HB) as [E LU]. rewrite E, sk_output_ok by (auto; reflexivity).
  assert (Q : (hs + nb v - 1) / nb v = 1). { symmetry. apply (Nat.div_unique _ _ 1 (hs - 1)); lia. } rewrite Q. cbn [seq flat_map]. now rewrite app_nil_r.
Qed.
Lemma sum2_ok : forall v hs c msg n, config_small c -> nb v < n <= 2 * nb v -> n = hs -> (N.of_nat (length msg) < 2 ^ 64)%N ->
  sk_sum2 v n (sk_fresh v hs (skein_chain v hs c)) msg = skein v hs c msg.
Proof.
  intros v hs c msg n HC Hn -> HB. destruct (skein_chain_ok v hs c HC) as [_ L]. unfold sk_sum2, skein, skein_output.
  destruct (write_sk v hs (skein_chain v hs c) false _ [] msg (fresh_sk v hs _)) as [(_ & _ & _ & W & _) _]. cbn [app] in W.
  destruct (sk_finalize_ok v 48 _ _ msg L ltac:(tyin) W HB) as [E LU]. rewrite E, !sk_output_ok by (auto; reflexivity).
  assert (Q : (hs + nb v - 1) / nb v = 2). { symmetry. apply (Nat.div_unique _ _ 2 (hs - 1 - nb v)); lia. } rewrite Q. cbn [seq flat_map]. rewrite app_nil_r.
  set (U := ubi v (skein_chain v hs c) msg 48) in *. change (N.of_nat 0) with 0%N. change (N.of_nat 1) with 1%N.
  assert (LB : forall i, length (to_bytes (ubi v U (le_bytes 8 i) 63)) = nb v).
  { intros i. rewrite to_bytes_len. pose proof (ubi_split v U 63 [] (le_bytes 8 i)) as S. cbn [app] in S. rewrite S;
      [|apply Nat.mod_0_l; lia|rewrite le_bytes_length; apply nb_8|reflexivity]. rewrite ubi_block_len; [reflexivity|]. rewrite app_length, le_bytes_length, zeros_length. pose proof (nb_8 v). lia. }
  rewrite firstn_app, LB. rewrite (firstn_all2 (n := hs)) by (rewrite LB; lia). reflexivity.
Qed.
Theorem C42_skein_oneshot : forall msg key, (N.of_nat (length msg) < 2 ^ 64)%N -> (N.of_nat (length key) < 2 ^ 64)%N ->
  Sum512 msg key = Some (skein V512 64 (key_config key) msg) /\
  Sum384 msg key = Some (skein V512 48 (key_config key) msg) /\
  Sum256 msg key = Some (skein V512 32 (key_config key) msg) /\
  Sum160 msg key = Some (skein V512 20 (key_config key) msg) /\
  skein256_Sum512 msg key = Some (skein V256 64 (key_config key) msg) /\
  skein256_Sum384 msg key = Some (skein V256 48 (key_config key) msg) /\
  skein256_Sum256 msg key = Some (skein V256 32 (key_config key) msg) /\
  skein256_Sum160 msg key = Some (skein V256 20 (key_config key) msg) /\
  (forall n, 1 <= n <= 128 -> skein1024_Sum n msg key = Some (skein V1024 n (key_config key) msg)).
Proof.
  intros msg key HM HK. destruct iv_facts as (E5 & E3 & E2 & E1). pose proof (key_config_small key HK) as HC.
  assert (I : forall v hs, 1 <= hs -> sk_initialize v hs (key_config key) = Some (sk_fresh v hs (skein_chain v hs (key_config key)))).
  { intros v hs Hh. destruct (skein_chain_ok v hs (key_config key) HC) as [E _]. rewrite E. destruct (Nat.ltb_spec hs 1); [lia|reflexivity]. }
  unfold Sum512, Sum384, Sum256, Sum160, skein256_Sum512, skein256_Sum384, skein256_Sum256, skein256_Sum160, skein1024_Sum.
  rewrite (sk_keyed_ok 64 iv512 key ltac:(lia) E5 HK), (sk_keyed_ok 48 iv384 key ltac:(lia) E3 HK), (sk_keyed_ok 32 iv256 key ltac:(lia) E2 HK), (sk_keyed_ok 20 iv160 key ltac:(lia) E1 HK).
  rewrite !I by lia. cbn [option_map].
  assert (B5 : nb V512 = 64) by reflexivity. assert (B2 : nb V256 = 32) by reflexivity. assert (B1 : nb V1024 = 128) by reflexivity.
  rewrite !sum1_ok by (auto; lia). rewrite !sum2_ok by (auto; lia).
  repeat (split; [reflexivity|]). intros n Hn. rewrite I by lia. cbn [option_map]. now rewrite sum1_ok by (auto; lia).
Qed.
Theorem C42_skein_Sum : forall v msg hashsize c, 1 <= hashsize -> config_small c -> (N.of_nat (length msg) < 2 ^ 64)%N ->
  skein_Sum v msg hashsize c = Some (skein v hashsize c msg).
Proof.
  intros v msg hs c Hh HC HB. unfold skein_Sum. destruct (skein_chain_ok v hs c HC) as [E L]. rewrite E. destruct (Nat.ltb_spec hs 1); [lia|]. cbn [option_map i_sum sk_impl snd app].
  destruct (write_sk v hs (skein_chain v hs c) false _ [] msg (fresh_sk v hs _)) as [R _]. cbn [app] in R. rewrite (sk_check_ok v hs _ true _ msg L R HB). reflexivity.
Qed.
(** An object on which nothing was ever written, however, does not produce the hash of the empty message: it leaves out
    the message block. *)
Theorem C42_skein_unwritten_sum : forall v hashsize c i, 1 <= hashsize -> config_small c ->
  exists s, sk_initialize v hashsize c = Some s /\
  run (sk_impl v) s [Sum i] = [Summed (i ++ skein_output v (skein_chain v hashsize c) hashsize)].
Proof.
  intros v hs c i Hh HC. destruct (skein_chain_ok v hs c HC) as [E L]. rewrite E. destruct (Nat.ltb_spec hs 1); [lia|]. eexists. split; [reflexivity|].
  cbn [run i_sum sk_impl]. now rewrite (sk_check_ok v hs _ false _ [] L (fresh_sk v hs _)).
Qed.
Theorem C42_skein_unwritten_refuted : exists s out, New512 [] = Some s /\ run (sk_impl V512) s [Sum []] = [Summed out] /\ Sum512 [] [] <> Some out.
Proof.
  eexists _, _. split; [reflexivity|]. split; [reflexivity|]. vm_compute. discriminate.
Qed.

(** ** C69: IncrementTweak.  The tweak is the 128-bit number t1 * 2^64 + t0 whose low 96 bits are the position and whose other
    bits are the type and the flags.  It is right as long as t0 does not wrap... *)
Definition tweak_val (t : N * N) : N := snd t * 2 ^ 64 + fst t.
Definition advance (t ctr : N) : N := (t / 2 ^ 96) * 2 ^ 96 + (t mod 2 ^ 96 + ctr) mod 2 ^ 96.
Theorem C69_increment_no_carry : forall t0 t1 ctr, is64 t0 -> is64 t1 -> (t0 + ctr < 2 ^ 64)%N ->
  tweak_val (IncrementTweak (t0, t1) ctr) = advance (tweak_val (t0, t1)) ctr.
Proof.
  intros t0 t1 ctr H0 H1 H. rewrite incr_ok by auto. unfold tweak_val, advance. cbn [fst snd]. unfold is64 in *.
  rewrite (N.div_mod t1 (2 ^ 32)) at 1 2 3 by discriminate. set (q := (t1 / 2 ^ 32)%N). set (r := (t1 mod 2 ^ 32)%N).
  assert (Hr : (r < 2 ^ 32)%N) by (apply N.mod_lt; discriminate). clearbody q r.
  replace ((2 ^ 32 * q + r) * 2 ^ 64 + t0)%N with ((r * 2 ^ 64 + t0) + q * 2 ^ 96)%N by (change (2 ^ 96)%N with (2 ^ 32 * 2 ^ 64)%N; lia).
  assert (HS : (r * 2 ^ 64 + t0 + ctr < 2 ^ 96)%N).
  { apply N.lt_le_trans with (r * 2 ^ 64 + 2 ^ 64)%N; [lia|]. replace (r * 2 ^ 64 + 2 ^ 64)%N with ((r + 1) * 2 ^ 64)%N by lia. change (2 ^ 96)%N with (2 ^ 32 * 2 ^ 64)%N. apply N.mul_le_mono_r. lia. }
  rewrite N.div_add, N.mod_add by discriminate. rewrite N.div_small by lia. rewrite (N.mod_small (r * 2 ^ 64 + t0)) by lia. rewrite N.mod_small by lia.
  change (2 ^ 96)%N with (2 ^ 32 * 2 ^ 64)%N. lia.
Qed.
(** ... but when it does, the type and the flags are erased, so the documented limit of 2^96 - 1 bytes is wrong. *)
Theorem C69_increment_carry_erases : forall t0 t1 ctr, is64 t0 -> is64 ctr -> (2 ^ 64 <= t0 + ctr)%N ->
  (tweak_val (IncrementTweak (t0, t1) ctr) < 2 ^ 96)%N.
Proof.
  intros t0 t1 ctr H0 Hc H. unfold IncrementTweak, is64 in *. assert (E : add64 t0 ctr = (t0 + ctr - 2 ^ 64)%N).
  { unfold add64. rewrite w64_mod. change 18446744073709551616%N with (2 ^ 64)%N. rewrite <- (N.mod_small (t0 + ctr - 2 ^ 64) (2 ^ 64)) by lia.
    replace (t0 + ctr)%N with (t0 + ctr - 2 ^ 64 + 1 * 2 ^ 64)%N at 1 by lia. now rewrite N.mod_add by discriminate. }
  rewrite E. destruct (N.ltb_spec (t0 + ctr - 2 ^ 64) t0); [|lia]. unfold tweak_val. cbn [fst snd].
  change 0xFFFFFFFF%N with (N.ones 32). rewrite N.land_ones. set (r := (add64 t1 1 mod 2 ^ 32)%N). assert (r < 2 ^ 32)%N by (apply N.mod_lt; discriminate). clearbody r.
  apply N.lt_le_trans with (r * 2 ^ 64 + 2 ^ 64)%N; [lia|]. replace (r * 2 ^ 64 + 2 ^ 64)%N with ((r + 1) * 2 ^ 64)%N by lia. change (2 ^ 96)%N with (2 ^ 32 * 2 ^ 64)%N. apply N.mul_le_mono_r. lia.
Qed.
Theorem C69_increment_refuted : exists t0 t1 ctr, is64 t0 /\ is64 t1 /\ ctr = 64%N /\
  tweak_val (IncrementTweak (t0, t1) ctr) <> advance (tweak_val (t0, t1)) ctr.
Proof.
  exists (2 ^ 64 - 64)%N, (48 * 2 ^ 56)%N, 64%N. split; [reflexivity|]. split; [reflexivity|]. split; [reflexivity|]. vm_compute. discriminate.
Qed.
