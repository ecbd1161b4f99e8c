(** PropBash.v -- properties C37, C79: package bash. *)
From Coq Require Import List NArith ZArith Arith Lia Bool.
From Verif Require Import Base Words HashAPI Buf Refine SpecBash Bash BashP.
Import ListNotations.

(** ** C37 *)
(** Cutting a message in pieces changes the digest: a Write that reaches beyond the end of the current block also
    mixes the following bytes into the part of the state that must not be touched. *)
Theorem C37_streaming_refuted : exists a b, isbytes (a ++ b) /\
  run (bash_impl 64) (bash_new 64) [Write (a ++ b); Sum []] <> [Wrote (length (a ++ b))] ++ tl (tl (run (bash_impl 64) (bash_new 64) [Write a; Write b; Sum []])).
Proof.
  exists (repeat 1%N 64), [2%N]. split; [repeat constructor|]. vm_compute. discriminate.
Qed.
(** In particular the one-shot function does not compute the standard's digest of this message, nor the sponge. *)
Theorem C37_standard_refuted : exists m, isbytes m /\ bash_Sum 64 m <> bash_std 64 m /\ bash_Sum 64 m <> bash_sponge 64 m.
Proof.
  exists (repeat 1%N 64 ++ [2%N]). split; [repeat constructor|]. split; vm_compute; discriminate.
Qed.
(** ... and the code xors each block where the standard overwrites, so even block-by-block writing is not standard. *)
Theorem C37_overwrite_refuted : exists m, isbytes m /\ length m = 64 /\ bash_Sum 64 m <> bash_std 64 m /\ bash_Sum 64 m = bash_sponge 64 m.
Proof.
  exists (repeat 1%N 64). split; [repeat constructor|]. split; [reflexivity|]. split; [vm_compute; discriminate|vm_compute; reflexivity].
Qed.

(** What does hold, for every hash size in bytes from 1 to 64 and every history: as long as no Write crosses a block
    boundary, the object is the hash.Hash of the (xor) sponge over the standard's bash-f. *)
Theorem C37_within_blocks : forall hs ops, 1 <= hs <= 64 -> Forall op_bytes ops -> fits hs [] ops ->
  run (bash_impl hs) (bash_new hs) ops = ideal_run (bash_sponge hs) [] ops.
Proof. intros hs ops H HB HF. apply history_fit; auto. now apply new_rel. Qed.
Example C37_within_blocks_nonvacuous : fits 32 [] [Write (zeros 100); Write (zeros 28); Sum []; Write (zeros 128); Reset; Write (zeros 5)].
Proof. cbn [fits]. repeat split; unfold bash_bs; cbn; lia. Qed.

(** Messages shorter than one block, however they are cut, hash to the standard's digest. *)
Lemma words_app : forall a b : list N, length a mod 8 = 0 -> bash_words (a ++ b) = bash_words a ++ bash_words b.
Proof.
  intros a b H. unfold bash_words. rewrite chunks_app, map_app by lia. f_equal. f_equal. f_equal.
  assert (E : rest 8 a = []) by (apply length_zero_iff_nil; rewrite rest_length by lia; exact H). now rewrite E.
Qed.
Lemma words_len : forall a, length (bash_words a) = length a / 8.
Proof. intros. unfold bash_words. now rewrite map_length, chunks_length. Qed.
Ltac destr24 W L := repeat (destruct W as [|? W]; [discriminate L|cbn [length] in L; apply Nat.succ_inj in L]); destruct W; [|discriminate L].
Lemma first_block : forall hs X, In hs [28; 32; 48; 64] -> length X = bash_rate hs -> bash_xor hs (bash_init hs) X = bash_over hs (bash_init hs) X.
Proof.
  intros hs X Hh L. unfold bash_xor, bash_over. f_equal.
  cbn [In] in Hh. destruct Hh as [<-|[<-|[<-|[<-|[]]]]].
  - change (bash_rate 28) with 136 in *. rewrite !words_app by (rewrite L; reflexivity). assert (LW := words_len X). rewrite L in LW. change (136 / 8) with 17 in LW. set (W := bash_words X) in *. clearbody W. clear L X.
    change (bash_words (zeros (2 * 28))) with (zeros 7). replace (bash_words (skipn 136 (bash_bytes (bash_init 28)))) with (zeros 6 ++ [28%N]) by (vm_compute; reflexivity).
    do 17 (destruct W as [|? W]; [discriminate LW|]); destruct W; [|discriminate LW]. cbn -[N.lxor]. rewrite !N.lxor_0_l. reflexivity.
  - change (bash_rate 32) with 128 in *. rewrite !words_app by (rewrite L; reflexivity). assert (LW := words_len X). rewrite L in LW. change (128 / 8) with 16 in LW. set (W := bash_words X) in *. clearbody W. clear L X.
    change (bash_words (zeros (2 * 32))) with (zeros 8). replace (bash_words (skipn 128 (bash_bytes (bash_init 32)))) with (zeros 7 ++ [32%N]) by (vm_compute; reflexivity).
    do 16 (destruct W as [|? W]; [discriminate LW|]); destruct W; [|discriminate LW]. cbn -[N.lxor]. rewrite !N.lxor_0_l. reflexivity.
  - change (bash_rate 48) with 96 in *. rewrite !words_app by (rewrite L; reflexivity). assert (LW := words_len X). rewrite L in LW. change (96 / 8) with 12 in LW. set (W := bash_words X) in *. clearbody W. clear L X.
    change (bash_words (zeros (2 * 48))) with (zeros 12). replace (bash_words (skipn 96 (bash_bytes (bash_init 48)))) with (zeros 11 ++ [48%N]) by (vm_compute; reflexivity).
    do 12 (destruct W as [|? W]; [discriminate LW|]); destruct W; [|discriminate LW]. cbn -[N.lxor]. rewrite !N.lxor_0_l. reflexivity.
  - change (bash_rate 64) with 64 in *. rewrite !words_app by (rewrite L; reflexivity). assert (LW := words_len X). rewrite L in LW. change (64 / 8) with 8 in LW. set (W := bash_words X) in *. clearbody W. clear L X.
    change (bash_words (zeros (2 * 64))) with (zeros 16). replace (bash_words (skipn 64 (bash_bytes (bash_init 64)))) with (zeros 15 ++ [64%N]) by (vm_compute; reflexivity).
    do 8 (destruct W as [|? W]; [discriminate LW|]); destruct W; [|discriminate LW]. cbn -[N.lxor]. rewrite !N.lxor_0_l. reflexivity.
Qed.
Lemma short_std : forall hs m, In hs [28; 32; 48; 64] -> length m < bash_rate hs -> bash_sponge hs m = bash_std hs m.
Proof.
  intros hs m Hh L. unfold bash_sponge, bash_std. assert (LP : length (bash_pad hs m) = bash_rate hs) by (unfold bash_pad; rewrite !app_length, zeros_length, Nat.mod_small by exact L; cbn [length]; lia).
  rewrite (chunks_one _ (bash_rate hs) (bash_pad hs m)) by (lia || exact LP). cbn [fold_left]. now rewrite (first_block hs _ Hh LP).
Qed.
Theorem C37_short_standard : forall hs ops, In hs [28; 32; 48; 64] -> Forall op_bytes ops -> (ops_total ops < N.of_nat (bash_rate hs))%N ->
  run (bash_impl hs) (bash_new hs) ops = ideal_run (bash_std hs) [] ops.
Proof.
  intros hs ops Hh HB HT. assert (Hr : 1 <= hs <= 64) by (cbn [In] in Hh; lia).
  assert (G : forall ops m, (N.of_nat (length m) + ops_total ops < N.of_nat (bash_rate hs))%N -> fits hs m ops /\ ideal_run (bash_sponge hs) m ops = ideal_run (bash_std hs) m ops).
  { clear ops HB HT. induction ops as [|[p|i|] ops IH]; intros m H; cbn [fits ideal_run ops_total] in *; [auto| | |].
    - destruct (IH (m ++ p)) as [A B]; [rewrite app_length; lia|]. split; [split; [|exact A]|now rewrite B]. change (bash_bs hs) with (bash_rate hs). rewrite Nat.mod_small by lia. lia.
    - destruct (IH m H) as [A B]. split; [exact A|]. rewrite B, short_std by (auto; lia). reflexivity.
    - apply IH. cbn [length]. lia. }
  destruct (G ops []) as [A B]; [cbn [length]; lia|]. rewrite C37_within_blocks by auto. exact B.
Qed.

(** ** C79: which hash sizes New accepts. *)
Theorem C79_positive_sizes : forall n, (0 < n)%Z -> (exists hs bs, bash_newDigest n = Some (hs, bs)) <-> (n mod 8 = 0 /\ n <= 512)%Z.
Proof.
  intros n H. unfold bash_newDigest. rewrite Z.rem_mod_nonneg by lia. replace (n =? 0)%Z with false by (symmetry; apply Z.eqb_neq; lia).
  pose proof (Z.mod_pos_bound n 8 ltac:(lia)). destruct (Z.ltb_spec 0 (n mod 8)) as [A|A]; [split; [intros (? & ? & E); discriminate E|lia]|].
  destruct (Z.ltb_spec 512 n) as [B|B]; [split; [intros (? & ? & E); discriminate E|lia]|]. split; [lia|]. intros _. cbv zeta. eauto.
Qed.
(** The check is one-sided: every negative size is accepted, with a digest size that is not positive and a block size
    of at least 192 -- more than any valid block; for sizes up to -8, Sum then slices with a negative bound (a panic). *)
Theorem C79_negative_refuted : forall n, (n < 0)%Z -> exists hs bs, bash_newDigest n = Some (hs, bs) /\ (hs <= 0)%Z /\ (192 <= bs)%Z /\ ((n <= -8)%Z -> (hs < 0)%Z).
Proof.
  intros n H. unfold bash_newDigest. replace (n =? 0)%Z with false by (symmetry; apply Z.eqb_neq; lia).
  pose proof (Z.rem_nonpos n 8 ltac:(lia) ltac:(lia)). replace (0 <? Z.rem n 8)%Z with false by (symmetry; apply Z.ltb_ge; lia). replace (512 <? n)%Z with false by (symmetry; apply Z.ltb_ge; lia).
  cbv zeta. exists (Z.quot n 8), (3 * 8 * 8 - 2 * Z.quot n 8)%Z. pose proof (Z.quot_rem n 8 ltac:(lia)). pose proof (Z.rem_bound_abs n 8 ltac:(lia)).
  split; [reflexivity|]. split; [lia|]. split; lia.
Qed.
