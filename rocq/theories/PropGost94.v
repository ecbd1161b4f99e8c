(** PropGost94.v -- package gost/gost341194 (C94). *)
From Coq Require Import List NArith Arith Lia Bool.
From Verif Require Import Base Words HashAPI Buf MD Refine Bytes Kupyna Gost3411P SpecGost94 Gost94 LshP Pad.
Import ListNotations.

Ltac list32 x H := do 32 (destruct x as [|? x]; [discriminate H|]); destruct x as [|? x]; [|discriminate H].
Lemma h_rev_ok : forall x, length x = 32 -> h_rev x = rev x.
Proof. intros x H. list32 x H. reflexivity. Qed.
Lemma fA_ok : forall x, length x = 32 -> h_fA (rev x) = rev (g94_A x) /\ length (g94_A x) = 32.
Proof. intros x H. list32 x H. split; [|reflexivity]. cbv -[N.lxor]. repeat (f_equal; try apply N.lxor_comm). Qed.
Lemma fP_ok : forall x, length x = 32 -> h_fP (rev x) = rev (g94_P x).
Proof. intros x H. list32 x H. reflexivity. Qed.
Lemma P_len : forall x, length (g94_P x) = 32.
Proof. intro. unfold g94_P. now rewrite map_length, seq_length. Qed.
Lemma x6 : forall a b c d e f, N.lxor (N.lxor (N.lxor (N.lxor (N.lxor a b) c) d) e) f = N.lxor (N.lxor (N.lxor (N.lxor (N.lxor a b) c) d) f) e.
Proof. intros. rewrite !N.lxor_assoc. do 4 f_equal. apply N.lxor_comm. Qed.
Lemma fChi_ok : forall x, length x = 32 -> h_fChi (rev x) = rev (g94_psi x) /\ length (g94_psi x) = 32.
Proof. intros x H. list32 x H. split; [|reflexivity]. cbv -[N.lxor]. rewrite !(x6 _ _ _ _ n29), !(x6 _ _ _ _ n30). reflexivity. Qed.
Lemma xor_ok : forall a b, length a = 32 -> length b = 32 -> h_xor (rev a) (rev b) = rev (xorb a b) /\ length (xorb a b) = 32.
Proof. intros a b Ha Hb. list32 a Ha. list32 b Hb. split; reflexivity. Qed.
Lemma psi_iter : forall n x, length x = 32 -> Nat.iter n h_fChi (rev x) = rev (Nat.iter n g94_psi x) /\ length (Nat.iter n g94_psi x) = 32.
Proof.
  intros n x H. induction n as [|n [IH L]]; [split; [reflexivity|exact H]|]. cbn [Nat.iter nat_rect]. change (nat_rect _ (rev x) (fun _ => h_fChi) n) with (Nat.iter n h_fChi (rev x)).
  change (nat_rect _ x (fun _ => g94_psi) n) with (Nat.iter n g94_psi x). rewrite IH. now apply fChi_ok.
Qed.
Lemma parts_ok : forall H, length H = 32 -> map (fun i => at_ (rev H) (31 - i)) (seq 0 8) = part64 H 1 /\ map (fun i => at_ (rev H) (23 - i)) (seq 0 8) = part64 H 2 /\
  map (fun i => at_ (rev H) (15 - i)) (seq 0 8) = part64 H 3 /\ map (fun i => at_ (rev H) (7 - i)) (seq 0 8) = part64 H 4.
Proof. intros H L. list32 H L. repeat split. Qed.
Ltac list8 x H := do 8 (destruct x as [|? x]; [discriminate H|]); destruct x as [|? x]; [|discriminate H].
Lemma puts_ok : forall a b c d, length a = 8 -> length b = 8 -> length c = 8 -> length d = 8 ->
  h_put (h_put (h_put (h_put (zeros 32) a 31) b 23) c 15) d 7 = rev (a ++ b ++ c ++ d ++ []) /\ length (a ++ b ++ c ++ d ++ []) = 32.
Proof. intros a b c d Ha Hb Hc Hd. list8 a Ha. list8 b Hb. list8 c Hc. list8 d Hd. split; reflexivity. Qed.
Lemma c_ok : h_c2 = rev (g94_C 2) /\ h_c3 = rev (g94_C 3) /\ h_c4 = rev (g94_C 4) /\ length (g94_C 2) = 32 /\ length (g94_C 3) = 32 /\ length (g94_C 4) = 32.
Proof. repeat split. Qed.
Section P.
Variable E : list N -> list N -> list N.
Hypothesis HE : forall k b, length (E k b) = 8.
Lemma key_ok : forall U V, length U = 32 -> length V = 32 -> h_rev (h_fP (h_xor (rev U) (rev V))) = g94_P (xorb U V).
Proof.
  intros U V HU HV. destruct (xor_ok U V HU HV) as [A B]. rewrite A, fP_ok by exact B. rewrite h_rev_ok by (rewrite rev_length; apply P_len). apply rev_involutive.
Qed.
Lemma step_ok : forall H M, length H = 32 -> length M = 32 -> h_step E (rev H) (rev M) = rev (g94_chi E H M) /\ length (g94_chi E H M) = 32.
Proof.
  intros H M LH LM. unfold h_step, h_enc. cbv zeta. destruct (parts_ok H LH) as (P1 & P2 & P3 & P4). rewrite P1, P2, P3, P4. destruct c_ok as (C2 & C3 & C4 & L2 & L3 & L4).
  destruct (fA_ok H LH) as [AU LU]. destruct (fA_ok M LM) as [AV LV]. rewrite AU, AV. destruct (fA_ok _ LV) as [AV2 LV2]. rewrite AV2.
  rewrite C2. destruct (xor_ok _ _ LU L2) as [X1 LX1]. rewrite X1. destruct (fA_ok _ LX1) as [AU3 LU3]. rewrite AU3. rewrite C3. destruct (xor_ok _ _ LU3 L3) as [X2 LX2]. rewrite X2.
  destruct (fA_ok _ LV2) as [AV3 LV3]. rewrite AV3. destruct (fA_ok _ LV3) as [AV4 LV4]. rewrite AV4. destruct (fA_ok _ LX2) as [AU4 LU4]. rewrite AU4. rewrite C4. destruct (xor_ok _ _ LU4 L4) as [X3 LX3]. rewrite X3.
  destruct (fA_ok _ LV4) as [AV5 LV5]. rewrite AV5. destruct (fA_ok _ LV5) as [AV6 LV6]. rewrite AV6.
  rewrite !key_ok by assumption. clear AU AV AV2 X1 AU3 X2 AV3 AV4 AU4 X3 AV5 AV6 P1 P2 P3 P4 C2 C3 C4.
  unfold g94_chi. cbv zeta. cbn [flat_map]. unfold g94_key. cbn [g94_UV].
  match goal with |- context [E ?k1 (part64 H 1) ++ E ?k2 (part64 H 2) ++ E ?k3 (part64 H 3) ++ E ?k4 (part64 H 4) ++ []] =>
    destruct (puts_ok (E k1 (part64 H 1)) (E k2 (part64 H 2)) (E k3 (part64 H 3)) (E k4 (part64 H 4)) (HE _ _) (HE _ _) (HE _ _) (HE _ _)) as [PO LO];
    set (S0 := E k1 (part64 H 1) ++ E k2 (part64 H 2) ++ E k3 (part64 H 3) ++ E k4 (part64 H 4) ++ []) in * end.
  rewrite PO. clearbody S0. clear PO. destruct (psi_iter 12 S0 LO) as [I1 LI1]. rewrite I1. destruct (xor_ok _ _ LI1 LM) as [Y1 LY1]. rewrite Y1. destruct (fChi_ok _ LY1) as [Z1 LZ1]. rewrite Z1.
  destruct (xor_ok _ _ LZ1 LH) as [Y2 LY2]. rewrite Y2. apply psi_iter. exact LY2.
Qed.
(** The state after writing m. *)
Definition g94_sig (bl : list (list N)) : N := fold_left (fun s b => (s + le_val b) mod 2 ^ 256)%N bl 0%N.
Definition grel (h : g94) (m : list N) : Prop :=
  isbytes m /\ g_buf h = rest 32 m /\ g_size h = w64 (256 * N.of_nat (length (chunks 32 m))) /\ g_chk h = g94_sig (chunks 32 m) /\
  length (fold_left (g94_chi E) (chunks 32 m) (zeros 32)) = 32 /\ g_hsh h = rev (fold_left (g94_chi E) (chunks 32 m) (zeros 32)).
Lemma sig_lt : forall bl, (g94_sig bl < 2 ^ 256)%N.
Proof.
  intro bl. unfold g94_sig. assert (G : forall l s, (s < 2 ^ 256)%N -> (fold_left (fun s b => (s + le_val b) mod 2 ^ 256)%N l s < 2 ^ 256)%N).
  { induction l as [|b l IH]; intros s Hs; [exact Hs|]. rewrite fold_left_cons. apply IH. apply N.mod_upper_bound. discriminate. }
  apply G. reflexivity.
Qed.
Lemma chkAdd_ok : forall chk b, (chk < 2 ^ 256)%N -> isbytes b -> length b = 32 -> h_chkAdd chk (rev b) = ((chk + le_val b) mod 2 ^ 256)%N.
Proof.
  intros chk b Hc Hb L. unfold h_chkAdd. assert (Eb : be_val (rev b) = le_val b) by (unfold be_val; now rewrite rev_involutive). rewrite Eb.
  pose proof (le_val_lt b Hb) as HL. rewrite L in HL. change (2 ^ N.of_nat (8 * 32))%N with (2 ^ 256)%N in HL. rewrite (N.add_comm (le_val b)).
  revert Hc HL. generalize (le_val b). intros v Hc HL. generalize dependent (2 ^ 256)%N. intros M Hc HL. destruct (N.ltb_spec (chk + v) M) as [H|H]; [symmetry; now apply N.mod_small|].
  replace (chk + v)%N with (chk + v - M + 1 * M)%N at 2 by lia. rewrite N.mod_add by lia. symmetry. apply N.mod_small. lia.
Qed.
Lemma loop_ok : forall fuel h m t, length t < fuel -> isbytes t -> isbytes m -> length m mod 32 = 0 ->
  g_buf h = t -> g_size h = w64 (256 * N.of_nat (length (chunks 32 m))) -> g_chk h = g94_sig (chunks 32 m) ->
  length (fold_left (g94_chi E) (chunks 32 m) (zeros 32)) = 32 -> g_hsh h = rev (fold_left (g94_chi E) (chunks 32 m) (zeros 32)) ->
  grel (g94_loop E fuel h) (m ++ t).
Proof.
  induction fuel as [|f IH]; intros h m t Hf Ht Hm H32 Eb Es Ec El Eh; [lia|]. cbn [g94_loop]. rewrite Eb.
  assert (R0 : rest 32 m = []) by (pose proof (rest_length N 32 m ltac:(lia)) as L; rewrite H32 in L; destruct (rest 32 m); [reflexivity|discriminate L]).
  destruct (Nat.leb_spec 32 (length t)) as [L|L].
  - replace (m ++ t) with ((m ++ firstn 32 t) ++ skipn 32 t) by (rewrite <- app_assoc, firstn_skipn; reflexivity).
    assert (L1 : length (firstn 32 t) = 32) by (rewrite firstn_length; lia).
    assert (EC : chunks 32 (m ++ firstn 32 t) = chunks 32 m ++ [firstn 32 t]) by (rewrite chunks_app, R0 by lia; cbn [app]; rewrite (chunks_one N 32 (firstn 32 t)); [reflexivity|lia|exact L1]).
    assert (B1 : isbytes (firstn 32 t)) by (apply Forall_forall; intros z Hz; unfold isbytes in Ht; rewrite Forall_forall in Ht; apply Ht; rewrite <- (firstn_skipn 32 t); apply in_or_app; now left).
    assert (B2 : isbytes (skipn 32 t)) by (apply Forall_forall; intros z Hz; unfold isbytes in Ht; rewrite Forall_forall in Ht; apply Ht; rewrite <- (firstn_skipn 32 t); apply in_or_app; now right).
    rewrite h_rev_ok by exact L1. rewrite Eh. destruct (step_ok _ _ El L1) as [SO SL]. rewrite SO, Ec, Es.
    apply IH; cbn [g_buf g_size g_chk g_hsh]; try reflexivity.
    + rewrite skipn_length. lia.
    + exact B2.
    + apply Forall_app. split; assumption.
    + rewrite app_length, L1. replace (length m + 32) with (length m + 1 * 32) by lia. rewrite Nat.mod_add by lia. exact H32.
    + rewrite EC, app_length. cbn [length]. unfold add64. rewrite w64_add_l. f_equal. lia.
    + rewrite EC. unfold g94_sig at 2. rewrite fold_left_app. cbn [fold_left]. apply chkAdd_ok; [apply sig_lt|exact B1|exact L1].
    + rewrite EC, fold_left_app. cbn [fold_left]. exact SL.
    + rewrite EC, fold_left_app. cbn [fold_left]. reflexivity.
  - assert (EC : chunks 32 (m ++ t) = chunks 32 m) by (rewrite chunks_app, R0 by lia; cbn [app]; rewrite (chunks_short N 32 t) by lia; apply app_nil_r).
    unfold grel. rewrite EC. split; [apply Forall_app; split; assumption|]. split; [|repeat split; assumption].
    rewrite Eb. rewrite rest_app, R0 by lia. cbn [app]. symmetry. now apply rest_short.
Qed.
Lemma g94_write_ok : forall h m p, isbytes p -> grel h m -> grel (fst (g94_write E h p)) (m ++ p).
Proof.
  intros h m p Hp (Bm & Eb & Es & Ec & El & Eh). unfold g94_write. cbn [fst g_buf]. rewrite Eb.
  set (full := firstn (length m / 32 * 32) m). assert (EM : m = full ++ rest 32 m) by (unfold full, rest; symmetry; apply firstn_skipn).
  assert (LF : length full = length m / 32 * 32) by (unfold full; rewrite firstn_length; pose proof (Nat.div_mod (length m) 32 ltac:(lia)); lia).
  assert (RF : length full mod 32 = 0) by (rewrite LF; apply Nat.mod_mul; lia).
  assert (R0 : rest 32 full = []) by (pose proof (rest_length N 32 full ltac:(lia)) as L; rewrite RF in L; destruct (rest 32 full); [reflexivity|discriminate L]).
  assert (CF : chunks 32 full = chunks 32 m).
  { transitivity (chunks 32 (full ++ rest 32 m)); [|apply f_equal; symmetry; exact EM]. rewrite chunks_app, R0 by lia. cbn [app]. rewrite (chunks_short N 32 (rest 32 m)) by (apply rest_length_lt; lia). now rewrite app_nil_r. }
  assert (BF : isbytes full /\ isbytes (rest 32 m)) by (rewrite EM in Bm; apply Forall_app in Bm; exact Bm). destruct BF as [BF BR].
  replace (m ++ p) with (full ++ (rest 32 m ++ p)) by (rewrite app_assoc, <- EM; reflexivity).
  apply loop_ok; cbn [g_buf g_size g_chk g_hsh]; rewrite ?CF; try assumption; [lia|apply Forall_app; split; assumption|reflexivity].
Qed.
Lemma be32_rev : forall n, be_bytes 32 n = rev (le_bytes 32 n).
Proof. reflexivity. Qed.
Lemma size_block : forall n, (n < 2 ^ 64)%N -> copy_at (zeros 32) 24 (be_bytes 8 n) = rev (le_bytes 32 n).
Proof.
  intros n H. change (rev (le_bytes 32 n)) with (be_bytes (24 + 8) n). rewrite be_bytes_app. replace (be_bytes 24 (N.shiftr n (8 * N.of_nat 8))) with (zeros 24).
  - reflexivity.
  - rewrite N.shiftr_div_pow2, N.div_small; [reflexivity|exact H].
Qed.
Lemma g94_checkSum_ok : forall h m, (N.of_nat (length m) < 2 ^ 61)%N -> grel h m -> g94_checkSum E h = gost94 E m.
Proof.
  intros h m HB (Bm & Eb & Es & Ec & El & Eh). unfold g94_checkSum, gost94. cbv zeta. rewrite Eb. pose proof (rest_length N 32 m ltac:(lia)) as LR. rewrite LR. pose proof (Nat.div_mod (length m) 32 ltac:(lia)) as DM.
  pose proof (Nat.mod_upper_bound (length m) 32 ltac:(lia)) as MU.
  change (2 ^ 61)%N with 2305843009213693952%N in HB.
  assert (ES : g_size h = (256 * N.of_nat (length m / 32))%N).
  { rewrite Es, chunks_length. rewrite w64_mod. apply N.mod_small. change (2 ^ 64)%N with 18446744073709551616%N. lia. }
  assert (FIN : forall chk hsh bl, (8 * N.of_nat (length m) < 2 ^ 64)%N -> chk = g94_sig bl -> length (fold_left (g94_chi E) bl (zeros 32)) = 32 -> hsh = rev (fold_left (g94_chi E) bl (zeros 32)) ->
    h_rev (h_step E (h_step E hsh (copy_at (zeros 32) 24 (be_bytes 8 (8 * N.of_nat (length m))))) (be_bytes 32 chk)) =
    g94_chi E (g94_chi E (fold_left (g94_chi E) bl (zeros 32)) (le_bytes 32 (8 * N.of_nat (length m)))) (le_bytes 32 (g94_sig bl))).
  { intros chk hsh bl Hn -> Hl ->. rewrite size_block by exact Hn. rewrite be32_rev.
    destruct (step_ok _ (le_bytes 32 (8 * N.of_nat (length m))) Hl (le_bytes_length _ _)) as [A LA]. rewrite A.
    destruct (step_ok _ (le_bytes 32 (g94_sig bl)) LA (le_bytes_length _ _)) as [B LB]. rewrite B. rewrite h_rev_ok by (rewrite rev_length; exact LB). apply rev_involutive. }
  assert (HN : (8 * N.of_nat (length m) < 2 ^ 64)%N) by (change (2 ^ 64)%N with 18446744073709551616%N; lia).
  unfold g94_blocks. fold g94_sig. destruct (Nat.eqb_spec (length m mod 32) 0) as [Z|Z]; cbn [negb].
  - rewrite app_nil_r. change (fold_left (fun s b => ((s + le_val b) mod 2 ^ 256)%N) (chunks 32 m) 0%N) with (g94_sig (chunks 32 m)). replace (g_size h) with (8 * N.of_nat (length m))%N by (rewrite ES; lia). now apply FIN.
  - set (lst := rest 32 m ++ zeros (32 - length m mod 32)). assert (LL : length lst = 32) by (unfold lst; rewrite app_length, LR, zeros_length; lia).
    assert (EL : copy_at (zeros 32) 0 (rest 32 m) = lst) by (rewrite copy_at_over by (rewrite zeros_length; lia); unfold lst; rewrite zeros_skip, LR; reflexivity).
    assert (BL : isbytes lst) by (unfold lst; apply Forall_app; split; [now apply isbytes_rest|apply zeros_isbytes]).
    rewrite EL. rewrite (h_rev_ok lst) by exact LL. change (fold_left (fun s b => ((s + le_val b) mod 2 ^ 256)%N) (chunks 32 m ++ [lst]) 0%N) with (g94_sig (chunks 32 m ++ [lst])).
    assert (SZ : add64 (g_size h) (w64 (N.of_nat (length m mod 32) * 8)) = (8 * N.of_nat (length m))%N).
    { rewrite ES. unfold add64. rewrite w64_add_r, w64_mod. rewrite N.mod_small by (change (2 ^ 64)%N with 18446744073709551616%N in *; lia). lia. }
    rewrite SZ. rewrite Eh. destruct (step_ok _ _ El LL) as [SO SL]. rewrite SO. apply FIN; [exact HN| | |].
    + unfold g94_sig. rewrite fold_left_app. cbn [fold_left]. rewrite Ec. rewrite chkAdd_ok; [reflexivity|apply sig_lt|exact BL|exact LL].
    + rewrite fold_left_app. cbn [fold_left]. exact SL.
    + rewrite fold_left_app. cbn [fold_left]. reflexivity.
Qed.
Lemma g94_new_rel : grel g94_new [].
Proof. split; [constructor|]. repeat split. Qed.
(** C94: every history whose writes total less than 2^61 bytes. *)
Theorem C94_gost341194_histories : forall ops, Forall op_bytes ops -> (ops_total ops < 2 ^ 61)%N -> run (g94_impl E) g94_new ops = ideal_run (gost94 E) [] ops.
Proof.
  intros ops HF HT. apply (run_refines_total _ (g94_impl E) (gost94 E) grel (2 ^ 61)%N); cbn [i_write i_sum i_reset g94_impl]; auto.
  - intros d m p Hp _ H. now apply g94_write_ok.
  - intros d m i Hm H. unfold g94_sum. cbn [snd]. apply f_equal. now apply g94_checkSum_ok.
  - intros. exact g94_new_rel.
  - exact g94_new_rel.
Qed.
End P.
(** The hypotheses are met by a concrete cipher and a history that crosses blocks, sums twice and resets (evaluated on both sides). *)
Definition toyE (k b : list N) : list N := map (fun i => N.lxor (at_ b (7 - i)) (at_ k (3 * i))) (seq 0 8).
Example C94_hyps : (forall k b, length (toyE k b) = 8) /\
  let ops := [Write (map N.of_nat (seq 0 40)); Sum [7%N]; Write (map N.of_nat (seq 3 24)); Sum []; Reset; Sum []] in
  run (g94_impl toyE) g94_new ops = ideal_run (gost94 toyE) [] ops /\ length ops = 6.
Proof. split; [reflexivity|]. vm_compute. split; reflexivity. Qed.
