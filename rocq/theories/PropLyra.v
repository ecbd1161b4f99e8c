(** PropLyra.v -- lyra2re, lyra2re2: theorems C109-C114. *)
From Coq Require Import List NArith ZArith Arith Bool Lia.
Require Import Verif.Base Verif.Words Verif.Bytes Verif.SpecLyra Verif.Lyra Verif.LyraP Verif.LyraQ Verif.LyraR.
Import ListNotations.

(** ** The words of the padded input *)
Lemma words_app : forall a b, length a mod 8 = 0 -> ly_words (a ++ b) = ly_words a ++ ly_words b.
Proof. intros a b H. unfold ly_words. rewrite chunks_app by lia. assert (E : rest 8 a = []) by (apply length_zero_iff_nil; rewrite rest_length; lia). rewrite E. cbn [app]. apply map_app. Qed.
Lemma words_one : forall b, length b = 8 -> ly_words b = [le_val b].
Proof. intros b H. unfold ly_words. rewrite chunks_one by lia. reflexivity. Qed.
Lemma words_load : forall b, length b mod 8 = 0 -> ly_words b = lm_load b.
Proof.
  intros b H. unfold ly_words, lm_load, chunks. rewrite map_map. apply map_ext. intro i. unfold slice. f_equal. f_equal. lia.
Qed.
Lemma words_length : forall b, length (ly_words b) = length b / 8.
Proof. intros b. unfold ly_words. rewrite map_length. unfold chunks. now rewrite map_length, seq_length. Qed.
Lemma words_le : forall l, ly_words (concat (map (le_bytes 8) l)) = map w64 l.
Proof.
  induction l as [|x l IH]; [reflexivity|]. cbn [map concat]. rewrite words_app by (rewrite le_bytes_length; reflexivity). rewrite IH, words_one by apply le_bytes_length.
  rewrite le_val_le_bytes, w64_mod. reflexivity.
Qed.
Lemma words_zeros : forall z, ly_words (zeros (8 * z)) = zeros z.
Proof.
  induction z as [|z IH]; [reflexivity|]. replace (zeros (8 * S z)) with (zeros 8 ++ zeros (8 * z)) by (unfold zeros; rewrite <- repeat_app; f_equal; lia).
  rewrite words_app by reflexivity. rewrite IH. reflexivity.
Qed.
Lemma upd_app2 : forall A (a b : list A) i v, upd (a ++ b) (length a + i) v = a ++ upd b i v.
Proof. induction a as [|x a IH]; intros b i v; [reflexivity|]. cbn [length Nat.add app upd]. now rewrite IH. Qed.
Lemma at_app2 : forall a b i, at_ (a ++ b) (length a + i) = at_ b i.
Proof. intros. unfold at_. rewrite app_nth2 by lia. f_equal. lia. Qed.
Lemma pad_words : forall m p, length m = 8 * p ->
  let n := (length m / 64 + 1) * 8 in let u := ly_words m ++ 0x80%N :: zeros (n - p - 1) in
  p < n /\ length (ly_pad m) = 8 * n /\ ly_words (ly_pad m) = upd u (n - 1) (N.lxor (at_ u (n - 1)) 0x0100000000000000).
Proof.
  intros m p Hm. cbv zeta. pose proof (Nat.div_mod (length m) 64 ltac:(lia)) as DM. pose proof (Nat.mod_upper_bound (length m) 64 ltac:(lia)) as MB.
  set (n := (length m / 64 + 1) * 8) in *. assert (Hp : p < n) by lia. assert (E63 : 63 - length m mod 64 = 7 + 8 * (n - p - 1)) by lia.
  assert (Lw : length (ly_words m) = p) by (rewrite words_length, Hm, Nat.mul_comm; apply Nat.div_mul; lia).
  assert (Lm8 : length m mod 8 = 0) by (rewrite Hm, Nat.mul_comm; apply Nat.mod_mul; lia).
  split; [exact Hp|]. unfold ly_pad. cbv zeta. rewrite E63. clear E63 DM MB.
  assert (EB : 0x80%N :: zeros (7 + 8 * (n - p - 1)) = [0x80; 0; 0; 0; 0; 0; 0; 0]%N ++ zeros (8 * (n - p - 1))) by reflexivity. rewrite EB. clear EB.
  destruct (Nat.eq_dec (n - p - 1) 0) as [Z|Z].
  - rewrite Z. change (zeros (8 * 0)) with (@nil N). rewrite app_nil_r. replace (length (m ++ [128%N; 0%N; 0%N; 0%N; 0%N; 0%N; 0%N; 0%N]) - 1) with (length m + 7) by (rewrite app_length; cbn [length]; lia). rewrite at_app2. rewrite firstn_app_2. cbn [firstn at_ nth].
    change (zeros 0) with (@nil N). replace (n - 1) with (length (ly_words m) + 0) by lia. rewrite at_app2, upd_app2. cbn [upd at_ nth].
    rewrite <- app_assoc. cbn [app]. split; [rewrite app_length; cbn [length]; lia|]. rewrite words_app by exact Lm8. reflexivity.
  - set (z := n - p - 1 - 1). replace (n - p - 1) with (z + 1) by lia. replace (8 * (z + 1)) with (8 * z + 8) by lia.
    assert (EZ : forall a b, zeros (a + b) = zeros a ++ zeros b) by (intros; apply repeat_app). rewrite (EZ (8 * z) 8).
    set (h := [0x80; 0; 0; 0; 0; 0; 0; 0]%N). set (pre := m ++ h ++ zeros (8 * z)). replace (m ++ h ++ zeros (8 * z) ++ zeros 8) with (pre ++ zeros 8) by (unfold pre; now rewrite <- !app_assoc).
    assert (Lpre : length pre = 8 * (p + 1 + z)) by (unfold pre; rewrite !app_length; cbn [length h]; unfold zeros; rewrite repeat_length; lia).
    replace (length (pre ++ zeros 8) - 1) with (length pre + 7) by (rewrite app_length; change (length (zeros 8)) with 8; lia). rewrite at_app2, firstn_app_2. change (at_ (zeros 8) 7) with 0%N. change (firstn 7 (zeros 8)) with (zeros 7).
    rewrite <- app_assoc. split; [rewrite app_length, Lpre; change (length (zeros 7 ++ [N.lxor 0 1])) with 8; unfold z; lia|].
    rewrite words_app by (rewrite Lpre, Nat.mul_comm; apply Nat.mod_mul; lia). rewrite (words_one (zeros 7 ++ [N.lxor 0 1])) by reflexivity. unfold pre. rewrite words_app by exact Lm8. rewrite words_app by reflexivity. rewrite words_zeros. change (ly_words h) with [0x80%N].
    rewrite (EZ z 1). change (zeros 1) with [0%N].
    replace (ly_words m ++ 128%N :: zeros z ++ [0%N]) with ((ly_words m ++ [128%N] ++ zeros z) ++ [0%N]) by (now rewrite <- !app_assoc).
    assert (Lq : length (ly_words m ++ [128%N] ++ zeros z) = n - 1) by (rewrite !app_length, Lw; cbn [length]; unfold zeros; rewrite repeat_length; lia).
    set (w := ly_words m ++ [128%N] ++ zeros z) in *. clearbody w. rewrite <- Lq. replace (length w) with (length w + 0) by lia. rewrite at_app2, upd_app2. reflexivity.
Qed.
Lemma chunk_words : forall n b, length b = 64 * n -> map ly_words (chunks 64 b) = map (fun i => firstn 8 (skipn (i * 8) (ly_words b))) (seq 0 n).
Proof.
  intros n b H. transitivity (chunks 8 (ly_words b)).
  - revert b H. induction n as [|n IH]; intros b H.
    + assert (b = []) by (apply length_zero_iff_nil; lia). subst b. reflexivity.
    + rewrite chunks_cons by lia. cbn [map]. rewrite IH by (rewrite skipn_length; lia).
      assert (L64 : length (firstn 64 b) = 64) by (rewrite firstn_length; lia).
      rewrite <- (firstn_skipn 64 b) at 3. rewrite words_app by (rewrite L64; reflexivity).
      assert (L8 : length (ly_words (firstn 64 b)) = 8) by (rewrite words_length, L64; reflexivity).
      rewrite chunks_app by lia. rewrite (chunks_one _ 8 (ly_words (firstn 64 b))) by (lia || exact L8).
      assert (E : rest 8 (ly_words (firstn 64 b)) = []) by (apply length_zero_iff_nil; rewrite rest_length, L8 by lia; reflexivity). rewrite E. reflexivity.
  - unfold chunks. rewrite words_length, H. replace (64 * n / 8 / 8) with n; [reflexivity|]. replace (64 * n) with (n * 8 * 8) by lia. rewrite !Nat.div_mul by lia. reflexivity.
Qed.

(** ** The memory after the input has been written, for passwords and salts of whole words *)
Definition linput (klen : nat) (pwd salt : list N) (T : N) (R C : nat) : list N := pwd ++ salt ++ ly_basil klen (length pwd) (length salt) T R C.
Lemma basil_length : forall a b c d e f, length (ly_basil a b c d e f) = 48.
Proof. reflexivity. Qed.
Lemma linput_length : forall klen pwd salt T R C, length (linput klen pwd salt T R C) = length pwd + length salt + 48.
Proof. intros. unfold linput. rewrite !app_length, basil_length. lia. Qed.
Lemma img_words : forall n klen pwd salt T R C, length pwd mod 8 = 0 -> length salt mod 8 = 0 -> (T < 18446744073709551616)%N -> lm_nBlocks pwd salt * 8 <= n ->
  length (ly_pad (linput klen pwd salt T R C)) = 64 * lm_nBlocks pwd salt /\
  limg n klen pwd salt T R C = ly_words (ly_pad (linput klen pwd salt T R C)) ++ zeros (n - 8 * lm_nBlocks pwd salt).
Proof.
  intros n klen pwd salt T R C Hp Hs HT Hn. pose proof (Nat.div_mod (length pwd) 8 ltac:(lia)) as D1. pose proof (Nat.div_mod (length salt) 8 ltac:(lia)) as D2. rewrite Hp in D1. rewrite Hs in D2.
  set (p := length pwd / 8 + length salt / 8 + 6). assert (Lm : length (linput klen pwd salt T R C) = 8 * p) by (rewrite linput_length; unfold p; lia).
  pose proof (pad_words _ p Lm) as (A & B & E). assert (EN : length (linput klen pwd salt T R C) / 64 + 1 = lm_nBlocks pwd salt) by (unfold lm_nBlocks; rewrite linput_length; do 2 f_equal; lia).
  rewrite EN in A, B, E. split; [lia|]. rewrite E. unfold limg. cbv zeta.
  assert (EW : lhead klen pwd salt T R C = ly_words (linput klen pwd salt T R C) ++ [0x80%N]).
  { unfold linput. rewrite words_app by exact Hp. rewrite words_app by exact Hs. rewrite !words_load by assumption. unfold ly_basil. rewrite words_le. cbn [map]. rewrite (w64_small T) by exact HT. unfold lhead. rewrite <- !app_assoc. reflexivity. }
  rewrite EW. assert (Lw : length (ly_words (linput klen pwd salt T R C)) = p) by (rewrite words_length, Lm, Nat.mul_comm; apply Nat.div_mul; lia).
  set (w := ly_words (linput klen pwd salt T R C)) in *. clearbody w. rewrite app_length. cbn [length]. rewrite Lw.
  set (q := lm_nBlocks pwd salt * 8) in *. replace (n - (p + 1)) with ((q - p - 1) + (n - q)) by lia. replace (8 * lm_nBlocks pwd salt) with q by (unfold q; lia). clearbody q.
  unfold zeros. rewrite repeat_app. fold (zeros (q - p - 1)) (zeros (n - q)).
  replace ((w ++ [0x80%N]) ++ zeros (q - p - 1) ++ zeros (n - q)) with ((w ++ 0x80%N :: zeros (q - p - 1)) ++ zeros (n - q)) by (rewrite <- !app_assoc; reflexivity).
  assert (Lu : length (w ++ 0x80%N :: zeros (q - p - 1)) = q) by (rewrite app_length; cbn [length]; unfold zeros; rewrite repeat_length; lia).
  set (u := w ++ 0x80%N :: zeros (q - p - 1)) in *. clearbody u. set (tl := zeros (n - q)). clearbody tl.
  assert (Ea : at_ (u ++ tl) (q - 1) = at_ u (q - 1)) by (unfold at_; apply app_nth1; lia). rewrite Ea. generalize (N.lxor (at_ u (q - 1)) 72057594037927936). intro v.
  assert (G : forall (a b : list N) i x, i < length a -> upd (a ++ b) i x = upd a i x ++ b). { clear. induction a as [|y a IH]; intros b [|i] x H; cbn [length] in H; try lia; [reflexivity|]. cbn [app upd]. rewrite IH by lia. reflexivity. }
  apply G. lia.
Qed.
Lemma new_ok : lm_new = zeros 8 ++ ly_iv. Proof. reflexivity. Qed.
Lemma new_len : length lm_new = 16. Proof. reflexivity. Qed.
Lemma unfold_Lyra2 : forall stride k pwd salt T R C,
  lm_Lyra2 stride k pwd salt T R C = obind (lm_input (length k) pwd salt T R C (zeros (R * (12 * C)))) (fun mem => obind (lm_boot stride (lm_nBlocks pwd salt) mem lm_new) (fun st => if R <? 2 then Panic else tail_ R C T k mem st)).
Proof. reflexivity. Qed.
Lemma nB_pos : forall pwd salt, 1 <= lm_nBlocks pwd salt. Proof. intros. unfold lm_nBlocks. lia. Qed.

(** The number of 64-byte blocks of the padded input. *)
Definition blocks_of (pwd salt : list N) : nat := (length pwd + length salt + 48) / 64 + 1.
Lemma blocks_of_ok : forall pwd salt, lm_nBlocks pwd salt = blocks_of pwd salt.
Proof. intros. unfold lm_nBlocks, blocks_of. do 2 f_equal. lia. Qed.

(** C109: lyra2re2.Lyra2 computes Lyra2, for passwords and salts of whole words and a time cost of 0 or 1 *)
Theorem C109_lyra2re2_lyra2 : forall k pwd salt T R C,
  length pwd mod 8 = 0 -> length salt mod 8 = 0 -> (T <= 1)%N -> 2 <= R -> (N.of_nat R < 2 ^ 62)%N -> 1 <= C -> 8 * blocks_of pwd salt <= 12 * (R * C) ->
  lm_Lyra2 8 k pwd salt T R C = Ok (lyra2_spec (length k) pwd salt (N.to_nat T) R C).
Proof.
  intros k pwd salt T R C Hp Hs HT HR HR2 HC HN. rewrite <- blocks_of_ok in HN. rewrite unfold_Lyra2. change (2 ^ 62)%N with 4611686018427387904%N in HR2.
  rewrite input_ok by nia. cbn [obind]. set (n := R * (12 * C)). assert (En : n = 12 * (R * C)) by (unfold n; nia). clearbody n.
  pose proof (limg_length n (length k) pwd salt T R C ltac:(lia)) as LI. pose proof (img_words n (length k) pwd salt T R C Hp Hs ltac:(lia) ltac:(lia)) as [LP EI].
  pose proof (nB_pos pwd salt) as NP.
  destruct (boot_ok 8 (lm_nBlocks pwd salt) (limg n (length k) pwd salt T R C) lm_new new_len ltac:(right; lia)) as [EB LB]. rewrite EB. cbn [obind].
  destruct (Nat.ltb_spec R 2); [lia|]. rewrite tail_ok by (auto; lia). f_equal. unfold lyra2_spec. f_equal. unfold ly_boot. rewrite N2Nat.id. change (pwd ++ salt ++ _) with (linput (length k) pwd salt T R C). rewrite new_ok. f_equal.
  rewrite (chunk_words (lm_nBlocks pwd salt)) by exact LP. apply map_ext_in. intros i Hi. apply in_seq in Hi. rewrite EI.
  assert (Lw : length (ly_words (ly_pad (linput (length k) pwd salt T R C))) = 8 * lm_nBlocks pwd salt).
  { rewrite words_length, LP. replace (64 * lm_nBlocks pwd salt) with (8 * lm_nBlocks pwd salt * 8) by lia. apply Nat.div_mul. lia. }
  rewrite skipn_app, firstn_app, skipn_length, Lw. replace (8 - (8 * lm_nBlocks pwd salt - i * 8)) with 0 by lia. cbn [firstn]. apply app_nil_r.
Qed.
(** ... and panics exactly when the matrix cannot hold the padded input or has fewer than two rows *)
Theorem C109_lyra2re2_lyra2_panics : forall k pwd salt T R C, (N.of_nat R < 2 ^ 62)%N ->
  lm_Lyra2 8 k pwd salt T R C = Panic <-> (R < 2 \/ 12 * (R * C) < 8 * blocks_of pwd salt \/ (2 <= T)%N).
Proof.
  intros k pwd salt T R C HR2. rewrite <- blocks_of_ok. rewrite unfold_Lyra2. change (2 ^ 62)%N with 4611686018427387904%N in HR2. pose proof (nB_pos pwd salt) as NP.
  destruct (Nat.le_gt_cases (8 * lm_nBlocks pwd salt) (12 * (R * C))) as [H|H].
  2:{ rewrite input_over by nia. cbn [obind]. split; [intros _; right; left; exact H|reflexivity]. }
  rewrite input_ok by nia. cbn [obind]. set (n := R * (12 * C)). assert (En : n = 12 * (R * C)) by (unfold n; nia). clearbody n.
  pose proof (limg_length n (length k) pwd salt T R C ltac:(lia)) as LI.
  destruct (boot_ok 8 (lm_nBlocks pwd salt) (limg n (length k) pwd salt T R C) lm_new new_len ltac:(right; lia)) as [EB LB]. rewrite EB. cbn [obind].
  destruct (Nat.ltb_spec R 2) as [Q|Q]; [split; [now left|reflexivity]|]. assert (HC : 1 <= C) by (destruct C; lia).
  destruct (N.le_gt_cases 2 T) as [HT|HT].
  - rewrite tail_panic by (auto; lia). split; [intros _; right; right; exact HT|reflexivity].
  - rewrite tail_ok by (auto; lia). split; [discriminate|]. lia.
Qed.
(** A case that meets the hypotheses of C109, and the published test vector of the lyra2re package (the same function with the
    other stride agrees with it, see C111). *)
Example C109_nonvacuous : let x := map N.of_nat (seq 0 32) in
  length x mod 8 = 0 /\ 8 * blocks_of x x <= 12 * (4 * 4) /\ exists y, lm_Lyra2 8 (zeros 32) x x 1 4 4 = Ok y /\ length y = 32.
Proof. vm_compute. split; [reflexivity|]. split; [repeat constructor|]. eexists. split; reflexivity. Qed.

(** C110 (refuted): "Lyra2 accepts every time cost": both packages panic on every call with timeCost >= 2, in the second pass. *)
Theorem C110_lyra2_timecost_refuted : forall stride k pwd salt T R C, (2 <= T)%N -> (N.of_nat R < 2 ^ 62)%N -> lm_Lyra2 stride k pwd salt T R C = Panic.
Proof.
  intros stride k pwd salt T R C HT HR2. rewrite unfold_Lyra2. change (2 ^ 62)%N with 4611686018427387904%N in HR2. pose proof (nB_pos pwd salt) as NP.
  destruct (Nat.le_gt_cases (8 * lm_nBlocks pwd salt) (12 * (R * C))) as [H|H]; [|rewrite input_over by nia; reflexivity].
  rewrite input_ok by nia. cbn [obind]. set (n := R * (12 * C)). assert (En : n = 12 * (R * C)) by (unfold n; nia). clearbody n.
  pose proof (limg_length n (length k) pwd salt T R C ltac:(lia)) as LI. set (mem := limg n (length k) pwd salt T R C) in *. clearbody mem.
  destruct (Nat.le_gt_cases ((lm_nBlocks pwd salt - 1) * stride + 8) (length mem)) as [HB|HB]; [|rewrite boot_panic by (exact new_len || lia); reflexivity].
  destruct (boot_ok stride (lm_nBlocks pwd salt) mem lm_new new_len ltac:(right; lia)) as [EB LB]. rewrite EB. cbn [obind].
  destruct (Nat.ltb_spec R 2) as [Q|Q]; [reflexivity|]. apply tail_panic; auto; lia.
Qed.

(** C111: what lyra2re.Lyra2 absorbs: block i of its input is the eight words from word 64 i on, not 8 i. *)
Theorem C111_lyra2re_lyra2 : forall k pwd salt T R C,
  length pwd mod 8 = 0 -> length salt mod 8 = 0 -> (T <= 1)%N -> 2 <= R -> (N.of_nat R < 2 ^ 62)%N -> 1 <= C ->
  8 * blocks_of pwd salt <= 12 * (R * C) -> 64 * (blocks_of pwd salt - 1) + 8 <= 12 * (R * C) ->
  let padded := ly_words (ly_pad (pwd ++ salt ++ ly_basil (length k) (length pwd) (length salt) T R C)) in
  lm_Lyra2 64 k pwd salt T R C = Ok (ly_run R C (length k) (N.to_nat T)
    (ly_absorb (zeros 8 ++ ly_iv) (map (fun i => firstn 8 (skipn (64 * i) padded ++ zeros 8)) (seq 0 (blocks_of pwd salt))))).
Proof.
  intros k pwd salt T R C Hp Hs HT HR HR2 HC HN HN2. cbv zeta. rewrite <- blocks_of_ok in *. rewrite unfold_Lyra2. change (2 ^ 62)%N with 4611686018427387904%N in HR2.
  rewrite input_ok by nia. cbn [obind]. set (n := R * (12 * C)). assert (En : n = 12 * (R * C)) by (unfold n; nia). clearbody n.
  pose proof (limg_length n (length k) pwd salt T R C ltac:(lia)) as LI. pose proof (img_words n (length k) pwd salt T R C Hp Hs ltac:(lia) ltac:(lia)) as [LP EI].
  pose proof (nB_pos pwd salt) as NP.
  destruct (boot_ok 64 (lm_nBlocks pwd salt) (limg n (length k) pwd salt T R C) lm_new new_len ltac:(right; lia)) as [EB LB]. rewrite EB. cbn [obind].
  destruct (Nat.ltb_spec R 2); [lia|]. rewrite tail_ok by (auto; lia). f_equal. f_equal. rewrite new_ok. f_equal.
  apply map_ext_in. intros i Hi. apply in_seq in Hi. fold (linput (length k) pwd salt T R C). clear EB LB. rewrite EI.
  assert (Lw : length (ly_words (ly_pad (linput (length k) pwd salt T R C))) = 8 * lm_nBlocks pwd salt).
  { rewrite words_length, LP. replace (64 * lm_nBlocks pwd salt) with (8 * lm_nBlocks pwd salt * 8) by lia. apply Nat.div_mul. lia. }
  set (w := ly_words _) in *. clearbody w. rewrite (Nat.mul_comm i 64). rewrite skipn_app.
  assert (SZ : forall a c, skipn a (zeros c) = zeros (c - a)). { clear. intros a c. revert a. induction c as [|c IH]; intros [|a]; try reflexivity. cbn [zeros repeat skipn]. apply IH. }
  assert (FZ : forall a c, firstn a (zeros c) = zeros (Nat.min a c)). { clear. intros a c. revert a. induction c as [|c IH]; intros [|a]; try reflexivity. cbn [zeros repeat firstn Nat.min]. f_equal. apply IH. }
  rewrite SZ, Lw. destruct (Nat.le_gt_cases (64 * i + 8) (8 * lm_nBlocks pwd salt)) as [Q|Q].
  - rewrite !firstn_app. assert (L : 8 <= length (skipn (64 * i) w)) by (rewrite skipn_length; lia). replace (8 - length (skipn (64 * i) w)) with 0 by lia. reflexivity.
  - rewrite (skipn_all2 w) by lia. cbn [app]. rewrite !FZ. f_equal. nia.
Qed.
(** inputs of one block (pwd and salt together shorter than 16 bytes) are absorbed as in Lyra2 *)
Theorem C111_lyra2re_short : forall k pwd salt T R C,
  length pwd mod 8 = 0 -> length salt mod 8 = 0 -> length pwd + length salt < 16 -> (T <= 1)%N -> 2 <= R -> (N.of_nat R < 2 ^ 62)%N -> 1 <= C ->
  lm_Lyra2 64 k pwd salt T R C = Ok (lyra2_spec (length k) pwd salt (N.to_nat T) R C).
Proof.
  intros k pwd salt T R C Hp Hs Hl HT HR HR2 HC. assert (B : blocks_of pwd salt = 1) by (unfold blocks_of; rewrite Nat.div_small; lia).
  rewrite <- (C109_lyra2re2_lyra2 k pwd salt T R C Hp Hs HT HR HR2 HC ltac:(rewrite B; nia)). rewrite !unfold_Lyra2. rewrite blocks_of_ok, B. unfold lm_boot. cbn [seq fold_left Nat.mul]. reflexivity.
Qed.

(** C111 (refuted): "the output depends on the whole password, the salt and the parameters": once password and salt together reach
    64 bytes (and stay below 464), lyra2re.Lyra2 depends only on their first 64 bytes and the number of blocks. *)
Lemma v1_blocks : forall k pwd salt T R C, length pwd mod 8 = 0 -> length salt mod 8 = 0 -> 64 <= length pwd + length salt < 464 ->
  map (fun i => firstn 8 (skipn (64 * i) (ly_words (ly_pad (pwd ++ salt ++ ly_basil k (length pwd) (length salt) T R C))) ++ zeros 8)) (seq 0 (blocks_of pwd salt)) =
  ly_words (firstn 64 (pwd ++ salt)) :: repeat (zeros 8) (blocks_of pwd salt - 1).
Proof.
  intros k pwd salt T R C Hp Hs Hl. fold (linput k pwd salt T R C). pose proof (Nat.div_mod (length pwd) 8 ltac:(lia)) as D1. pose proof (Nat.div_mod (length salt) 8 ltac:(lia)) as D2. rewrite Hp in D1. rewrite Hs in D2.
  set (p := length pwd / 8 + length salt / 8 + 6). assert (Lm : length (linput k pwd salt T R C) = 8 * p) by (rewrite linput_length; unfold p; lia).
  pose proof (pad_words _ p Lm) as (A & B & E). rewrite linput_length in A, B, E. fold (blocks_of pwd salt) in A, B, E.
  assert (HB : 2 <= blocks_of pwd salt <= 8).
  { unfold blocks_of. split; [enough (1 <= (length pwd + length salt + 48) / 64) by lia; apply Nat.div_le_lower_bound; lia|]. enough ((length pwd + length salt + 48) / 64 < 8) by lia. apply Nat.div_lt_upper_bound; lia. }
  set (nb := blocks_of pwd salt) in *. clearbody nb.
  assert (Lw : length (ly_words (ly_pad (linput k pwd salt T R C))) = 8 * nb) by (rewrite words_length, B; replace (8 * (nb * 8)) with (8 * nb * 8) by lia; apply Nat.div_mul; lia).
  replace nb with (S (nb - 1)) at 1 by lia. cbn [seq map]. f_equal.
  - rewrite Nat.mul_0_r, skipn_O. rewrite firstn_app. replace (8 - length (ly_words (ly_pad (linput k pwd salt T R C)))) with 0 by lia. rewrite firstn_O, app_nil_r. rewrite E.
    assert (EW : ly_words (linput k pwd salt T R C) = ly_words (firstn 64 (pwd ++ salt)) ++ ly_words (skipn 64 (pwd ++ salt) ++ ly_basil k (length pwd) (length salt) T R C)).
    { unfold linput. rewrite (app_assoc pwd salt). rewrite <- (firstn_skipn 64 (pwd ++ salt)) at 1. rewrite <- app_assoc. apply words_app. rewrite firstn_length, app_length. rewrite Nat.min_l by lia. reflexivity. }
    rewrite EW. assert (L8 : length (ly_words (firstn 64 (pwd ++ salt))) = 8) by (rewrite words_length, firstn_length, app_length, Nat.min_l by lia; reflexivity).
    set (h := ly_words (firstn 64 (pwd ++ salt))) in *. clearbody h. generalize (zeros (nb * 8 - p - 1)). intro zz. rewrite <- !app_assoc. 
    replace (nb * 8 - 1) with (length h + (nb * 8 - 9)) by lia. rewrite upd_app2. rewrite firstn_app, firstn_all2 by lia. replace (8 - length h) with 0 by lia. rewrite firstn_O. apply app_nil_r.
  - rewrite <- seq_shift, map_map. set (w := ly_words (ly_pad (linput k pwd salt T R C))) in *. clearbody w.
    assert (G : forall l, map (fun x => firstn 8 (skipn (64 * S x) w ++ zeros 8)) l = repeat (zeros 8) (length l)).
    { induction l as [|a l IH]; [reflexivity|]. cbn [map repeat length]. rewrite IH. f_equal. rewrite (skipn_all2 w) by lia. reflexivity. }
    rewrite G, seq_length. reflexivity.
Qed.
Theorem C111_lyra2re_salt_refuted : forall k pwd salt pwd' salt' T R C,
  length pwd mod 8 = 0 -> length salt mod 8 = 0 -> length pwd' mod 8 = 0 -> length salt' mod 8 = 0 ->
  64 <= length pwd + length salt < 464 -> 64 <= length pwd' + length salt' < 464 -> blocks_of pwd' salt' = blocks_of pwd salt ->
  (T <= 1)%N -> 2 <= R -> (N.of_nat R < 2 ^ 62)%N -> 1 <= C -> 64 * (blocks_of pwd salt - 1) + 8 <= 12 * (R * C) ->
  firstn 64 (pwd' ++ salt') = firstn 64 (pwd ++ salt) ->
  lm_Lyra2 64 k pwd' salt' T R C = lm_Lyra2 64 k pwd salt T R C.
Proof.
  intros k pwd salt pwd' salt' T R C Hp Hs Hp' Hs' Hl Hl' EB HT HR HR2 HC HN EF.
  assert (HB : 2 <= blocks_of pwd salt) by (unfold blocks_of; enough (1 <= (length pwd + length salt + 48) / 64) by lia; apply Nat.div_le_lower_bound; lia).
  rewrite (C111_lyra2re_lyra2 k pwd salt T R C Hp Hs HT HR HR2 HC ltac:(lia) HN), (C111_lyra2re_lyra2 k pwd' salt' T R C Hp' Hs' HT HR HR2 HC ltac:(lia) ltac:(rewrite EB; exact HN)). rewrite !v1_blocks by assumption. rewrite EF, EB. reflexivity.
Qed.
(** a password of 64 bytes: any two salts of 16 bytes give the same key; Lyra2 itself tells them apart *)
Example C111_nonvacuous : let pwd := repeat 7%N 64 in let s1 := repeat 1%N 16 in let s2 := repeat 2%N 16 in
  64 <= length pwd + length s1 < 464 /\ blocks_of pwd s2 = blocks_of pwd s1 /\ 64 * (blocks_of pwd s1 - 1) + 8 <= 12 * (2 * 6) /\
  lm_Lyra2 64 (zeros 8) pwd s1 1 2 6 = lm_Lyra2 64 (zeros 8) pwd s2 1 2 6 /\
  lm_Lyra2 8 (zeros 8) pwd s1 1 2 6 <> lm_Lyra2 8 (zeros 8) pwd s2 1 2 6.
Proof.
  cbv zeta. split; [cbn; lia|]. split; [reflexivity|]. split; [apply Nat.leb_le; reflexivity|]. split; [vm_compute; reflexivity|]. intro H. vm_compute in H. discriminate H.
Qed.

(** C112 (refuted): "every byte of password and salt counts": the bytes after the last whole word are dropped, in both packages. *)
Lemma load_cut : forall b b', length b' = length b -> firstn (8 * (length b / 8)) b' = firstn (8 * (length b / 8)) b -> lm_load b' = lm_load b.
Proof.
  intros b b' L E. unfold lm_load. rewrite L. apply map_ext_in. intros j Hj. apply in_seq in Hj. f_equal. unfold slice. replace (j * 8 + 8 - j * 8) with 8 by lia.
  assert (G : forall c : list N, firstn 8 (skipn (j * 8) c) = firstn 8 (skipn (j * 8) (firstn (8 * (length b / 8)) c))).
  { intro c. rewrite skipn_firstn_comm, firstn_firstn. f_equal. lia. }
  rewrite (G b'), (G b), E. reflexivity.
Qed.
Theorem C112_lyra2_tail_refuted : forall stride k pwd salt pwd' salt' T R C,
  length pwd' = length pwd -> firstn (8 * (length pwd / 8)) pwd' = firstn (8 * (length pwd / 8)) pwd ->
  length salt' = length salt -> firstn (8 * (length salt / 8)) salt' = firstn (8 * (length salt / 8)) salt ->
  lm_Lyra2 stride k pwd' salt' T R C = lm_Lyra2 stride k pwd salt T R C.
Proof.
  intros stride k pwd salt pwd' salt' T R C L1 E1 L2 E2. unfold lm_Lyra2, lm_input, lm_nBlocks. rewrite (load_cut pwd pwd'), (load_cut salt salt') by assumption. rewrite L1, L2. reflexivity.
Qed.
(** all passwords of up to 7 bytes of the same length give the same key *)
Theorem C112_lyra2_short_passwords_refuted : forall stride k pwd pwd' salt T R C, length pwd < 8 -> length pwd' = length pwd ->
  lm_Lyra2 stride k pwd' salt T R C = lm_Lyra2 stride k pwd salt T R C.
Proof.
  intros stride k pwd pwd' salt T R C H L. apply C112_lyra2_tail_refuted; auto. rewrite Nat.div_small by exact H. reflexivity.
Qed.
Example C112_nonvacuous : [1; 2; 3]%N <> [4; 5; 6]%N /\ exists y, lm_Lyra2 8 (zeros 8) [1; 2; 3]%N [] 1 2 2 = Ok y /\ lm_Lyra2 8 (zeros 8) [4; 5; 6]%N [] 1 2 2 = Ok y.
Proof. split; [discriminate|]. eexists. vm_compute. split; reflexivity. Qed.
