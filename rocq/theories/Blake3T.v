(** Blake3T.v -- subtrees, the stack of chaining values, Write and Sum. *)
From Coq Require Import List NArith Arith Lia Bool.
From Verif Require Import Base HashAPI Words Bytes SpecBlake3 Blake3 Blake3P Blake3N.
Import ListNotations.
Local Open Scope nat_scope.

Lemma of_pow : forall e, N.of_nat (2 ^ e) = (2 ^ N.of_nat e)%N.
Proof. intro e. rewrite Nat2N.inj_pow. reflexivity. Qed.
Lemma to_pow : forall e, N.to_nat (2 ^ N.of_nat e)%N = 2 ^ e.
Proof. intro e. rewrite <- of_pow. apply Nat2N.id. Qed.

Definition b3_T (key : list N) (flags : N) (c : N) (m : list N) : b3_node := b3_tree key flags (S (length m)) c m.

Section Tree.
Variable key : list N.
Variable flags : N.
Hypothesis Hkey : length key = 8.

Notation T := (b3_T key flags).
Notation par := (b3_parent key flags).

Lemma left_bounds : forall n, 1024 < n -> let k := N.to_nat (2 ^ N.log2 (N.of_nat ((n - 1) / 1024)))%N * 1024 in 0 < k /\ k < n.
Proof.
  intros n H k. assert (Q : 1 <= (n - 1) / 1024) by (apply Nat.div_le_lower_bound; lia).
  assert (P : (0 < N.of_nat ((n - 1) / 1024))%N) by lia.
  destruct (N.log2_spec _ P) as [L _].
  assert (N.to_nat (2 ^ N.log2 (N.of_nat ((n - 1) / 1024))) <= (n - 1) / 1024) by lia.
  assert (0 < 2 ^ N.log2 (N.of_nat ((n - 1) / 1024)))%N by (apply N.neq_0_lt_0, N.pow_nonzero; lia).
  pose proof (Nat.mul_div_le (n - 1) 1024 ltac:(lia)). subst k. split; lia.
Qed.
Lemma tree_fuel : forall f c m, length m < f -> b3_tree key flags f c m = T c m.
Proof.
  assert (A : forall f f' c m, length m < f -> length m < f' -> b3_tree key flags f c m = b3_tree key flags f' c m).
  { induction f as [|f IH]; intros f' c m H H'; [lia|]. destruct f' as [|f']; [lia|]. cbn [b3_tree].
    destruct (length m <=? 1024) eqn:E; [reflexivity|]. apply Nat.leb_gt in E. pose proof (left_bounds _ E) as B. cbv zeta in *.
    destruct B as [B1 B2]. f_equal; apply IH; rewrite ?firstn_length, ?skipn_length; lia. }
  intros f c m H. unfold b3_T. apply A; lia.
Qed.
Lemma T_chunk : forall c m, length m <= 1024 -> T c m = b3_chunk key flags c m.
Proof. intros c m H. unfold b3_T. cbn [b3_tree]. destruct (length m <=? 1024) eqn:E; [reflexivity|apply Nat.leb_gt in E; lia]. Qed.
Lemma log2_between : forall e r, (r < 2 ^ e)%N -> N.log2 (2 ^ e + r) = e.
Proof. intros e r H. apply N.log2_unique; [lia|]. rewrite N.pow_succ_r'. lia. Qed.
Lemma T_split : forall e c t r, length t = 2 ^ e * 1024 -> 0 < length r -> length r <= 2 ^ e * 1024 ->
  T c (t ++ r) = par (T c t) (T (c + N.of_nat (2 ^ e))%N r).
Proof.
  intros e c t r Ht Hr Hr2. pose proof (pow_pos e) as P.
  assert (L : length (t ++ r) = 2 ^ e * 1024 + length r) by (rewrite app_length; lia).
  unfold b3_T at 1. cbn [b3_tree]. destruct (length (t ++ r) <=? 1024) eqn:E; [apply Nat.leb_le in E; lia|].
  assert (Q : (length (t ++ r) - 1) / 1024 = 2 ^ e + (length r - 1) / 1024).
  { rewrite L. replace (2 ^ e * 1024 + length r - 1) with ((length r - 1) + 2 ^ e * 1024) by lia. rewrite Nat.div_add by lia. lia. }
  assert (Q2 : (length r - 1) / 1024 < 2 ^ e) by (apply Nat.div_lt_upper_bound; lia).
  rewrite Q, Nat2N.inj_add, of_pow, log2_between by (rewrite <- of_pow; lia). cbv zeta. rewrite to_pow.
  rewrite firstn_app, skipn_app, <- Ht, Nat.sub_diag, firstn_O, app_nil_r, firstn_all, skipn_all. cbn [app skipn].
  rewrite !tree_fuel by lia. reflexivity.
Qed.

(** ** compress_subtree_to_parent_node on a power of two of chunks *)
Lemma chunks_whole : forall x : list N, length x = 1024 -> chunks 1024 x = [x].
Proof. intros x H. pose proof (chunks_one N 1024 x) as C. apply C; lia. Qed.
Lemma wide_ok : forall k fuel x c, length x = 2 ^ k * 1024 -> k < fuel -> k < 54 -> (c + N.of_nat (2 ^ k) <= 2 ^ 63)%N ->
  compress_subtree_wide fuel x key c flags =
  match k with
  | O => (b3_cvb (T c x), 1)
  | S j => (b3_cvb (T c (firstn (2 ^ j * 1024) x)) ++ b3_cvb (T (c + N.of_nat (2 ^ j))%N (skipn (2 ^ j * 1024) x)), 2)
  end.
Proof.
  induction k as [|k IH]; intros fuel x c Hx Hf Hk Hc; (destruct fuel as [|f]; [lia|]); cbn [compress_subtree_wide].
  - rewrite Nat.pow_0_r, Nat.mul_1_l in Hx. destruct (length x <=? 1024) eqn:E; [|apply Nat.leb_gt in E; lia].
    unfold compress_chunks_parallel. rewrite chunks_whole by exact Hx. cbn [length hash_many]. rewrite app_nil_r.
    rewrite hash_one_chunk by assumption. rewrite Hx. change (1024 * 1 <? 1024) with false. cbv iota zeta.
    rewrite T_chunk by lia. reflexivity.
  - pose proof (pow_pos k) as P. rewrite Nat.pow_succ_r' in Hx.
    destruct (length x <=? 1024) eqn:E; [apply Nat.leb_le in E; lia|].
    replace (length x) with (2 ^ S k * 1024) by (rewrite Nat.pow_succ_r'; lia). rewrite left_len_ok by lia. cbv zeta.
    set (h := 2 ^ k * 1024).
    assert (Lf : length (firstn h x) = h) by (rewrite firstn_length; lia).
    assert (Ls : length (skipn h x) = h) by (rewrite skipn_length; lia).
    replace (h / 1024) with (2 ^ k) by (symmetry; apply Nat.div_mul; lia).
    rewrite Nat.pow_succ_r', Nat2N.inj_mul in Hc. change (N.of_nat 2) with 2%N in Hc. change (2 ^ 63)%N with 9223372036854775808%N in Hc.
    assert (Ac : add64 c (N.of_nat (2 ^ k)) = (c + N.of_nat (2 ^ k))%N) by (unfold add64; apply w64_small; lia).
    rewrite Ac. rewrite !IH by (try assumption; try lia; change (2 ^ 63)%N with 9223372036854775808%N; lia).
    destruct k as [|j].
    + change (1 =? 1) with true. cbv iota. change (1024 <? h) with false. cbv iota.
      rewrite copy_at_over by (rewrite cvb_len; unfold zeros; rewrite repeat_length; lia).
      rewrite (copy_at_app' _ _ _ (1 * 32) 0) by (rewrite cvb_len; lia).
      rewrite copy_at_over by (rewrite cvb_len, skipn_length, cvb_len; unfold zeros; rewrite repeat_length; lia).
      rewrite !firstn_app, !cvb_len. rewrite !firstn_all2 by (rewrite cvb_len; lia).
      change (64 - 32 - 32) with 0. rewrite firstn_O, app_nil_r. reflexivity.
    + change (2 =? 1) with false. cbv iota.
      replace (1024 <? h) with true.
      2:{ symmetry. apply Nat.ltb_lt. unfold h. rewrite Nat.pow_succ_r'. pose proof (pow_pos j). lia. }
      set (h2 := 2 ^ j * 1024). assert (Hh : h = 2 * h2) by (unfold h, h2; rewrite Nat.pow_succ_r'; lia).
      set (c1 := b3_cvb (T c (firstn h2 (firstn h x)))). set (c2 := b3_cvb (T (c + N.of_nat (2 ^ j))%N (skipn h2 (firstn h x)))).
      set (c3 := b3_cvb (T (c + N.of_nat (2 ^ S j))%N (firstn h2 (skipn h x)))). set (c4 := b3_cvb (T (c + N.of_nat (2 ^ S j) + N.of_nat (2 ^ j))%N (skipn h2 (skipn h x)))).
      assert (L1 : length c1 = 32) by apply cvb_len. assert (L2 : length c2 = 32) by apply cvb_len.
      assert (L3 : length c3 = 32) by apply cvb_len. assert (L4 : length c4 = 32) by apply cvb_len.
      rewrite copy_at_over by (rewrite app_length; unfold zeros; rewrite repeat_length; lia).
      rewrite (copy_at_app' _ _ _ (2 * 32) 0) by (rewrite app_length; lia).
      rewrite copy_at_over by (rewrite skipn_length, !app_length; unfold zeros; rewrite repeat_length; lia).
      rewrite (skipn_all2 (n := length (c3 ++ c4))) by (rewrite skipn_length, !app_length; unfold zeros; rewrite repeat_length; lia).
      rewrite app_nil_r. unfold compress_parents_parallel. change (2 + 2) with 4. change (4 / 2) with 2. cbv zeta. change (2 * 2 <? 4) with false. cbv iota.
      cbn [seq map hash_many]. change (64 * 0) with 0. change (64 * 1) with 64. rewrite skipn_O.
      assert (F1 : firstn 64 ((c1 ++ c2) ++ c3 ++ c4) = c1 ++ c2) by (rewrite firstn_app, firstn_all2 by (rewrite app_length; lia); rewrite app_length; replace (64 - (length c1 + length c2)) with 0 by lia; rewrite firstn_O, app_nil_r; reflexivity).
      assert (F2 : firstn 64 (skipn 64 ((c1 ++ c2) ++ c3 ++ c4)) = c3 ++ c4).
      { rewrite skipn_app, skipn_all2 by (rewrite app_length; lia). rewrite app_length. replace (64 - (length c1 + length c2)) with 0 by lia. cbn [skipn app]. apply firstn_all2. rewrite app_length; lia. }
      rewrite F1, F2. rewrite app_nil_r. rewrite !hash_one_parent by (try assumption; rewrite app_length; lia).
      f_equal. f_equal.
      * unfold c1, c2. fold (par (T c (firstn h2 (firstn h x))) (T (c + N.of_nat (2 ^ j))%N (skipn h2 (firstn h x)))).
        rewrite <- (firstn_skipn h2 (firstn h x)) at 3. rewrite (T_split j); [reflexivity|..]; rewrite ?firstn_length, ?skipn_length; fold h2; lia.
      * unfold c3, c4. fold (par (T (c + N.of_nat (2 ^ S j))%N (firstn h2 (skipn h x))) (T (c + N.of_nat (2 ^ S j) + N.of_nat (2 ^ j))%N (skipn h2 (skipn h x)))).
        rewrite <- (firstn_skipn h2 (skipn h x)) at 3. rewrite (T_split j); [reflexivity|..]; rewrite ?firstn_length, ?skipn_length; fold h2; lia.
Qed.
Lemma pair_ok : forall j x c, length x = 2 ^ S j * 1024 -> j < 53 -> (c + N.of_nat (2 ^ S j) <= 2 ^ 63)%N ->
  compress_subtree_to_parent_node x key c flags =
  b3_cvb (T c (firstn (2 ^ j * 1024) x)) ++ b3_cvb (T (c + N.of_nat (2 ^ j))%N (skipn (2 ^ j * 1024) x)).
Proof.
  intros j x c Hx Hj Hc. unfold compress_subtree_to_parent_node.
  rewrite (wide_ok (S j)); try assumption; try lia.
  - rewrite copy_at_over by (rewrite app_length, !cvb_len; unfold zeros; rewrite repeat_length; lia).
    rewrite (skipn_all2 (zeros 64)) by (rewrite app_length, !cvb_len; unfold zeros; rewrite repeat_length; lia). apply app_nil_r.
  - rewrite Hx. pose proof (Nat.pow_gt_lin_r 2 (S j) ltac:(lia)). lia.
Qed.

(** ** The stack *)
(* [rep a rs cs]: the message prefix [a] is cut in pieces of 2^e chunks (e in rs, top of the stack first), cs: their chaining values *)
Inductive rep : list N -> list nat -> list (list N) -> Prop :=
| rep_nil : rep [] [] []
| rep_cons : forall a rs cs e p, rep a rs cs -> length p = 2 ^ e * 1024 -> rep (a ++ p) (e :: rs) (b3_cvb (T (N.of_nat (tot rs)) p) :: cs).
Lemma rep_length : forall a rs cs, rep a rs cs -> length a = tot rs * 1024 /\ length cs = length rs /\ length (concat (rev cs)) = 32 * length rs.
Proof.
  induction 1 as [|a rs cs e p H (I1 & I2 & I3) L]; [repeat split|]. cbn [tot length rev].
  rewrite concat_app, !app_length. cbn [concat]. rewrite app_nil_r, cvb_len. repeat split; lia.
Qed.
Record stR (d : b3) (a : list N) (rs : list nat) : Prop := {
  st_key : h_key d = key;
  st_flags : k_flags (h_chunk d) = flags;
  st_len : h_len d = N.of_nat (length rs);
  st_size : length (h_stack d) = stack_size;
  st_rep : exists cs junk, rep a rs cs /\ h_stack d = concat (rev cs) ++ junk }.

Lemma merge_step : forall d a e r post fuel, stR d a (e :: e :: r) -> length r <= 5 -> post < S (S (length r)) ->
  exists d', merge_loop (S fuel) d post = merge_loop fuel d' post /\ stR d' a (S e :: r) /\ h_chunk d' = h_chunk d /\ h_hs d' = h_hs d.
Proof.
  intros d a e r post fuel [Hk Hf Hl Hs (cs0 & junk & HR & HS)] Lr Lp.
  inversion HR as [|a1 rs1 cs1 e1 p2 HR1 L2]; subst. inversion HR1 as [|a0 rs0 cs e0 p1 HR0 L1]; subst. clear HR1.
  pose proof (rep_length _ _ _ HR0) as (La & Lc & LC).
  set (c1 := b3_cvb (T (N.of_nat (tot r)) p1)) in *. set (c2 := b3_cvb (T (N.of_nat (tot (e :: r))) p2)) in *.
  assert (W1 : length c1 = 32) by apply cvb_len. assert (W2 : length c2 = 32) by apply cvb_len.
  assert (ES : h_stack d = concat (rev cs) ++ (c1 ++ c2 ++ junk)).
  { rewrite HS. cbn [rev]. rewrite !concat_app. cbn [concat]. rewrite !app_nil_r, <- !app_assoc. reflexivity. }
  set (cv := b3_cvb (T (N.of_nat (tot r)) (p1 ++ p2))).
  exists (mkb3 (h_key d) (h_chunk d) (N.of_nat (length (S e :: r))) (concat (rev cs) ++ (cv ++ c2 ++ junk)) (h_hs d)).
  assert (A1 : w8 (h_len d + 256 - 2) = N.of_nat (length r)).
  { rewrite Hl. cbn [length]. replace (N.of_nat (S (S (length r))) + 256 - 2)%N with (N.of_nat (length r) + 1 * 256)%N by lia.
    rewrite w8_mod, N.mod_add by lia. apply N.mod_small. lia. }
  assert (A2 : w8 (w8 (h_len d + 256 - 2) * 32) = N.of_nat (32 * length r)) by (rewrite A1; rewrite w8_mod, N.mod_small; lia).
  assert (A3 : w8 (N.of_nat (32 * length r) + 64) = N.of_nat (32 * length r + 64)) by (rewrite w8_mod, N.mod_small; lia).
  assert (A4 : w8 (h_len d + 256 - 1) = N.of_nat (length (S e :: r))).
  { rewrite Hl. cbn [length]. replace (N.of_nat (S (S (length r))) + 256 - 1)%N with (N.of_nat (S (length r)) + 1 * 256)%N by lia.
    rewrite w8_mod, N.mod_add by lia. apply N.mod_small. lia. }
  assert (PN : firstn 64 (skipn (32 * length r) (h_stack d)) = c1 ++ c2).
  { rewrite ES, <- LC, skipn_app, skipn_all, Nat.sub_diag. cbn [app skipn]. rewrite app_assoc, firstn_app, firstn_all2 by (rewrite app_length; lia).
    rewrite app_length. replace (64 - (length c1 + length c2)) with 0 by lia. rewrite firstn_O, app_nil_r. reflexivity. }
  split; [|split].
  - cbn [merge_loop]. replace (N.of_nat post <? h_len d)%N with true by (symmetry; apply N.ltb_lt; rewrite Hl; cbn [length]; lia).
    cbv zeta. rewrite A2, A3, A4. replace (N.of_nat (32 * length r + 64) <? N.of_nat (32 * length r))%N with false by (symmetry; apply N.ltb_ge; lia).
    rewrite Nat2N.id, PN. f_equal. f_equal.
    rewrite chaining_ok by (cbn [parent_output o_cv o_block]; first [rewrite Hk; exact Hkey|rewrite app_length; lia]).
    assert (CV : b3_cvb (node_of (parent_output (c1 ++ c2) (h_key d) (k_flags (h_chunk d)))) = cv).
    { unfold cv. rewrite (T_split e) by (try assumption; rewrite ?L2; pose proof (pow_pos e); lia).
      rewrite Hk, Hf. unfold c1, c2. cbn [tot]. replace (N.of_nat (2 ^ e + tot r)) with (N.of_nat (tot r) + N.of_nat (2 ^ e))%N by lia. reflexivity. }
    rewrite CV. rewrite firstn_all2 by (unfold cv; rewrite cvb_len; lia). rewrite ES.
    rewrite (copy_at_app' _ _ _ (32 * length r) 0) by (rewrite LC; lia). apply f_equal.
    rewrite copy_at_over by (rewrite !app_length; unfold cv; rewrite cvb_len; lia). apply f_equal.
    replace (length cv) with (length c1) by (unfold cv; rewrite cvb_len; exact W1). rewrite skipn_app, skipn_all, Nat.sub_diag. reflexivity.
  - constructor; cbn [h_key h_chunk h_len h_stack]; try assumption; [reflexivity| |].
    + rewrite <- Hs, ES, !app_length. unfold cv. rewrite cvb_len. lia.
    + exists (cv :: cs), (c2 ++ junk). split.
      * rewrite <- app_assoc. apply rep_cons; [exact HR0|]. rewrite app_length, Nat.pow_succ_r'. lia.
      * cbn [rev]. rewrite concat_app. cbn [concat]. rewrite app_nil_r, <- app_assoc. reflexivity.
  - split; reflexivity.
Qed.
Lemma merge_stop : forall d a rs fuel, stR d a rs -> merge_loop fuel d (length rs) = Some d.
Proof.
  intros d a rs fuel H. destruct fuel; [reflexivity|]. cbn [merge_loop]. rewrite (st_len _ _ _ H).
  replace (N.of_nat (length rs) <? N.of_nat (length rs))%N with false by (symmetry; apply N.ltb_ge; lia). reflexivity.
Qed.
Lemma merge_loop_ok : forall n rs fuel d a, length rs = n -> n <= fuel -> stR d a rs -> near rs -> length rs <= 7 ->
  exists d' rs', merge_loop fuel d (popcnt (N.of_nat (tot rs))) = Some d' /\ stR d' a rs' /\ strict rs' /\ tot rs' = tot rs /\
    (rs' = rs \/ length rs' < length rs) /\ h_chunk d' = h_chunk d /\ h_hs d' = h_hs d.
Proof.
  induction n as [n IH] using lt_wf_ind. intros rs fuel d a L Lf H N0 B. destruct (near_cases rs N0) as [S0|(e & r & -> & H2)].
  - exists d, rs. rewrite popcnt_strict by (try assumption; lia). rewrite (merge_stop _ _ _ _ H). do 4 (split; [assumption || reflexivity|]). split; [left; reflexivity|split; reflexivity].
  - cbn [length] in *. destruct fuel as [|f]; [lia|].
    assert (T0 : tot (e :: e :: r) = tot (S e :: r)) by (cbn [tot]; rewrite Nat.pow_succ_r'; lia).
    destruct (popcnt_near (S (length r)) (S e :: r) eq_refl H2 ltac:(lia)) as [P1 _].
    rewrite T0. destruct (merge_step d a e r (popcnt (N.of_nat (tot (S e :: r)))) f H ltac:(lia) ltac:(lia)) as (d1 & E1 & R1 & C1 & C2).
    rewrite E1. destruct (IH (n - 1) ltac:(lia) (S e :: r) f d1 a) as (d' & rs' & E & R & Q1 & Q2 & Q3 & Q4 & Q5); try assumption; cbn [length]; try lia.
    exists d', rs'. do 4 (split; [assumption|]). split; [right; destruct Q3 as [->|Q3]; cbn [length] in *; lia|]. split; congruence.
Qed.
Lemma merge_ok : forall rs d a, stR d a rs -> near rs -> length rs <= 7 ->
  exists d' rs', mergeCvStack d (N.of_nat (tot rs)) = Some d' /\ stR d' a rs' /\ strict rs' /\ tot rs' = tot rs /\
    (rs' = rs \/ length rs' < length rs) /\ h_chunk d' = h_chunk d /\ h_hs d' = h_hs d.
Proof. intros rs d a H N0 B. unfold mergeCvStack. apply (merge_loop_ok (length rs)); try assumption; lia. Qed.
Lemma merge_panic : forall fuel d post, h_len d = 8%N -> post < 8 -> merge_loop (S fuel) d post = None.
Proof.
  intros fuel d post H L. cbn [merge_loop]. rewrite H. replace (N.of_nat post <? 8)%N with true by (symmetry; apply N.ltb_lt; lia). reflexivity.
Qed.
Lemma merge_bad : forall rs d a, stR d a rs -> near rs -> length rs = 8 -> ~ strict rs -> mergeCvStack d (N.of_nat (tot rs)) = None.
Proof.
  intros rs d a H N0 B NS. unfold mergeCvStack. destruct (popcnt_near 8 rs B N0 ltac:(lia)) as [P1 P2].
  destruct (Nat.eq_dec (popcnt (N.of_nat (tot rs))) 8) as [E|E]; [exfalso; apply NS, P2, E|].
  apply merge_panic; [rewrite (st_len _ _ _ H), B; reflexivity|lia].
Qed.
Lemma push_strict : forall rs d a e p, stR d a rs -> strict rs -> length rs <= 7 -> length p = 2 ^ e * 1024 ->
  exists d', pushCV d (b3_cvb (T (N.of_nat (tot rs)) p)) (N.of_nat (tot rs)) = Some d' /\ stR d' (a ++ p) (e :: rs) /\ h_chunk d' = h_chunk d /\ h_hs d' = h_hs d.
Proof.
  intros rs d a e p H S0 B Lp. unfold pushCV, mergeCvStack. rewrite popcnt_strict by (try assumption; lia). rewrite (merge_stop _ _ _ _ H).
  eexists. split; [reflexivity|]. split; [|split; reflexivity].
  destruct H as [Hk Hf Hl Hs (cs & junk & HR & HS)]. pose proof (rep_length _ _ _ HR) as (La & Lc & LC).
  assert (A1 : w8 (h_len d * 32) = N.of_nat (32 * length rs)) by (rewrite Hl; rewrite w8_mod, N.mod_small; lia).
  assert (Lj : 32 <= length junk) by (rewrite HS, app_length, LC in Hs; unfold stack_size in Hs; lia).
  constructor; cbn [h_key h_chunk h_len h_stack]; try assumption.
  - rewrite Hl. cbn [length]. rewrite w8_mod, N.mod_small; lia.
  - rewrite copy_at_length; [exact Hs|]. rewrite A1, Nat2N.id, Hs. unfold stack_size. lia.
  - exists (b3_cvb (T (N.of_nat (tot rs)) p) :: cs), (skipn 32 junk). split; [apply rep_cons; assumption|].
    rewrite A1, Nat2N.id, HS. rewrite (copy_at_app' _ _ _ (32 * length rs) 0) by (rewrite LC; lia).
    rewrite copy_at_over by (rewrite cvb_len; exact Lj). rewrite cvb_len. cbn [rev]. rewrite concat_app. cbn [concat]. rewrite app_nil_r, <- app_assoc. reflexivity.
Qed.
Lemma push_merged : forall d d1 cv c, mergeCvStack d c = Some d1 -> mergeCvStack d1 c = Some d1 -> pushCV d cv c = pushCV d1 cv c.
Proof. intros d d1 cv c H1 H2. unfold pushCV. rewrite H1, H2. reflexivity. Qed.
Lemma merge_strict : forall rs d a, stR d a rs -> strict rs -> length rs <= 7 -> mergeCvStack d (N.of_nat (tot rs)) = Some d.
Proof. intros rs d a H S0 L. unfold mergeCvStack. rewrite popcnt_strict by (try assumption; lia). apply (merge_stop _ _ _ _ H). Qed.
Lemma push_ok : forall rs d a e p, stR d a rs -> near rs -> length rs <= 7 -> length p = 2 ^ e * 1024 ->
  exists d' rs', pushCV d (b3_cvb (T (N.of_nat (tot rs)) p)) (N.of_nat (tot rs)) = Some d' /\ stR d' (a ++ p) (e :: rs') /\
    strict rs' /\ tot rs' = tot rs /\ (rs' = rs \/ length rs' < length rs) /\ h_chunk d' = h_chunk d /\ h_hs d' = h_hs d.
Proof.
  intros rs d a e p H N0 B Lp. destruct (merge_ok rs d a H N0 B) as (d1 & rs1 & E1 & R1 & Q1 & Q2 & Q3 & Q4 & Q5).
  assert (B1 : length rs1 <= 7) by (destruct Q3 as [->|]; lia).
  destruct (push_strict rs1 d1 a e p R1 Q1 B1 Lp) as (d' & E & R & C1 & C2). exists d', rs1.
  pose proof (merge_strict rs1 d1 a R1 Q1 B1) as M1. rewrite Q2 in M1, E. 
  rewrite (push_merged d d1 _ _ E1 M1). split; [exact E|].
  do 4 (split; [assumption|]). split; congruence.
Qed.
Lemma push_bad : forall rs d a cv, stR d a rs -> near rs -> length rs = 8 -> ~ strict rs -> pushCV d cv (N.of_nat (tot rs)) = None.
Proof. intros rs d a cv H N0 B NS. unfold pushCV. rewrite (merge_bad rs d a) by assumption. reflexivity. Qed.

(** ** The object *)
Definition ok (rs : list nat) : Prop := near rs /\ length rs <= 8 /\ (length rs = 8 -> ~ strict rs) /\ (length rs = 7 -> strict rs -> hd 0 rs = 0).
Definition fresh (c : N) : chunkState := mkcs key c (zeros 64) 0 0 flags.
Lemma ok_big : forall rs, ok rs -> ~ length rs <= 7 -> length rs = 8 /\ ~ strict rs /\ 128 <= tot rs.
Proof.
  intros rs (N0 & B & S0 & _) L. assert (E : length rs = 8) by lia. split; [exact E|]. split; [apply S0; exact E|].
  destruct (near_size rs N0) as [_ X]. rewrite E in X. change (2 ^ (8 - 1)) with 128 in X. apply X. intro Y. subst rs. discriminate E.
Qed.
Lemma div_incr : forall rs e q, strict rs -> tot rs = q * 2 ^ e -> incr e rs.
Proof.
  intros [|x r] e q S0 H; [exact Logic.I|]. cbn [incr]. destruct S0 as [_ I0]. split; [|exact I0].
  destruct (le_lt_dec e x) as [L|L]; [exact L|exfalso]. destruct (incr_div _ _ I0) as [q' Hq]. cbn [tot] in H. rewrite Hq in H.
  replace (2 ^ e) with (2 ^ (e - S x) * 2 * 2 ^ x) in H by (rewrite <- Nat.mul_assoc, <- Nat.pow_succ_r', <- Nat.pow_add_r; f_equal; lia).
  rewrite Nat.pow_succ_r' in H. pose proof (pow_pos x). 
  assert (X : (1 + 2 * q') * 2 ^ x = (2 * (q * 2 ^ (e - S x))) * 2 ^ x) by lia.
  apply Nat.mul_cancel_r in X; lia.
Qed.
(* after merging, pushing one chunk, or two equal subtrees *)
Lemma ok_single : forall rs rs', ok rs -> strict rs' -> length rs <= 7 -> (rs' = rs \/ length rs' < length rs) -> ok (0 :: rs').
Proof.
  intros rs rs' (N0 & B & S0 & H7) S1 L C. split; [apply incr_near; exact S1|]. split; [cbn [length]; destruct C as [->|]; lia|]. split.
  - cbn [length]. intros E. destruct C as [->|]; [|lia]. intros S2. specialize (H7 ltac:(lia) S1). destruct rs as [|x r]; [discriminate E|].
    cbn [hd] in H7. subst x. exact (not_strict_dup 0 r S2).
  - reflexivity.
Qed.
Lemma ok_pair : forall rs rs' j q, ok rs -> strict rs' -> length rs <= 7 -> (rs' = rs \/ length rs' < length rs) -> tot rs' = q * 2 ^ S j ->
  length rs' <= 6 /\ strict (j :: rs') /\ ok (j :: j :: rs').
Proof.
  intros rs rs' j q (N0 & B & S0 & H7) S1 L C D.
  assert (I1 : incr (S j) rs') by (apply (div_incr rs' (S j) q); assumption).
  assert (L6 : length rs' <= 6).
  { destruct C as [->|C]; [|lia]. destruct (Nat.eq_dec (length rs) 7) as [E|E]; [|lia]. specialize (H7 E S1).
    destruct rs as [|x r]; [discriminate E|]. cbn [hd] in H7. subst x. cbn [incr] in I1. lia. }
  assert (S2 : strict (j :: rs')) by (split; [lia|exact I1]).
  split; [exact L6|]. split; [exact S2|]. split; [split; [lia|exact I1]|]. split; [cbn [length]; lia|].
  split; [intros _; apply not_strict_dup|]. intros _ S3. exfalso. exact (not_strict_dup _ _ S3).
Qed.
Lemma strict_ok : forall rs rs', ok rs -> strict rs' -> length rs <= 7 -> (rs' = rs \/ length rs' < length rs) -> ok rs'.
Proof.
  intros rs rs' H S1 L [->|C]; [exact H|]. split; [apply strict_near; exact S1|]. destruct H as (_ & B & _). split; [lia|]. split; intros; lia.
Qed.

Definition dup (rs : list nat) : Prop := exists e r, rs = e :: e :: r.
Record wR (d : b3) (a : list N) (rs : list nat) : Prop := {
  w_st : stR d a rs; w_ok : ok rs; w_chunk : h_chunk d = fresh (N.of_nat (tot rs)) }.
Lemma stR_set : forall d a rs cs, stR d a rs -> k_flags cs = flags -> stR (set_chunk d cs) a rs.
Proof. intros d a rs cs [H1 H2 H3 H4 H5] F. constructor; assumption. Qed.
Lemma stR_len : forall d a rs, stR d a rs -> length a = tot rs * 1024.
Proof. intros d a rs [_ _ _ _ (cs & junk & H & _)]. apply (rep_length _ _ _ H). Qed.
Lemma pow_split : forall i, (2 ^ N.of_nat (10 + i) = N.of_nat (2 ^ i * 1024))%N.
Proof. intros i. rewrite Nat2N.inj_mul, of_pow. replace (N.of_nat (10 + i)) with (N.of_nat i + 10)%N by lia. rewrite N.pow_add_r. reflexivity. Qed.
Lemma subtree_ok : forall n t, 1024 < n -> (N.of_nat (t * 1024) + N.of_nat n < 2 ^ 63)%N ->
  exists j q, shrink 64 (round_down (N.of_nat n)) (mul64 (N.of_nat t) 1024) = N.of_nat (2 ^ j * 1024) /\ t = q * 2 ^ j /\ 2 ^ j * 1024 <= n /\ j < 53.
Proof.
  intros n t Hn Hb. change (2 ^ 63)%N with 9223372036854775808%N in Hb.
  assert (M : mul64 (N.of_nat t) 1024 = N.of_nat (t * 1024)) by (unfold mul64; rewrite w64_small; lia).
  rewrite M. rewrite round_down_ok by (change (2 ^ 64)%N with 18446744073709551616%N; lia).
  assert (L1 : (10 <= N.log2 (N.of_nat n))%N) by (apply N.log2_le_pow2; change (2 ^ 10)%N with 1024%N; lia).
  assert (L2 : (N.log2 (N.of_nat n) < 63)%N) by (apply N.log2_lt_pow2; change (2 ^ 63)%N with 9223372036854775808%N; lia).
  set (i := N.to_nat (N.log2 (N.of_nat n)) - 10). assert (Ei : N.log2 (N.of_nat n) = N.of_nat (10 + i)) by lia.
  rewrite Ei. destruct (shrink_ok 64 i (N.of_nat (t * 1024))) as (j & J1 & J2 & J3 & _); [lia| |].
  { rewrite Nat2N.inj_mul. apply N.mod_mul. lia. }
  rewrite J2. rewrite pow_split in J3 |- *. pose proof (pow_pos j) as P.
  apply N.mod_divide in J3; [|lia]. destruct J3 as [q Hq].
  exists j, (N.to_nat q). split; [reflexivity|]. split; [|split; [|lia]].
  - rewrite !Nat2N.inj_mul in Hq. change (N.of_nat 1024) with 1024%N in Hq.
    assert (X : (N.of_nat t = q * N.of_nat (2 ^ j))%N) by lia. lia.
  - assert (Y : (2 ^ N.of_nat (10 + j) <= N.of_nat n)%N).
    { apply N.le_trans with (2 ^ N.of_nat (10 + i))%N; [apply N.pow_le_mono_r; lia|]. rewrite <- Ei. apply N.log2_spec. lia. }
    rewrite pow_split in Y. lia.
Qed.
Lemma write_loop_S : forall f d input, write_loop (S f) d input =
  if 1024 <? length input then
    let ctr := k_ctr (h_chunk d) in
    let subtree_len := shrink 64 (round_down (N.of_nat (length input))) (mul64 ctr 1024) in
    let sl := N.to_nat subtree_len in
    let subtree_chunks := (subtree_len / 1024)%N in
    let r :=
      if (subtree_len <=? 1024)%N then
        let cs := set_counter (newChunkState (h_key d) (k_flags (h_chunk d))) ctr in
        let cs := cs_update cs (firstn sl input) in
        pushCV d (chainingValue (cs_output cs)) (k_ctr cs)
      else
        let pair := compress_subtree_to_parent_node (firstn sl input) (h_key d) ctr (k_flags (h_chunk d)) in
        match pushCV d (firstn 32 pair) ctr with
        | None => None
        | Some d => pushCV d (firstn 32 (skipn 32 pair)) (add64 ctr (subtree_chunks / 2))
        end in
    match r with
    | None => None
    | Some d => write_loop f (set_chunk d (set_counter (h_chunk d) (add64 ctr subtree_chunks))) (skipn sl input)
    end
  else Some (d, input).
Proof. reflexivity. Qed.
(* one iteration: push a chunk or a pair *)
Lemma single_push : forall d a rs x, wR d a rs -> length x = 1024 -> length rs <= 7 ->
  exists d' rs', (let cs := cs_update (fresh (N.of_nat (tot rs))) x in pushCV d (chainingValue (cs_output cs)) (k_ctr cs)) = Some d' /\ stR d' (a ++ x) (0 :: rs') /\ ok (0 :: rs') /\
    tot rs' = tot rs /\ h_chunk d' = h_chunk d /\ h_hs d' = h_hs d.
Proof.
  intros d a rs x [H O0 C] Lx L. cbv zeta.
  assert (R : csR key flags (N.of_nat (tot rs)) (cs_update (fresh (N.of_nat (tot rs))) x) ([] ++ x)).
  { apply update_ok; [exact Hkey|apply csR_new; exact Hkey|]. intro X. subst x. discriminate Lx. }
  cbn [app] in R. destruct (csR_output _ _ Hkey _ _ _ R) as (O1 & O2 & O3). rewrite chaining_ok by assumption. rewrite O3, (cr_ctr _ _ _ _ _ R).
  rewrite <- T_chunk by lia. destruct (push_ok rs d a 0 x H (proj1 O0) L) as (d' & rs' & E & R' & Q1 & Q2 & Q3 & Q4 & Q5); [rewrite Lx; reflexivity|].
  exists d', rs'. split; [exact E|]. split; [exact R'|]. split; [apply (ok_single rs); assumption|]. repeat split; assumption.
Qed.
Lemma pair_push : forall d a rs x j q, wR d a rs -> length x = 2 ^ S j * 1024 -> length rs <= 7 -> tot rs = q * 2 ^ S j -> j < 53 ->
  (N.of_nat (tot rs) + N.of_nat (2 ^ S j) <= 2 ^ 63)%N ->
  exists d' rs', (let pair := compress_subtree_to_parent_node x key (N.of_nat (tot rs)) flags in
    match pushCV d (firstn 32 pair) (N.of_nat (tot rs)) with None => None | Some d => pushCV d (firstn 32 (skipn 32 pair)) (N.of_nat (tot rs + 2 ^ j)) end) = Some d' /\
    stR d' (a ++ x) (j :: j :: rs') /\ ok (j :: j :: rs') /\ tot rs' = tot rs /\ h_chunk d' = h_chunk d /\ h_hs d' = h_hs d.
Proof.
  intros d a rs x j q [H O0 C] Lx L Hq Hj Hb. cbv zeta. rewrite (pair_ok j) by assumption.
  set (h := 2 ^ j * 1024). rewrite Nat.pow_succ_r' in Lx.
  assert (L1 : length (firstn h x) = 2 ^ j * 1024) by (rewrite firstn_length; lia).
  assert (L2 : length (skipn h x) = 2 ^ j * 1024) by (rewrite skipn_length; lia).
  set (c1 := b3_cvb (T (N.of_nat (tot rs)) (firstn h x))). set (c2 := b3_cvb (T (N.of_nat (tot rs) + N.of_nat (2 ^ j)) (skipn h x))).
  assert (W1 : length c1 = 32) by apply cvb_len. assert (W2 : length c2 = 32) by apply cvb_len.
  assert (F1 : firstn 32 (c1 ++ c2) = c1) by (rewrite firstn_app, <- W1, Nat.sub_diag, firstn_O, app_nil_r; apply firstn_all).
  assert (F2 : firstn 32 (skipn 32 (c1 ++ c2)) = c2) by (rewrite skipn_app, <- W1, Nat.sub_diag, skipn_all, W1; cbn [app skipn]; rewrite <- W2; apply firstn_all).
  rewrite F1, F2. destruct (push_ok rs d a j (firstn h x) H (proj1 O0) L L1) as (d1 & rs1 & E1 & R1 & Q1 & Q2 & Q3 & Q4 & Q5).
  fold c1 in E1. rewrite E1. destruct (ok_pair rs rs1 j q) as (K1 & K2 & K3); try assumption; [lia|].
  destruct (push_strict (j :: rs1) d1 (a ++ firstn h x) j (skipn h x)) as (d' & E & R & C1 & C2); try assumption; [cbn [length]; lia|].
  cbn [tot] in E. replace (2 ^ j + tot rs1) with (tot rs + 2 ^ j) in E by lia.
  exists d', rs1. split.
  { unfold c2. replace (N.of_nat (tot rs) + N.of_nat (2 ^ j))%N with (N.of_nat (tot rs + 2 ^ j)) by lia. exact E. }
  split; [rewrite <- app_assoc, firstn_skipn in R; exact R|]. split; [exact K3|]. split; [exact Q2|]. split; congruence.
Qed.
Lemma write_loop_ok : forall fuel d input a rs, wR d a rs -> length input < fuel -> (N.of_nat (length a) + N.of_nat (length input) < 2 ^ 63)%N ->
  (input = [] -> dup rs) ->
  match write_loop fuel d input with
  | None => 128 * 1024 < length a + length input
  | Some (d', inp') => exists a' rs', wR d' a' rs' /\ a' ++ inp' = a ++ input /\ length inp' <= 1024 /\ h_hs d' = h_hs d /\ (inp' = [] -> dup rs')
  end.
Proof.
  induction fuel as [|f IH]; intros d input a rs W Lf Hb D; [lia|]. rewrite write_loop_S.
  destruct (1024 <? length input) eqn:E.
  2:{ apply Nat.ltb_ge in E. exists a, rs. repeat split; try assumption; try apply W. }
  apply Nat.ltb_lt in E. cbv zeta.
  pose proof (stR_len _ _ _ (w_st _ _ _ W)) as La.
  assert (EC : k_ctr (h_chunk d) = N.of_nat (tot rs)) by (rewrite (w_chunk _ _ _ W); reflexivity).
  rewrite EC. destruct (subtree_ok (length input) (tot rs)) as (j & q & J1 & J2 & J3 & J4); [exact E|rewrite <- La; exact Hb|].
  rewrite J1, Nat2N.id. pose proof (pow_pos j) as P.
  rewrite (st_key _ _ _ (w_st _ _ _ W)), (st_flags _ _ _ (w_st _ _ _ W)).
  change (2 ^ 63)%N with 9223372036854775808%N in Hb.
  assert (DV : (N.of_nat (2 ^ j * 1024) / 1024 = N.of_nat (2 ^ j))%N) by (rewrite Nat2N.inj_mul; apply N.div_mul; lia).
  rewrite DV.
  assert (AD : add64 (N.of_nat (tot rs)) (N.of_nat (2 ^ j)) = N.of_nat (tot rs + 2 ^ j)) by (unfold add64; rewrite w64_small; lia).
  rewrite AD.
  set (x := firstn (2 ^ j * 1024) input). assert (Lx : length x = 2 ^ j * 1024) by (unfold x; rewrite firstn_length; lia).
  set (y := skipn (2 ^ j * 1024) input). assert (Ly : length y = length input - 2 ^ j * 1024) by (unfold y; apply skipn_length).
  assert (XY : x ++ y = input) by apply firstn_skipn.
  destruct (le_lt_dec (length rs) 7) as [L7|L7].
  2:{ (* the stack is full *)
    destruct (ok_big rs (w_ok _ _ _ W) ltac:(lia)) as (L8 & NS & Big).
    assert (PB : forall cv, pushCV d cv (N.of_nat (tot rs)) = None) by (intro cv; apply (push_bad rs d a); [apply W|apply (w_ok _ _ _ W)|exact L8|exact NS]).
    assert (128 * 1024 < length a + length input) by lia.
    destruct (N.of_nat (2 ^ j * 1024) <=? 1024)%N.
    - rewrite (cr_ctr key flags (N.of_nat (tot rs)) _ ([] ++ x)).
      2:{ apply update_ok; [exact Hkey|apply csR_new; exact Hkey|]. intro X. apply (f_equal (@length N)) in X. rewrite Lx in X. cbn [length] in X. lia. }
      rewrite PB. assumption.
    - rewrite PB. assumption. }
  destruct (N.of_nat (2 ^ j * 1024) <=? 1024)%N eqn:E1.
  - apply N.leb_le in E1. assert (P1 : 2 ^ j = 1) by lia.
    destruct (single_push d a rs x W) as (d1 & rs1 & E2 & R & O1 & T1 & C1 & C2); [lia|exact L7|]. cbv zeta in E2. 
    change (set_counter (newChunkState key flags) (N.of_nat (tot rs))) with (fresh (N.of_nat (tot rs))). rewrite E2.
    assert (T2 : tot rs + 2 ^ j = tot (0 :: rs1)) by (cbn [tot]; rewrite Nat.pow_0_r; lia).
    specialize (IH (set_chunk d1 (set_counter (h_chunk d1) (N.of_nat (tot rs + 2 ^ j)))) y (a ++ x) (0 :: rs1)).
    destruct (write_loop f _ y) as [[d' inp']|].
    + destruct IH as (a' & rs' & I1 & I2 & I3 & I4 & I5).
      * constructor; [apply stR_set; [exact R|]|exact O1|]; rewrite C1, (w_chunk _ _ _ W); [reflexivity|]. rewrite T2. reflexivity.
      * lia.
      * rewrite app_length. change (2 ^ 63)%N with 9223372036854775808%N. lia.
      * intro X. apply (f_equal (@length N)) in X. cbn [length] in X. lia.
      * exists a', rs'. split; [exact I1|]. split; [rewrite I2, <- app_assoc, XY; reflexivity|]. split; [exact I3|]. split; [cbn [set_chunk h_hs] in I4; congruence|exact I5].
    + rewrite app_length in IH. apply Nat.lt_le_trans with (length a + length x + length y); [apply IH|lia].
      * constructor; [apply stR_set; [exact R|]|exact O1|]; rewrite C1, (w_chunk _ _ _ W); [reflexivity|]. rewrite T2. reflexivity.
      * lia.
      * change (2 ^ 63)%N with 9223372036854775808%N. lia.
      * intro X. apply (f_equal (@length N)) in X. cbn [length] in X. lia.
  - apply N.leb_gt in E1. destruct j as [|j]; [rewrite Nat.pow_0_r in E1; lia|].
    destruct (pair_push d a rs x j q W) as (d1 & rs1 & E2 & R & O1 & T1 & C1 & C2); try assumption; [lia|change (2 ^ 63)%N with 9223372036854775808%N; lia|].
    cbv zeta in E2.
    assert (AD2 : add64 (N.of_nat (tot rs)) (N.of_nat (2 ^ S j) / 2) = N.of_nat (tot rs + 2 ^ j)).
    { rewrite Nat.pow_succ_r', (Nat.mul_comm 2), Nat2N.inj_mul. change (N.of_nat 2) with 2%N. rewrite N.div_mul by lia. rewrite Nat.pow_succ_r' in *. unfold add64; rewrite w64_small; lia. }
    rewrite AD2, E2.
    assert (T2 : tot rs + 2 ^ S j = tot (j :: j :: rs1)) by (cbn [tot]; rewrite Nat.pow_succ_r'; lia).
    specialize (IH (set_chunk d1 (set_counter (h_chunk d1) (N.of_nat (tot rs + 2 ^ S j)))) y (a ++ x) (j :: j :: rs1)).
    destruct (write_loop f _ y) as [[d' inp']|].
    + destruct IH as (a' & rs' & I1 & I2 & I3 & I4 & I5).
      * constructor; [apply stR_set; [exact R|]|exact O1|]; rewrite C1, (w_chunk _ _ _ W); [reflexivity|]. rewrite T2. reflexivity.
      * lia.
      * rewrite app_length. change (2 ^ 63)%N with 9223372036854775808%N. lia.
      * intros _. exists j, rs1. reflexivity.
      * exists a', rs'. split; [exact I1|]. split; [rewrite I2, <- app_assoc, XY; reflexivity|]. split; [exact I3|]. split; [cbn [set_chunk h_hs] in I4; congruence|exact I5].
    + rewrite app_length in IH. apply Nat.lt_le_trans with (length a + length x + length y); [apply IH|lia].
      * constructor; [apply stR_set; [exact R|]|exact O1|]; rewrite C1, (w_chunk _ _ _ W); [reflexivity|]. rewrite T2. reflexivity.
      * lia.
      * change (2 ^ 63)%N with 9223372036854775808%N. lia.
      * intros _. exists j, rs1. reflexivity.
Qed.

(* the object after the bytes [m] *)
Record dR (size : nat) (d : b3) (m : list N) : Prop := {
  d_hs : h_hs d = size;
  d_rep : exists a q rs, m = a ++ q /\ stR d a rs /\ ok rs /\ csR key flags (N.of_nat (tot rs)) (h_chunk d) q /\ length q <= 1024 /\
     (q = [] -> h_chunk d = fresh (N.of_nat (tot rs)) /\ (rs = [] \/ dup rs)) /\ (q <> [] -> strict rs /\ length rs <= 7) }.
Lemma b3_new_ok : forall size, dR size (b3_new key flags size) [].
Proof.
  intros size. constructor; [reflexivity|]. exists [], [], []. split; [reflexivity|]. split.
  { constructor; try reflexivity. exists [], (zeros stack_size). split; [constructor|reflexivity]. }
  split; [split; [exact Logic.I|split; [cbn [length]; lia|split; cbn [length]; intros; lia]]|].
  split; [apply csR_new; exact Hkey|]. split; [cbn [length]; lia|]. split; [intros _; split; [reflexivity|left; reflexivity]|congruence].
Qed.
Lemma b3_reset_ok : forall size d m, dR size d m -> dR size (b3_reset d) [].
Proof.
  intros size d m [Hs (a & q & rs & Em & St & _)]. destruct St as [Hk Hf _ _ _].
  replace (b3_reset d) with (b3_new key flags size); [apply b3_new_ok|]. unfold b3_new, b3_reset, cs_reset. cbn [h_key h_hs h_chunk k_flags newChunkState]. rewrite Hk, Hf, Hs. reflexivity.
Qed.
Definition limit : nat := 128 * 1024.
Lemma nonempty : forall (l : list N), l <> [] -> 0 < length l.
Proof. intros [|x l] H; [congruence|cbn [length]; lia]. Qed.
Lemma tail_ok : forall d a rs input size, wR d a rs -> h_hs d = size -> input <> [] -> (N.of_nat (length a) + N.of_nat (length input) < 2 ^ 63)%N ->
  match b3_tail d input with
  | None => limit < length a + length input
  | Some d' => dR size d' (a ++ input)
  end.
Proof.
  intros d a rs input size W Hs Hi Hb. unfold b3_tail.
  pose proof (write_loop_ok (S (length input)) d input a rs W (Nat.lt_succ_diag_r _) Hb ltac:(congruence)) as X.
  destruct (write_loop (S (length input)) d input) as [[d1 inp]|]; [|exact X].
  destruct X as (a1 & rs1 & [W1 W2 W3] & E1 & L1 & H1 & D1). rewrite <- E1.
  destruct (0 <? length inp) eqn:E.
  2:{ apply Nat.ltb_ge in E. assert (inp = []) by (destruct inp; [reflexivity|cbn [length] in E; lia]). subst inp.
      constructor; [congruence|]. exists a1, [], rs1. split; [reflexivity|]. split; [exact W1|]. split; [exact W2|].
      split; [rewrite W3; apply csR_new; exact Hkey|]. split; [cbn [length]; lia|]. split; [|congruence].
      intros _. split; [exact W3|right; apply D1; reflexivity]. }
  apply Nat.ltb_lt in E. assert (Ni : inp <> []) by (intro X; subst inp; cbn [length] in E; lia).
  assert (R : csR key flags (N.of_nat (tot rs1)) (cs_update (h_chunk d1) inp) ([] ++ inp)).
  { apply update_ok; [exact Hkey|rewrite W3; apply csR_new; exact Hkey|exact Ni]. }
  cbn [app] in R. assert (S1 : stR (set_chunk d1 (cs_update (h_chunk d1) inp)) a1 rs1) by (apply stR_set; [exact W1|apply (cr_flags _ _ _ _ _ R)]).
  cbn [set_chunk h_chunk]. rewrite (cr_ctr _ _ _ _ _ R).
  destruct (le_lt_dec (length rs1) 7) as [L7|L7].
  - destruct (merge_ok rs1 _ a1 S1 (proj1 W2) L7) as (d' & rs' & M & R' & Q1 & Q2 & Q3 & Q4 & Q5). 
    change (mkb3 (h_key d1) (cs_update (h_chunk d1) inp) (h_len d1) (h_stack d1) (h_hs d1)) with (set_chunk d1 (cs_update (h_chunk d1) inp)). rewrite M.
    constructor; [rewrite Q5; cbn [set_chunk h_hs]; congruence|]. exists a1, inp, rs'. split; [reflexivity|]. split; [exact R'|].
    split; [apply (strict_ok rs1); assumption|]. split; [rewrite Q4, Q2; exact R|]. split; [exact L1|]. split; [congruence|]. intros _.
    split; [exact Q1|]. destruct Q3 as [->|]; lia.
  - destruct (ok_big rs1 W2 ltac:(lia)) as (L8 & NS & Big). pose proof (stR_len _ _ _ W1) as La.
    change (mkb3 (h_key d1) (cs_update (h_chunk d1) inp) (h_len d1) (h_stack d1) (h_hs d1)) with (set_chunk d1 (cs_update (h_chunk d1) inp)).
    rewrite (merge_bad rs1 _ a1 S1 (proj1 W2) L8 NS).
    apply (f_equal (@length N)) in E1. rewrite !app_length in E1. unfold limit. lia.
Qed.
Lemma write_ok : forall size d m p, dR size d m -> (N.of_nat (length (m ++ p)) < 2 ^ 63)%N ->
  match b3_write d p with
  | None => limit < length (m ++ p)
  | Some d' => dR size d' (m ++ p)
  end.
Proof.
  intros size d m p [Hs (a & q & rs & Em & St & Ok & Cs & Lq & Q0 & Q1)] Hb. unfold b3_write. change (2 ^ 63)%N with 9223372036854775808%N in Hb. subst m.
  rewrite <- app_assoc in Hb |- *. rewrite !app_length in Hb. rewrite !app_length.
  destruct (length p =? 0) eqn:Ep.
  { apply Nat.eqb_eq in Ep. assert (p = []) by (destruct p; [reflexivity|discriminate Ep]). subst p. rewrite app_nil_r.
    constructor; [exact Hs|]. exists a, q, rs. split; [reflexivity|]. split; [exact St|]. split; [exact Ok|]. split; [exact Cs|]. split; [exact Lq|]. split; assumption. }
  apply Nat.eqb_neq in Ep. assert (Np : p <> []) by (intro X; subst p; cbn [length] in Ep; lia).
  rewrite (csR_length _ _ Hkey _ _ _ Cs).
  destruct (0 <? length q) eqn:Eq.
  2:{ apply Nat.ltb_ge in Eq. assert (q = []) by (destruct q; [reflexivity|cbn [length] in Eq; lia]). subst q. cbn [app length Nat.add].
      destruct (Q0 eq_refl) as [F0 _]. apply (tail_ok d a rs p size); [constructor; assumption|exact Hs|exact Np|].
      change (2 ^ 63)%N with 9223372036854775808%N. cbn [length] in Hb. lia. }
  apply Nat.ltb_lt in Eq. assert (Nq : q <> []) by (intro X; subst q; cbn [length] in Eq; lia). destruct (Q1 Nq) as [S0 L7].
  set (take := if length p <? 1024 - length q then length p else 1024 - length q).
  assert (T : take <= length p /\ take <= 1024 - length q /\ (take < length p -> take = 1024 - length q)).
  { subst take. destruct (length p <? 1024 - length q) eqn:E'; [apply Nat.ltb_lt in E'|apply Nat.ltb_ge in E']; lia. }
  destruct T as (T1 & T2 & T3). cbv zeta. clearbody take.
  set (x := firstn take p). assert (Lx : length x = take) by (unfold x; rewrite firstn_length; lia).
  set (y := skipn take p). assert (Ly : length y = length p - take) by (unfold y; apply skipn_length).
  assert (XY : x ++ y = p) by apply firstn_skipn.
  destruct (Nat.eq_dec (length q) 1024) as [F|F].
  - (* the chunk is full: nothing is added to it *)
    assert (take = 0) by lia. assert (x = []) by (destruct x; [reflexivity|cbn [length] in Lx; lia]).
    assert (CU : cs_update (h_chunk d) x = h_chunk d).
    { rewrite H0. destruct Cs as [A1 A2 A3 A4 (part & B1 & B2 & B3 & B4 & B5)]. unfold cs_update.
      assert (Lp0 : k_blen (h_chunk d) = length part) by exact B2.
      assert (Lp1 : length part <= 64) by lia.
      assert (Lp2 : 0 < length part) by (destruct B4 as [B4|B4]; [lia|apply nonempty; exact B4]).
      replace (0 <? k_blen (h_chunk d)) with true by (symmetry; apply Nat.ltb_lt; lia).
      assert (FB : fillBuf (h_chunk d) [] = (h_chunk d, 0)).
      { unfold fillBuf. cbn [length]. replace (if 0 <? 64 - k_blen (h_chunk d) then 0 else 64 - k_blen (h_chunk d)) with 0 by (destruct (0 <? 64 - k_blen (h_chunk d)) eqn:E3; [reflexivity|apply Nat.ltb_ge in E3; lia]).
        cbn [firstn]. rewrite Nat.add_0_r. f_equal. destruct (h_chunk d) as [cv ct bu bl nb fl]. cbn [k_cv k_ctr k_buf k_blen k_blocks k_flags]. f_equal.
        unfold copy_at. rewrite firstn_nil, Nat.min_0_r, Nat.add_0_r. cbn [app]. apply firstn_skipn. }
      rewrite FB. cbn [skipn length]. change (0 <? 0) with false. cbv iota. cbn [update_loop length]. change (64 <? 0) with false. cbv iota. rewrite FB. reflexivity. }
    rewrite CU. replace (0 <? length y) with true by (symmetry; apply Nat.ltb_lt; lia).
    change (set_chunk d (h_chunk d)) with (mkb3 (h_key d) (h_chunk d) (h_len d) (h_stack d) (h_hs d)).
    replace (mkb3 (h_key d) (h_chunk d) (h_len d) (h_stack d) (h_hs d)) with d by (destruct d; reflexivity).
    destruct (csR_output _ _ Hkey _ _ _ Cs) as (O1 & O2 & O3). rewrite chaining_ok by assumption. rewrite O3, (cr_ctr _ _ _ _ _ Cs).
    rewrite <- T_chunk by lia. destruct (push_ok rs d a 0 q St (proj1 Ok) L7) as (d' & rs' & E & R' & K1 & K2 & K3 & K4 & K5); [rewrite F; reflexivity|].
    rewrite E.
    assert (y = p) by (rewrite <- XY, H0; reflexivity). rewrite H1.
    assert (W : wR (set_chunk d' (cs_reset (h_chunk d') (h_key d') (add64 (k_ctr (h_chunk d')) 1))) (a ++ q) (0 :: rs')).
    { constructor; [apply stR_set; [exact R'|apply (st_flags _ _ _ R')]|apply (ok_single rs); assumption|].
      cbn [set_chunk h_chunk]. unfold cs_reset, fresh. rewrite (st_key _ _ _ R'), (st_flags _ _ _ R'), K4, (cr_ctr _ _ _ _ _ Cs). f_equal.
      pose proof (stR_len _ _ _ St). unfold add64. rewrite w64_small by lia. cbn [tot]. rewrite Nat.pow_0_r. lia. }
    pose proof (tail_ok _ _ _ p size W) as X. rewrite app_length, <- app_assoc in X.
    destruct (b3_tail _ p).
    + apply X; [cbn [set_chunk h_hs]; congruence|exact Np|change (2 ^ 63)%N with 9223372036854775808%N; lia].
    + rewrite Nat.add_assoc. apply X; [cbn [set_chunk h_hs]; congruence|exact Np|change (2 ^ 63)%N with 9223372036854775808%N; lia].
  - assert (Nx : x <> []) by (intro X; rewrite X in Lx; cbn [length] in Lx; lia).
    assert (R : csR key flags (N.of_nat (tot rs)) (cs_update (h_chunk d) x) (q ++ x)) by (apply update_ok; assumption).
    assert (S1 : stR (set_chunk d (cs_update (h_chunk d) x)) a rs) by (apply stR_set; [exact St|apply (cr_flags _ _ _ _ _ R)]).
    destruct (0 <? length y) eqn:Ey.
    2:{ apply Nat.ltb_ge in Ey. assert (take = length p) by lia. assert (x = p) by (unfold x; apply firstn_all2; lia).
        constructor; [exact Hs|]. exists a, (q ++ p), rs. split; [reflexivity|]. split; [exact S1|]. split; [exact Ok|]. 
        split; [cbn [set_chunk h_chunk]; replace (q ++ p) with (q ++ x) by (rewrite H0; reflexivity); exact R|]. split; [rewrite app_length; lia|].
        split; [intro X; apply app_eq_nil in X; destruct X; congruence|]. intros _. split; assumption. }
    apply Nat.ltb_lt in Ey. assert (Ny : y <> []) by (intro X; rewrite X in Ey; cbn [length] in Ey; lia).
    assert (Lqx : length (q ++ x) = 1024) by (rewrite app_length; lia).
    cbn [set_chunk h_chunk].
    destruct (csR_output _ _ Hkey _ _ _ R) as (O1 & O2 & O3). rewrite chaining_ok by assumption. rewrite O3, (cr_ctr _ _ _ _ _ R).
    rewrite <- T_chunk by lia.
    change (mkb3 (h_key d) (cs_update (h_chunk d) x) (h_len d) (h_stack d) (h_hs d)) with (set_chunk d (cs_update (h_chunk d) x)).
    destruct (push_ok rs _ a 0 (q ++ x) S1 (proj1 Ok) L7) as (d' & rs' & E & R' & K1 & K2 & K3 & K4 & K5); [rewrite Lqx; reflexivity|].
    rewrite E.
    assert (W : wR (set_chunk d' (cs_reset (h_chunk d') (h_key d') (add64 (k_ctr (h_chunk d')) 1))) (a ++ (q ++ x)) (0 :: rs')).
    { constructor; [apply stR_set; [exact R'|apply (st_flags _ _ _ R')]|apply (ok_single rs); assumption|].
      cbn [set_chunk h_chunk]. unfold cs_reset, fresh. rewrite (st_key _ _ _ R'), (st_flags _ _ _ R'), K4. cbn [set_chunk h_chunk]. rewrite (cr_ctr _ _ _ _ _ R). f_equal.
      pose proof (stR_len _ _ _ St). unfold add64. rewrite w64_small by lia. cbn [tot]. rewrite Nat.pow_0_r. lia. }
    change (mkb3 (h_key d') (cs_reset (h_chunk d') (h_key d') (add64 (k_ctr (h_chunk d')) 1)) (h_len d') (h_stack d') (h_hs d')) with (set_chunk d' (cs_reset (h_chunk d') (h_key d') (add64 (k_ctr (h_chunk d')) 1))).
    pose proof (tail_ok _ _ _ y size W) as X. rewrite !app_length in X. rewrite <- !app_assoc in X. rewrite XY in X. cbn [set_chunk h_hs] in K5, X.
    change (mkb3 (h_key d') (cs_reset (h_chunk d') (h_key d') (add64 (k_ctr (h_chunk d')) 1)) (h_len d') (h_stack d') (h_hs d')) with (set_chunk d' (cs_reset (h_chunk d') (h_key d') (add64 (k_ctr (h_chunk d')) 1))) in X.
    assert (Z : length a + (length q + length p) = length a + (length q + length x) + length y) by lia.
    destruct (b3_tail _ y).
    + apply X; [congruence|exact Ny|change (2 ^ 63)%N with 9223372036854775808%N; lia].
    + rewrite Z. apply X; [congruence|exact Ny|change (2 ^ 63)%N with 9223372036854775808%N; lia].
Qed.

(** ** Sum *)
Lemma final_loop_ok : forall a rs cs, rep a rs cs -> forall d o r junk, h_key d = key -> k_flags (h_chunk d) = flags -> strict rs ->
  h_stack d = concat (rev cs) ++ junk -> length (o_cv o) = 8 -> length (o_block o) = 64 -> node_of o = T (N.of_nat (tot rs)) r -> 0 < length r ->
  match rs with [] => True | e :: _ => length r <= 2 ^ e * 1024 end ->
  let o' := final_loop (length rs) d o in length (o_cv o') = 8 /\ length (o_block o') = 64 /\ node_of o' = T 0 (a ++ r).
Proof.
  induction 1 as [|a rs cs e p HR IH Lp]; intros d o r junk Hk Hf S0 HS O1 O2 O3 R1 R2; cbn [length final_loop] in *; cbv zeta.
  - repeat split; assumption.
  - destruct (rep_length _ _ _ HR) as (La & Lc & LC). cbn [rev] in HS. rewrite concat_app in HS. cbn [concat] in HS. rewrite app_nil_r, <- app_assoc in HS.
    set (cp := b3_cvb (T (N.of_nat (tot rs)) p)) in *. assert (W : length cp = 32) by apply cvb_len.
    assert (SL : slice (h_stack d) (length rs * 32) (length rs * 32 + 32) = cp).
    { unfold slice. replace (length rs * 32 + 32 - length rs * 32) with 32 by lia. rewrite HS.
      rewrite skipn_app, skipn_all2 by lia. replace (length rs * 32 - length (concat (rev cs))) with 0 by lia. cbn [app skipn].
      rewrite firstn_app, <- W, Nat.sub_diag, firstn_O, app_nil_r. apply firstn_all. }
    rewrite SL. rewrite <- app_assoc.
    destruct S0 as [_ S0].
    apply (IH d _ (p ++ r) (cp ++ junk)); try assumption.
    + apply (incr_le rs 0 (S e)); [lia|exact S0].
    + cbn [parent_output o_cv]. rewrite Hk. exact Hkey.
    + cbn [parent_output o_block]. rewrite app_length, chaining_ok, cvb_len by assumption. lia.
    + rewrite (T_split e) by assumption. rewrite chaining_ok by assumption. rewrite O3, Hk, Hf. unfold cp. cbn [tot].
      replace (N.of_nat (2 ^ e + tot rs)) with (N.of_nat (tot rs) + N.of_nat (2 ^ e))%N by lia. reflexivity.
    + rewrite app_length. lia.
    + destruct rs as [|x rs]; [exact Logic.I|]. rewrite app_length, Lp. cbn [incr] in S0. destruct S0 as [S0 _].
      apply Nat.le_trans with (2 ^ S e * 1024); [rewrite Nat.pow_succ_r'; lia|]. apply Nat.mul_le_mono_r, Nat.pow_le_mono_r; lia.
Qed.
Lemma output_ok : forall o m n, length (o_cv o) = 8 -> length (o_block o) = 64 -> node_of o = T 0 m -> (N.of_nat n < 2 ^ 63)%N ->
  rootBytes (S n) o 0 n = b3_hash key flags n m.
Proof.
  intros o m n O1 O2 O3 Hn. change 0%N with (N.of_nat 0). rewrite rootBytes_ok; try assumption; [|lia|change (2 ^ 64)%N with 18446744073709551616%N; change (2 ^ 63)%N with 9223372036854775808%N in Hn; lia].
  unfold b3_hash, b3_root. fold (T 0%N m). rewrite <- O3. reflexivity.
Qed.
Lemma finalize_ok : forall size d m n, dR size d m -> (N.of_nat n < 2 ^ 63)%N -> finalize d n = b3_hash key flags n m.
Proof.
  intros size d m n [Hs (a & q & rs & Em & St & Ok & Cs & Lq & Q0 & Q1)] Hn. unfold finalize.
  destruct (n =? 0) eqn:E0; [apply Nat.eqb_eq in E0; subst n; reflexivity|]. subst m.
  destruct (csR_output _ _ Hkey _ _ _ Cs) as (O1 & O2 & O3). rewrite <- T_chunk in O3 by exact Lq.
  rewrite (st_len _ _ _ St). destruct St as [Hk Hf Hl Hz (cs & junk & HR & HS)]. destruct (rep_length _ _ _ HR) as (La & Lc & LC).
  destruct (N.of_nat (length rs) =? 0)%N eqn:E1.
  { apply N.eqb_eq in E1. assert (rs = []) by (destruct rs; [reflexivity|cbn [length] in E1; lia]). subst rs.
    cbn [tot Nat.mul] in *. assert (a = []) by (destruct a; [reflexivity|discriminate La]). subst a. apply output_ok; assumption. }
  apply N.eqb_neq in E1. rewrite (csR_length _ _ Hkey _ _ _ Cs). rewrite Nat2N.id.
  destruct (0 <? length q) eqn:Eq.
  - apply Nat.ltb_lt in Eq. assert (Nq : q <> []) by (intro X; subst q; cbn [length] in Eq; lia). destruct (Q1 Nq) as [S0 L7].
    destruct (final_loop_ok a rs cs HR d (cs_output (h_chunk d)) q junk) as (P1 & P2 & P3); try assumption.
    { destruct rs as [|e r]; [exact Logic.I|]. pose proof (pow_pos e). lia. }
    apply output_ok; assumption.
  - apply Nat.ltb_ge in Eq. assert (q = []) by (destruct q; [reflexivity|cbn [length] in Eq; lia]). subst q. rewrite app_nil_r in *.
    destruct (Q0 eq_refl) as [_ [X|(e & r & X)]]; [subst rs; cbn [length] in E1; lia|]. subst rs. clear Q0 Q1 Cs O1 O2 O3.
    inversion HR as [|a1 rs1 cs1 e1 p2 HR1 L2]; subst. inversion HR1 as [|a0 rs0 cs0 e0 p1 HR0 L1]; subst. clear HR1.
    destruct (rep_length _ _ _ HR0) as (La0 & Lc0 & LC0).
    set (c1 := b3_cvb (T (N.of_nat (tot r)) p1)) in *. set (c2 := b3_cvb (T (N.of_nat (tot (e :: r))) p2)) in *.
    assert (W1 : length c1 = 32) by apply cvb_len. assert (W2 : length c2 = 32) by apply cvb_len.
    assert (ES : h_stack d = concat (rev cs0) ++ (c1 ++ c2 ++ junk)).
    { rewrite HS. cbn [rev]. rewrite !concat_app. cbn [concat]. rewrite !app_nil_r, <- !app_assoc. reflexivity. }
    cbn [length]. replace (S (S (length r)) - 2) with (length r) by lia.
    assert (PN : firstn 64 (skipn (length r * 32) (h_stack d)) = c1 ++ c2).
    { rewrite ES. rewrite skipn_app, skipn_all2 by lia. replace (length r * 32 - length (concat (rev cs0))) with 0 by lia. cbn [app skipn].
      rewrite app_assoc, firstn_app, firstn_all2 by (rewrite app_length; lia).
      rewrite app_length. replace (64 - (length c1 + length c2)) with 0 by lia. rewrite firstn_O, app_nil_r. reflexivity. }
    rewrite PN. rewrite <- app_assoc. destruct Ok as [[_ I0] _]. fold incr in I0.
    destruct (final_loop_ok a0 r cs0 HR0 d (parent_output (c1 ++ c2) (h_key d) (k_flags (h_chunk d))) (p1 ++ p2) (c1 ++ c2 ++ junk)) as (P1 & P2 & P3); try assumption.
    + apply (incr_le r 0 (S e)); [lia|exact I0].
    + cbn [parent_output o_cv]. rewrite Hk. exact Hkey.
    + cbn [parent_output o_block]. rewrite app_length. lia.
    + rewrite (T_split e) by (try assumption; rewrite ?L2; pose proof (pow_pos e); lia). rewrite Hk, Hf. unfold c1, c2. cbn [tot].
      replace (N.of_nat (2 ^ e + tot r)) with (N.of_nat (tot r) + N.of_nat (2 ^ e))%N by lia. reflexivity.
    + rewrite app_length, L1, L2. pose proof (pow_pos e). lia.
    + destruct r as [|x r]; [exact Logic.I|]. cbn [incr] in I0. destruct I0 as [I0 _]. rewrite app_length, L1, L2.
      apply Nat.le_trans with (2 ^ S e * 1024); [rewrite Nat.pow_succ_r'; lia|]. apply Nat.mul_le_mono_r, Nat.pow_le_mono_r; lia.
    + apply output_ok; assumption.
Qed.
End Tree.
