(** Blake3P.v -- the code's compression function, chunks and subtrees are BLAKE3's. *)
From Coq Require Import List NArith Arith Lia Bool.
From Verif Require Import Base HashAPI Words SpecBlake3 Blake3.
Import ListNotations.
Local Open Scope nat_scope.

(** ** The compression function *)
Lemma g3_G : forall v0 v1 v2 v3 v4 v5 v6 v7 v8 v9 v10 v11 v12 v13 v14 v15 x y,
  let s := [v0; v1; v2; v3; v4; v5; v6; v7; v8; v9; v10; v11; v12; v13; v14; v15] in
  g3 s 0 4 8 12 x y = (let '(a, b, c, d) := b3_G v0 v4 v8 v12 x y in [a; v1; v2; v3; b; v5; v6; v7; c; v9; v10; v11; d; v13; v14; v15]) /\
  g3 s 1 5 9 13 x y = (let '(a, b, c, d) := b3_G v1 v5 v9 v13 x y in [v0; a; v2; v3; v4; b; v6; v7; v8; c; v10; v11; v12; d; v14; v15]) /\
  g3 s 2 6 10 14 x y = (let '(a, b, c, d) := b3_G v2 v6 v10 v14 x y in [v0; v1; a; v3; v4; v5; b; v7; v8; v9; c; v11; v12; v13; d; v15]) /\
  g3 s 3 7 11 15 x y = (let '(a, b, c, d) := b3_G v3 v7 v11 v15 x y in [v0; v1; v2; a; v4; v5; v6; b; v8; v9; v10; c; v12; v13; v14; d]) /\
  g3 s 0 5 10 15 x y = (let '(a, b, c, d) := b3_G v0 v5 v10 v15 x y in [a; v1; v2; v3; v4; b; v6; v7; v8; v9; c; v11; v12; v13; v14; d]) /\
  g3 s 1 6 11 12 x y = (let '(a, b, c, d) := b3_G v1 v6 v11 v12 x y in [v0; a; v2; v3; v4; v5; b; v7; v8; v9; v10; c; d; v13; v14; v15]) /\
  g3 s 2 7 8 13 x y = (let '(a, b, c, d) := b3_G v2 v7 v8 v13 x y in [v0; v1; a; v3; v4; v5; v6; b; c; v9; v10; v11; v12; d; v14; v15]) /\
  g3 s 3 4 9 14 x y = (let '(a, b, c, d) := b3_G v3 v4 v9 v14 x y in [v0; v1; v2; a; b; v5; v6; v7; v8; c; v10; v11; v12; v13; d; v15]).
Proof. intros. repeat split; reflexivity. Qed.

Definition sched (r : nat) (m : list N) : list N := map (fun i => at_ m (nth i (nth r MSG_SCHEDULE []) 0)) (seq 0 16).
Lemma sched_0 : forall m, length m = 16 -> sched 0 m = m.
Proof. intros m H. do 17 (destruct m as [|? m]; try discriminate H). reflexivity. Qed.
Lemma sched_S : forall r m, r < 6 -> sched (S r) m = b3_permute (sched r m).
Proof. intros r m H. do 6 (destruct r as [|r]; [reflexivity|]). lia. Qed.

Lemma list16 : forall (l : list N), length l = 16 -> exists v0 v1 v2 v3 v4 v5 v6 v7 v8 v9 v10 v11 v12 v13 v14 v15,
  l = [v0; v1; v2; v3; v4; v5; v6; v7; v8; v9; v10; v11; v12; v13; v14; v15].
Proof.
  intros l H. do 17 (destruct l as [|? l]; try discriminate H). do 16 eexists. reflexivity.
Qed.
Lemma round_len : forall v m, length v = 16 -> length (b3_round v m) = 16.
Proof.
  intros v m H. destruct (list16 v H) as (? & ? & ? & ? & ? & ? & ? & ? & ? & ? & ? & ? & ? & ? & ? & ? & ->).
  unfold b3_round. repeat (match goal with |- context [b3_G ?a ?b ?c ?d ?x ?y] => destruct (b3_G a b c d x y) as [[[? ?] ?] ?] end). reflexivity.
Qed.
Lemma round_ok : forall v m r, length v = 16 -> round_fn v m r = b3_round v (sched r m).
Proof.
  intros v m r H. destruct (list16 v H) as (v0 & v1 & v2 & v3 & v4 & v5 & v6 & v7 & v8 & v9 & v10 & v11 & v12 & v13 & v14 & v15 & ->).
  assert (A : forall i, i < 16 -> at_ m (nth i (nth r MSG_SCHEDULE []) 0) = at_ (sched r m) i).
  { intros i Hi. unfold sched, at_ at 2. rewrite (nth_indep _ 0%N (at_ m (nth 0 (nth r MSG_SCHEDULE []) 0))) by (rewrite map_length, seq_length; lia).
    rewrite (map_nth (fun i => at_ m (nth i (nth r MSG_SCHEDULE []) 0)) (seq 0 16) 0 i). rewrite seq_nth by lia. reflexivity. }
  unfold round_fn. cbv zeta. rewrite !A by lia. generalize (sched r m). clear A H. intros q.
  unfold b3_round.
  Ltac gstep n := match goal with |- context [g3 [?v0; ?v1; ?v2; ?v3; ?v4; ?v5; ?v6; ?v7; ?v8; ?v9; ?v10; ?v11; ?v12; ?v13; ?v14; ?v15] ?a ?b ?c ?d ?x ?y] =>
    let H := fresh in pose proof (g3_G v0 v1 v2 v3 v4 v5 v6 v7 v8 v9 v10 v11 v12 v13 v14 v15 x y) as H; cbv zeta in H;
    destruct H as (?H1 & ?H2 & ?H3 & ?H4 & ?H5 & ?H6 & ?H7 & ?H8);
    match goal with E : g3 [v0; v1; v2; v3; v4; v5; v6; v7; v8; v9; v10; v11; v12; v13; v14; v15] a b c d x y = _ |- _ => rewrite E end;
    clear H1 H2 H3 H4 H5 H6 H7 H8;
    match goal with |- context [b3_G ?a ?b ?c ?d x y] => destruct (b3_G a b c d x y) as [[[? ?] ?] ?] end
  end.
  gstep 0. gstep 0. gstep 0. gstep 0. gstep 0. gstep 0. gstep 0. gstep 0. reflexivity.
Qed.
Lemma rounds_ok : forall n r v m, length v = 16 -> r + n = 7 -> fold_left (fun s r => round_fn s m r) (seq r n) v = b3_rounds n v (sched r m).
Proof.
  induction n as [|n IH]; intros r v m Hv Hr; [reflexivity|]. cbn [seq]. rewrite fold_left_cons. rewrite round_ok by exact Hv.
  rewrite IH by (try apply round_len; lia). destruct n as [|n]; [reflexivity|]. rewrite sched_S by lia. reflexivity.
Qed.
Lemma block_words : forall b, length b = 64 -> map (fun i => le_val (firstn 4 (skipn (4 * i) b))) (seq 0 16) = map le_val (chunks 4 b).
Proof.
  intros b H. do 65 (destruct b as [|? b]; try discriminate H). reflexivity.
Qed.
Lemma chunks4_len : forall b, length b = 64 -> length (map le_val (chunks 4 b)) = 16.
Proof. intros b H. rewrite map_length, chunks_length, H. reflexivity. Qed.
Lemma pre_ok : forall cv b len c f, length cv = 8 -> length b = 64 ->
  compress_pre cv b len c f = b3_rounds 7 (cv ++ firstn 4 b3_IV ++ [w32 c; w32 (N.shiftr c 32); len; f]) (map le_val (chunks 4 b)).
Proof.
  intros cv b len c f Hc Hb. unfold compress_pre. cbv zeta. rewrite block_words by exact Hb.
  rewrite rounds_ok by reflexivity. rewrite sched_0 by (apply chunks4_len; exact Hb).
  do 9 (destruct cv as [|? cv]; try discriminate Hc). reflexivity.
Qed.
Lemma rounds_len : forall n v m, length v = 16 -> length (b3_rounds n v m) = 16.
Proof. induction n as [|n IH]; intros v m H; [exact H|]. cbn [b3_rounds]. apply IH. apply round_len. exact H. Qed.
Definition node_of (o : output) : b3_node := mknode (o_cv o) (o_block o) (o_ctr o) (o_len o) (o_flags o).
Lemma in_place_ok : forall cv b len c f, length cv = 8 -> length b = 64 -> compress_in_place cv b len c f = b3_cv (mknode cv b c len f).
Proof.
  intros cv b len c f Hc Hb. unfold compress_in_place, b3_cv, b3_compress. cbn [n_cv n_block n_ctr n_len n_flags]. cbv zeta.
  rewrite pre_ok by assumption. generalize (b3_rounds 7 (cv ++ firstn 4 b3_IV ++ [w32 c; w32 (N.shiftr c 32); len; f]) (map le_val (chunks 4 b))).
  intros v. reflexivity.
Qed.
Lemma xof_ok : forall cv b len c f, length cv = 8 -> length b = 64 -> compress_xof cv b len c f = concat (map (le_bytes 4) (b3_compress (mknode cv b c len f))).
Proof.
  intros cv b len c f Hc Hb. unfold compress_xof, b3_compress. cbn [n_cv n_block n_ctr n_len n_flags]. cbv zeta.
  rewrite pre_ok by assumption. generalize (b3_rounds 7 (cv ++ firstn 4 b3_IV ++ [w32 c; w32 (N.shiftr c 32); len; f]) (map le_val (chunks 4 b))).
  intros v. reflexivity.
Qed.
Lemma cv_len : forall o, length (b3_cv o) = 8.
Proof. intros o. unfold b3_cv, b3_compress. cbv zeta. rewrite firstn_length, app_length, !map_length, !seq_length. reflexivity. Qed.
Lemma cvb_len : forall o, length (b3_cvb o) = 32.
Proof. intros o. unfold b3_cvb. rewrite concat_le_length, cv_len. reflexivity. Qed.
Lemma compress_len : forall o, length (concat (map (le_bytes 4) (b3_compress o))) = 64.
Proof. intros o. rewrite concat_le_length. unfold b3_compress. cbv zeta. rewrite app_length, !map_length, !seq_length. reflexivity. Qed.
Lemma chaining_ok : forall o, length (o_cv o) = 8 -> length (o_block o) = 64 -> chainingValue o = b3_cvb (node_of o).
Proof. intros o Hc Hb. unfold chainingValue, b3_cvb. rewrite in_place_ok by assumption. reflexivity. Qed.

(** ** Output *)
Lemma rootBytes_ok : forall o, length (o_cv o) = 8 -> length (o_block o) = 64 -> forall fuel n i, n < fuel -> (N.of_nat i + N.of_nat n < 2 ^ 64)%N ->
  rootBytes fuel o (N.of_nat i) n =
  firstn n (concat (map (fun i => concat (map (le_bytes 4) (b3_compress (mknode (o_cv o) (o_block o) (N.of_nat i) (o_len o) (N.lor (o_flags o) B3_ROOT))))) (seq i (n / 64 + 1)))).
Proof.
  intros o Hc Hb. induction fuel as [|f IH]; intros n i Hn Hi; [lia|]. cbn [rootBytes].
  destruct (0 <? n) eqn:E.
  2:{ apply Nat.ltb_ge in E. replace n with 0 by lia. reflexivity. }
  apply Nat.ltb_lt in E. rewrite xof_ok by assumption. change ROOT with B3_ROOT.
  destruct (64 <? n) eqn:E2.
  - apply Nat.ltb_lt in E2. replace (n / 64 + 1) with (S ((n - 64) / 64 + 1)).
    2:{ replace n with ((n - 64) + 1 * 64) at 2 by lia. rewrite Nat.div_add by lia. lia. }
    cbn [seq map concat]. rewrite firstn_app. rewrite compress_len.
    rewrite (firstn_all2 (n := n)) by (rewrite compress_len; lia). rewrite firstn_all2 by (rewrite compress_len; lia). f_equal.
    unfold add64. rewrite w64_small by (change (2 ^ 64)%N with 18446744073709551616%N in *; lia).
    replace (N.of_nat i + 1)%N with (N.of_nat (S i)) by lia. apply IH; [lia|]. change (2 ^ 64)%N with 18446744073709551616%N in *. lia.
  - apply Nat.ltb_ge in E2. rewrite Nat.sub_diag. replace (rootBytes f o _ 0) with (@nil N) by (destruct f; reflexivity).
    rewrite app_nil_r. replace (n / 64 + 1) with (S (n / 64)) by lia. cbn [seq map concat]. rewrite firstn_app, compress_len.
    replace (n - 64) with 0 by lia. rewrite firstn_O, app_nil_r. reflexivity.
Qed.

(** ** Chunks *)
Section Chunk.
Variable key : list N.
Variable flags : N.
Hypothesis Hkey : length key = 8.

Notation bk cv st c b := (b3_blocks flags (S (length b)) cv st c b).
Lemma blocks_fuel : forall f b cv st c, length b < f -> b3_blocks flags f cv st c b = bk cv st c b.
Proof.
  assert (A : forall f f' b cv st c, length b < f -> length b < f' -> b3_blocks flags f cv st c b = b3_blocks flags f' cv st c b).
  { induction f as [|f IH]; intros f' b cv st c H H'; [lia|]. destruct f' as [|f']; [lia|]. cbn [b3_blocks].
    destruct (length b <=? 64) eqn:E; [reflexivity|]. apply Nat.leb_gt in E. apply IH; rewrite skipn_length; lia. }
  intros f b cv st c H. apply A; lia.
Qed.
Lemma bk_step : forall x s cv st c, length x = 64 -> s <> [] ->
  bk cv st c (x ++ s) = bk (b3_cv (mknode cv x c 64 (N.lor flags st))) 0%N c s.
Proof.
  intros x s cv st c Hx Hs. assert (Ls : 0 < length s) by (destruct s; [congruence|cbn [length]; lia]).
  assert (Lx : length (x ++ s) = 64 + length s) by (rewrite app_length; lia).
  cbn [b3_blocks]. destruct (length (x ++ s) <=? 64) eqn:E; [apply Nat.leb_le in E; lia|].
  rewrite firstn_app, skipn_app, Hx, Nat.sub_diag, firstn_O, app_nil_r, firstn_all2, skipn_all2 by lia. cbn [app skipn].
  apply blocks_fuel. lia.
Qed.
Lemma bk_last : forall b cv st c, length b <= 64 ->
  bk cv st c b = mknode cv (b ++ zeros (64 - length b)) c (N.of_nat (length b)) (N.lor (N.lor flags st) B3_END).
Proof. intros b cv st c H. cbn [b3_blocks]. destruct (length b <=? 64) eqn:E; [reflexivity|apply Nat.leb_gt in E; lia]. Qed.

Record csR (c : N) (cs : chunkState) (b : list N) : Prop := {
  cr_cv : length (k_cv cs) = 8;
  cr_ctr : k_ctr cs = c;
  cr_flags : k_flags cs = flags;
  cr_blen : k_blen cs <= 64;
  cr_buf : exists part, k_buf cs = part ++ zeros (64 - length part) /\ k_blen cs = length part /\ length b = 64 * k_blocks cs + length part
     /\ (k_blocks cs = 0 \/ part <> [])
     /\ (forall s, bk key B3_START c (b ++ s) = bk (k_cv cs) (maybeStartFlag cs) c (part ++ s)) }.
(* waiting input [inp], empty buffer *)
Record csP (c : N) (cs : chunkState) (inp b : list N) : Prop := {
  cp_cv : length (k_cv cs) = 8;
  cp_ctr : k_ctr cs = c;
  cp_flags : k_flags cs = flags;
  cp_buf : k_buf cs = zeros 64;
  cp_blen : k_blen cs = 0;
  cp_len : length b = 64 * k_blocks cs + length inp;
  cp_inp : inp <> [];
  cp_cont : forall s, bk key B3_START c (b ++ s) = bk (k_cv cs) (maybeStartFlag cs) c (inp ++ s) }.

Lemma csR_new : forall c, csR c (mkcs key c (zeros 64) 0 0 flags) [].
Proof.
  intros c. constructor; cbn [k_cv k_ctr k_flags k_blen k_buf k_blocks]; try lia; try assumption; try reflexivity.
  exists []. repeat split; auto.
Qed.
Lemma csR_length : forall c cs b, csR c cs b -> cs_length cs = length b.
Proof. intros c cs b [_ _ _ _ (part & _ & E & L & _)]. unfold cs_length. lia. Qed.
Lemma csR_output : forall c cs b, csR c cs b -> length (o_cv (cs_output cs)) = 8 /\ length (o_block (cs_output cs)) = 64 /\ node_of (cs_output cs) = b3_chunk key flags c b.
Proof.
  intros c cs b [Hcv Hc Hf Hl (part & Eb & El & Lb & Hp & Hk)]. unfold cs_output. cbn [o_cv o_block].
  split; [exact Hcv|]. split; [rewrite Eb; unfold zeros; rewrite app_length, repeat_length; lia|].
  unfold b3_chunk. specialize (Hk []). rewrite !app_nil_r in Hk. rewrite Hk. rewrite bk_last by lia.
  unfold node_of. cbn [o_cv o_block o_ctr o_len o_flags]. rewrite Eb, Hc, Hf, El. reflexivity.
Qed.

Lemma zeros_drop : forall a b, skipn a (zeros b) = zeros (b - a).
Proof. unfold zeros. induction a as [|a IH]; intros b; [rewrite Nat.sub_0_r; reflexivity|]. destruct b as [|b]; [reflexivity|]. cbn [repeat skipn]. apply IH. Qed.
Lemma fill_P : forall c cs inp b, csP c cs inp b -> length inp <= 64 -> csR c (fst (fillBuf cs inp)) b.
Proof.
  intros c cs inp b [Hcv Hc Hf Hb Hl Lb Hi Hk] Hle. unfold fillBuf. rewrite Hl, Nat.sub_0_r.
  replace (if length inp <? 64 then length inp else 64) with (length inp).
  2:{ destruct (length inp <? 64) eqn:E; [reflexivity|]. apply Nat.ltb_ge in E. lia. }
  cbn [fst]. rewrite firstn_all. constructor; cbn [k_cv k_ctr k_flags k_blen k_buf k_blocks]; try assumption.
  exists inp. split.
  { rewrite Hb. unfold copy_at, zeros. rewrite repeat_length, firstn_O, Nat.sub_0_r, firstn_all2, Nat.min_r by lia. cbn [app Nat.add].
    f_equal. apply zeros_drop. }
  repeat split; [lia|right; exact Hi|exact Hk].
Qed.
Lemma loop_P : forall fuel c cs inp b, csP c cs inp b -> length inp < fuel ->
  let '(cs', inp') := update_loop fuel cs inp in csP c cs' inp' b /\ length inp' <= 64.
Proof.
  induction fuel as [|f IH]; intros c cs inp b H Hl; [lia|]. cbn [update_loop].
  destruct (64 <? length inp) eqn:E.
  2:{ apply Nat.ltb_ge in E. split; assumption. }
  apply Nat.ltb_lt in E. apply IH; [|rewrite skipn_length; lia].
  destruct H as [Hcv Hc Hf Hb Hbl Lb Hi Hk].
  assert (L1 : length (firstn 64 inp) = 64) by (rewrite firstn_length; lia).
  rewrite in_place_ok by assumption.
  constructor; cbn [k_cv k_ctr k_flags k_blen k_buf k_blocks]; try assumption.
  - apply cv_len.
  - rewrite skipn_length. lia.
  - intro X. apply (f_equal (@length N)) in X. rewrite skipn_length in X. cbn [length] in X. lia.
  - intros s. rewrite Hk. rewrite <- (firstn_skipn 64 inp) at 1 2. rewrite <- app_assoc. rewrite bk_step; [|exact L1|].
    2:{ intro X. apply (f_equal (@length N)) in X. rewrite app_length, skipn_length in X. cbn [length] in X. lia. }
    rewrite Hc, Hf. unfold maybeStartFlag at 2. cbn [k_blocks]. rewrite Nat.add_1_r. cbn [Nat.eqb]. reflexivity.
Qed.
Lemma update_ok : forall c cs b p, csR c cs b -> p <> [] -> csR c (cs_update cs p) (b ++ p).
Proof.
  intros c cs b p H Hp. assert (Lp : 0 < length p) by (destruct p; [congruence|cbn [length]; lia]). unfold cs_update.
  assert (G : forall cs inp, csP c cs inp (b ++ p) ->
    csR c (let '(cs, input) := update_loop (S (length inp)) cs inp in fst (fillBuf cs input)) (b ++ p)).
  { intros cs' inp HP. pose proof (loop_P (S (length inp)) _ _ _ _ HP (Nat.lt_succ_diag_r _)) as Q.
    destruct (update_loop (S (length inp)) cs' inp) as [cs2 inp2]. destruct Q as [Q1 Q2]. apply fill_P; assumption. }
  destruct H as [Hcv Hc Hf Hl (part & Eb & El & Lb & Hpt & Hk)].
  destruct (0 <? k_blen cs) eqn:E.
  - apply Nat.ltb_lt in E. unfold fillBuf at 1. cbv beta iota zeta.
    set (take := if length p <? 64 - k_blen cs then length p else 64 - k_blen cs).
    assert (T : take <= length p /\ take <= 64 - length part /\ (take < length p -> take = 64 - length part)).
    { subst take. destruct (length p <? 64 - k_blen cs) eqn:E'; [apply Nat.ltb_lt in E'|apply Nat.ltb_ge in E']; lia. }
    destruct T as (T1 & T2 & T3).
    assert (Lf : length (firstn take p) = take) by (rewrite firstn_length; lia).
    assert (CB : copy_at (k_buf cs) (k_blen cs) (firstn take p) = (part ++ firstn take p) ++ zeros (64 - length (part ++ firstn take p))).
    { rewrite Eb, El. replace (length part) with (length part + 0) at 2 by lia.
      unfold copy_at. rewrite app_length. unfold zeros at 1 2 3 4. rewrite repeat_length.
      rewrite Nat.add_0_r. rewrite firstn_app, firstn_all2, Nat.sub_diag, firstn_O, app_nil_r by lia. rewrite <- app_assoc. f_equal.
      rewrite firstn_all2 by lia. f_equal. rewrite Nat.min_r by lia. rewrite skipn_app, skipn_all2 by lia. cbn [app].
      change (repeat 0%N (64 - length part)) with (zeros (64 - length part)). rewrite zeros_drop. f_equal. rewrite app_length. lia. }
    rewrite CB. destruct (0 <? length (skipn take p)) eqn:E2.
    + apply Nat.ltb_lt in E2. rewrite skipn_length in E2.
      assert (T4 : take = 64 - length part) by (apply T3; lia).
      assert (L64 : length (part ++ firstn take p) = 64) by (rewrite app_length; lia).
      rewrite L64, Nat.sub_diag. change (zeros 0) with (@nil N). rewrite app_nil_r.
      apply G. cbn [k_cv k_ctr k_flags k_blen k_buf k_blocks]. rewrite in_place_ok by assumption.
      constructor; cbn [k_cv k_ctr k_flags k_blen k_buf k_blocks]; try assumption; try apply cv_len; try reflexivity.
      * rewrite app_length, skipn_length. lia.
      * intro X. apply (f_equal (@length N)) in X. rewrite skipn_length in X. cbn [length] in X. lia.
      * intros s. rewrite <- app_assoc, Hk. rewrite <- (firstn_skipn take p) at 1 2. rewrite <- app_assoc, app_assoc. rewrite bk_step; [|exact L64|].
        2:{ intro X. apply (f_equal (@length N)) in X. rewrite app_length, skipn_length in X. cbn [length] in X. lia. }
        rewrite Hc, Hf. unfold maybeStartFlag at 2. cbn [k_blocks]. rewrite Nat.add_1_r. cbn [Nat.eqb]. reflexivity.
    + apply Nat.ltb_ge in E2. rewrite skipn_length in E2. assert (take = length p) by lia.
      rewrite skipn_all2 by lia. cbn [length update_loop]. change (64 <? 0) with false. cbv iota.
      unfold fillBuf. cbn [length k_cv k_ctr k_flags k_blen k_buf k_blocks].
      replace (if 0 <? 64 - (k_blen cs + take) then 0 else 64 - (k_blen cs + take)) with 0 by (destruct (0 <? 64 - (k_blen cs + take)) eqn:E3; [reflexivity|apply Nat.ltb_ge in E3; lia]).
      cbn [fst firstn]. rewrite Nat.add_0_r.
      replace (firstn take p) with p by (rewrite firstn_all2; [reflexivity|lia]).
      constructor; cbn [k_cv k_ctr k_flags k_blen k_buf k_blocks]; try assumption; [lia|].
      exists (part ++ p). split.
      { unfold copy_at. rewrite firstn_nil, Nat.min_0_r, Nat.add_0_r. cbn [app]. apply firstn_skipn. }
      split; [rewrite app_length; lia|]. split; [rewrite !app_length; lia|]. split.
      { right. intro X. apply (f_equal (@length N)) in X. rewrite app_length in X. cbn [length] in X. lia. }
      intros s. rewrite <- !app_assoc. apply Hk.
  - apply Nat.ltb_ge in E. assert (part = []) by (destruct part; [reflexivity|cbn [length] in *; lia]). subst part. cbn [app length] in *.
    apply G. constructor; try assumption; try lia.
    + rewrite app_length. lia.
    + intros s. rewrite <- app_assoc. apply Hk.
Qed.

Lemma csR_update_nil : forall c cs b, csR c cs b -> cs_update cs [] = cs \/ b = [].
Proof.
  intros c cs b Cs. destruct (Nat.eq_dec (length b) 0) as [Z|Z]; [right; destruct b; [reflexivity|discriminate Z]|left].
  destruct Cs as [A1 A2 A3 A4 (part & B1 & B2 & B3 & B4 & B5)]. unfold cs_update.
  assert (Lp2 : 0 < length part) by (destruct B4 as [B4|B4]; [lia|destruct part; [congruence|cbn [length]; lia]]).
  replace (0 <? k_blen cs) with true by (symmetry; apply Nat.ltb_lt; lia).
  assert (FB : fillBuf cs [] = (cs, 0)).
  { unfold fillBuf. cbn [length]. replace (if 0 <? 64 - k_blen cs then 0 else 64 - k_blen cs) with 0 by (destruct (0 <? 64 - k_blen cs) eqn:E3; [reflexivity|apply Nat.ltb_ge in E3; lia]).
    cbn [firstn]. rewrite Nat.add_0_r. f_equal. destruct cs as [cv ct bu bl nb fl]. cbn [k_cv k_ctr k_buf k_blen k_blocks k_flags]. f_equal.
    unfold copy_at. rewrite firstn_nil, Nat.min_0_r, Nat.add_0_r. cbn [app]. apply firstn_skipn. }
  rewrite FB. cbn [skipn length]. change (0 <? 0) with false. cbv iota. cbn [update_loop length]. change (64 <? 0) with false. cbv iota. rewrite FB. reflexivity.
Qed.

(** [hash_one] on a whole chunk *)
Lemma hash_one_loop_S : forall b i cv x c bf f fe, hash_one_loop (S b) i cv x c bf f fe =
  hash_one_loop b (i + 1) (compress_in_place cv (firstn 64 (skipn (i * 64) x)) 64 c (if b =? 0 then N.lor bf fe else bf)) x c f f fe.
Proof. reflexivity. Qed.
Lemma hash_one_loop_ok : forall n i cv x c st, length cv = 8 -> length x = 64 * (i + S n) ->
  concat (map (le_bytes 4) (hash_one_loop (S n) i cv x c (N.lor flags st) flags CHUNK_END)) = b3_cvb (bk cv st c (skipn (i * 64) x)).
Proof.
  induction n as [|n IH]; intros i cv x c st Hc Hx; rewrite hash_one_loop_S.
  - cbn [Nat.eqb hash_one_loop]. assert (L : length (skipn (i * 64) x) = 64) by (rewrite skipn_length; lia).
    rewrite firstn_all2 by lia. rewrite in_place_ok by assumption. unfold b3_cvb. rewrite bk_last by lia.
    rewrite L, Nat.sub_diag. change (zeros 0) with (@nil N). rewrite app_nil_r. reflexivity.
  - change (S n =? 0) with false. cbv iota.
    assert (L : length (firstn 64 (skipn (i * 64) x)) = 64) by (rewrite firstn_length, skipn_length; lia).
    rewrite in_place_ok by assumption.
    rewrite <- (N.lor_0_r flags) at 2. rewrite IH; [|apply cv_len|lia].
    rewrite <- (firstn_skipn 64 (skipn (i * 64) x)) at 2 3. rewrite bk_step; [|exact L|].
    2:{ intro X. apply (f_equal (@length N)) in X. rewrite !skipn_length in X. cbn [length] in X. lia. }
    rewrite skipn_skipn. replace (i * 64 + 64) with ((i + 1) * 64) by lia. reflexivity.
Qed.
Lemma hash_one_chunk : forall x c, length x = 1024 -> hash_one x 16 key c flags CHUNK_START CHUNK_END = b3_cvb (b3_chunk key flags c x).
Proof. intros x c H. unfold hash_one. change 16 with (S 15). rewrite hash_one_loop_ok by (try assumption; lia). reflexivity. Qed.
Lemma hash_one_parent : forall x, length x = 64 -> hash_one x 1 key 0 (N.lor flags PARENT) 0 0 = b3_cvb (mknode key x 0 64 (N.lor flags B3_PARENT)).
Proof.
  intros x H. unfold hash_one. cbn [hash_one_loop Nat.eqb]. rewrite !N.lor_0_r. cbn [Nat.mul skipn].
  rewrite firstn_all2 by lia. rewrite in_place_ok by assumption. reflexivity.
Qed.
End Chunk.
