(** LshP.v -- the compression function and the padding of Lsh.v against SpecLsh.v. *)
From Coq Require Import List NArith Arith Lia Bool.
From Verif Require Import Base Words HashAPI Buf MD Bytes Kupyna Gost3411P JhP3 SpecLsh Lsh.
Import ListNotations.

(** The configuration [G] of the code is the family [F] of the specification. *)
Record lmatch (G : lcfg) (F : lsh_family) : Prop := {
  lm_w : l_w F = (8 * N.of_nat (g_wb G))%N; lm_wb : 0 < g_wb G;
  lm_ns : l_Ns F = g_numStep G; lm_even : Nat.even (g_numStep G) = true; lm_pos : 2 <= g_numStep G;
  lm_a0 : forall i, l_alpha F (2 * i) = g_aE G; lm_a1 : forall i, l_alpha F (2 * i + 1) = g_aO G;
  lm_b0 : forall i, l_beta F (2 * i) = g_bE G; lm_b1 : forall i, l_beta F (2 * i + 1) = g_bO G;
  lm_gamma : l_gamma F = g_gamma G;
  lm_sc : forall j c, j < g_numStep G -> c < 8 -> at_ (g_step G) (8 * j + c) = at_ (l_SC F j) c;
  lm_add : forall x y, g_add G x y = l_add F x y;
  lm_rotl : forall x n, g_rotl G x n = l_rotl F x n
}.
Lemma even2 : forall i, Nat.even (2 * i) = true.
Proof. intro i. apply Nat.even_spec. now exists i. Qed.
Lemma even21 : forall i, Nat.even (2 * i + 1) = false.
Proof. intro i. rewrite Nat.even_add, even2. reflexivity. Qed.
Lemma sc_table : forall F (tab : list N) n, firstn 8 tab = l_SC0 F -> length (l_SC0 F) = 8 -> 8 * n <= length tab ->
  forallb (fun i => (at_ tab (i + 8) =? l_add F (at_ tab i) (l_rotl F (at_ tab i) 8))%N) (seq 0 (8 * (n - 1))) = true ->
  forall j c, j < n -> c < 8 -> at_ tab (8 * j + c) = at_ (l_SC F j) c.
Proof.
  intros F tab n H0 L0 Ln H j. induction j as [|j IH]; intros c Hj Hc.
  - cbn [l_SC]. rewrite <- H0. unfold at_. rewrite <- (firstn_skipn 8 tab) at 1. rewrite app_nth1; [reflexivity|]. rewrite H0. lia.
  - rewrite forallb_forall in H. specialize (H (8 * j + c) ltac:(apply in_seq; lia)). apply N.eqb_eq in H. replace (8 * S j + c) with (8 * j + c + 8) by lia. rewrite H.
    rewrite IH by lia. cbn [l_SC]. assert (LS : forall i, length (l_SC F i) = 8) by (intro i; induction i; cbn [l_SC]; [exact L0|now rewrite map_length]).
    unfold at_ at 3. rewrite (nth_indep _ 0%N (l_add F 0 (l_rotl F 0 8))) by (rewrite map_length, LS; lia). rewrite (map_nth (fun c => l_add F c (l_rotl F c 8))). reflexivity.
Qed.
Lemma match256 : lmatch lsh256_cfg LSH256.
Proof.
  constructor; cbn [l_w l_Ns l_alpha l_beta l_gamma LSH256 lsh256_cfg g_wb g_numStep g_aE g_aO g_bE g_bO g_gamma g_step g_add g_rotl]; try reflexivity; try lia.
  - intro i. now rewrite even2. - intro i. now rewrite even21. - intro i. now rewrite even2. - intro i. now rewrite even21.
  - apply sc_table; [reflexivity|reflexivity|vm_compute; lia|vm_compute; reflexivity].
  - intros. unfold l_add, add32. rewrite w32_mod. reflexivity.
  - intros. unfold l_rotl, rotl32. rewrite w32_mod, N.shiftl_mul_pow2. reflexivity.
Qed.
Lemma match512 : lmatch lsh512_cfg LSH512.
Proof.
  constructor; cbn [l_w l_Ns l_alpha l_beta l_gamma LSH512 lsh512_cfg g_wb g_numStep g_aE g_aO g_bE g_bO g_gamma g_step g_add g_rotl]; try reflexivity; try lia.
  - intro i. now rewrite even2. - intro i. now rewrite even21. - intro i. now rewrite even2. - intro i. now rewrite even21.
  - apply sc_table; [reflexivity|reflexivity|vm_compute; lia|vm_compute; reflexivity].
  - intros. unfold l_add, add64. rewrite w64_mod. reflexivity.
  - intros. unfold l_rotl, rotl64. rewrite w64_mod, N.shiftl_mul_pow2. reflexivity.
Qed.

(** The last block: marker, zeros (no length). *)
Lemma last_block : forall bs x nx m, 0 < bs -> buf_ok bs bs x nx m ->
  let x' := copy_at (upd x nx 0x80%N) (nx + 1) (firstn (bs - (nx + 1)) (zeros bs)) in
  chunks bs (m ++ 0x80%N :: zeros (bs - 1 - length m mod bs)) = chunks bs m ++ [x'] /\ length x' = bs /\ x' = rest bs m ++ 0x80%N :: zeros (bs - 1 - length m mod bs).
Proof.
  intros bs x nx m Hb (Lx & En & Ef) x'.
  pose proof (rest_length N bs m ltac:(lia)) as LR. pose proof (Nat.mod_upper_bound (length m) bs ltac:(lia)) as Hm.
  assert (Hnx : nx = length m mod bs) by (rewrite En; exact LR).
  assert (Ex : x' = rest bs m ++ 0x80%N :: zeros (bs - 1 - length m mod bs)).
  { unfold x'. rewrite upd_split by lia. rewrite Ef.
    replace (firstn (bs - (nx + 1)) (zeros bs)) with (zeros (bs - 1 - length m mod bs)).
    2:{ symmetry. replace (zeros bs) with (zeros (bs - 1 - length m mod bs) ++ zeros (nx + 1)) by (rewrite zeros_app; f_equal; lia).
        rewrite firstn_app. unfold zeros at 2. rewrite repeat_length. replace (bs - (nx + 1) - (bs - 1 - length m mod bs)) with 0 by lia. rewrite firstn_O, app_nil_r.
        apply firstn_all2. unfold zeros. rewrite repeat_length. lia. }
    unfold copy_at. rewrite firstn_app, LR. rewrite (firstn_all2 (rest bs m)) by lia. replace (nx + 1 - length m mod bs) with 1 by lia. cbn [firstn].
    rewrite app_length. cbn [length]. rewrite skipn_length, LR.
    rewrite <- app_assoc. f_equal. cbn [app]. f_equal. rewrite firstn_all2 by (unfold zeros; rewrite repeat_length; lia).
    rewrite skipn_all2; [now rewrite app_nil_r|]. rewrite app_length. cbn [length]. rewrite skipn_length, LR. unfold zeros. rewrite repeat_length. lia. }
  assert (Lx' : length x' = bs) by (rewrite Ex, app_length, LR; cbn [length]; unfold zeros; rewrite repeat_length; lia).
  split; [|split; assumption].
  rewrite chunks_app by lia. f_equal. rewrite <- Ex. apply chunks_one; [lia|exact Lx'].
Qed.

Section P.
Variables (G : lcfg) (F : lsh_family).
Hypothesis HM : lmatch G F.
(** Rows of the expanded message, as in the specification. *)
Fixpoint Mp (M0 M1 : list N) (j : nat) : list N * list N :=
  match j with O => (M0, M1) | S j => let '(a, b) := Mp M0 M1 j in (b, l_next F a b) end.
Definition Mr (M0 M1 : list N) (j : nat) : list N := fst (Mp M0 M1 j).
Lemma Mr_next : forall M0 M1 j, Mr M0 M1 (S (S j)) = l_next F (Mr M0 M1 j) (Mr M0 M1 (S j)).
Proof. intros. unfold Mr. cbn [Mp]. destruct (Mp M0 M1 j) as [a b]. reflexivity. Qed.
Lemma Mp_eq : forall M0 M1 j, Mp M0 M1 j = (Mr M0 M1 j, Mr M0 M1 (S j)).
Proof. intros. unfold Mr. cbn [Mp]. destruct (Mp M0 M1 j). reflexivity. Qed.

Lemma steps_fold : forall M0 M1 k j T, l_steps F k j T (Mr M0 M1 j) (Mr M0 M1 (S j)) =
  l_msgadd (fold_left (fun T j => l_step F j T (Mr M0 M1 j)) (seq j k) T) (Mr M0 M1 (j + k)).
Proof.
  intros M0 M1. induction k as [|k IH]; intros j T; cbn [l_steps seq fold_left]; [now rewrite Nat.add_0_r|].
  rewrite <- Mr_next. rewrite Nat.add_1_r. rewrite IH. rewrite Nat.add_succ_comm. reflexivity.
Qed.
Lemma pairs_fold : forall A (f : A -> nat -> A) n s, fold_left (fun s i => f (f s (2 * i)) (2 * i + 1)) (seq 0 n) s = fold_left f (seq 0 (2 * n)) s.
Proof.
  intros A f n. induction n as [|n IH]; intro s; [reflexivity|]. rewrite seq_S, fold_left_app, IH. replace (2 * S n) with (S (S (2 * n))) by lia.
  rewrite !seq_S, !fold_left_app. cbn [fold_left Nat.add]. now rewrite Nat.add_1_r.
Qed.

(** one row *)
Lemma fill_at : forall (v : list N -> nat -> N) idx n m, idx + n <= length m ->
  (forall m' k, length m' = length m -> (forall j, j < idx -> at_ m' j = at_ m j) -> v m' k = v m k) ->
  let m' := fold_left (fun m k => upd m (idx + k) (v m k)) (seq 0 n) m in
  length m' = length m /\ (forall j, j < idx -> at_ m' j = at_ m j) /\ (forall k, k < n -> at_ m' (idx + k) = v m k).
Proof.
  intros v idx n m. induction n as [|n IH]; intros H Hv m'; unfold m'; [cbn [seq fold_left]; repeat split; intros; (reflexivity || lia)|].
  rewrite seq_S, fold_left_app. cbn [fold_left Nat.add]. destruct (IH ltac:(lia) Hv) as (L & P & V). set (q := fold_left _ (seq 0 n) m) in *. clearbody q.
  rewrite upd_length. split; [exact L|]. split.
  - intros j Hj. unfold at_. rewrite nth_upd_other by lia. now apply P.
  - intros k Hk. unfold at_. destruct (Nat.eq_dec k n) as [->|Hne].
    + rewrite nth_upd_same by lia. now apply Hv.
    + rewrite nth_upd_other by lia. apply V. lia.
Qed.
Lemma offs_tau : forall k, k < 16 -> 17 <= nth k lsh_offs 0 <= 32 /\ 32 - nth k lsh_offs 0 = nth k l_tau 0 /\ nth k l_tau 0 < 16.
Proof. intros k H. do 16 (destruct k as [|k]; [cbn; lia|]). lia. Qed.
Lemma row_ok : forall msg M0 M1 i, 16 * (i + 2) + 16 <= length msg ->
  (forall k, k < 16 -> at_ msg (16 * i + k) = at_ M0 k) -> (forall k, k < 16 -> at_ msg (16 * (i + 1) + k) = at_ M1 k) ->
  let m' := lsh_row G msg (i + 2) in
  length m' = length msg /\ (forall j, j < 16 * (i + 2) -> at_ m' j = at_ msg j) /\ (forall k, k < 16 -> at_ m' (16 * (i + 2) + k) = at_ (l_next F M0 M1) k).
Proof.
  intros msg M0 M1 i L H0 H1 m'. unfold m', lsh_row.
  destruct (fill_at (fun msg k => if k <? 16 then g_add G (at_ msg (16 * (i + 2) - (16 - k))) (at_ msg (16 * (i + 2) - nth k lsh_offs 0)) else 0%N) (16 * (i + 2)) 16 msg) as (A & B & C); [lia| |].
  - intros q k Lq Hq. destruct (Nat.ltb_spec k 16) as [Hk|Hk]; [|reflexivity]. pose proof (offs_tau k Hk). rewrite !Hq by lia. reflexivity.
  - cbv zeta in *.
    assert (E : forall l q, (forall k, In k l -> k < 16) -> fold_left (fun m k => upd m (16 * (i + 2) + k) (if k <? 16 then g_add G (at_ m (16 * (i + 2) - (16 - k))) (at_ m (16 * (i + 2) - nth k lsh_offs 0)) else 0%N)) l q =
       fold_left (fun m k => upd m (16 * (i + 2) + k) (g_add G (at_ m (16 * (i + 2) - (16 - k))) (at_ m (16 * (i + 2) - nth k lsh_offs 0)))) l q).
    { intro l. induction l as [|a l IHl]; intros q Hl; [reflexivity|]. rewrite !fold_left_cons. rewrite IHl by (intros; apply Hl; now right). f_equal.
      destruct (Nat.ltb_spec a 16) as [Ha|Ha]; [reflexivity|]. specialize (Hl a ltac:(now left)). lia. }
    rewrite E in A, B, C by (intros k Hk; apply in_seq in Hk; lia). split; [exact A|]. split; [exact B|]. intros k Hk. rewrite C by exact Hk.
    destruct (Nat.ltb_spec k 16) as [_|]; [|lia]. unfold l_next. rewrite at_map_seq by exact Hk. rewrite (lm_add _ _ HM). destruct (offs_tau k Hk) as (O1 & O2 & O3).
    f_equal.
    + rewrite <- H1 by exact Hk. f_equal. lia.
    + rewrite <- H0 by exact O3. f_equal. lia.
Qed.
Lemma rows_ok : forall msg M0 M1 n, 16 * (n + 2) <= length msg ->
  (forall k, k < 16 -> at_ msg k = at_ M0 k) -> (forall k, k < 16 -> at_ msg (16 + k) = at_ M1 k) ->
  let m' := fold_left (lsh_row G) (seq 2 n) msg in
  length m' = length msg /\ forall j k, j < n + 2 -> k < 16 -> at_ m' (16 * j + k) = at_ (Mr M0 M1 j) k.
Proof.
  intros msg M0 M1 n L H0 H1. induction n as [|n IH]; intro m'; unfold m'.
  - cbn [seq fold_left]. split; [reflexivity|]. intros j k Hj Hk. destruct j as [|[|j]]; [apply H0; exact Hk|apply (H1 k Hk)|lia].
  - rewrite seq_S, fold_left_app. cbn [fold_left]. destruct (IH ltac:(lia)) as [Lq Hq]. set (q := fold_left (lsh_row G) (seq 2 n) msg) in *. clearbody q.
    rewrite (Nat.add_comm 2 n). destruct (row_ok q (Mr M0 M1 n) (Mr M0 M1 (S n)) n) as (A & B & C); [lia| | |].
    + intros k Hk. apply Hq; lia.
    + intros k Hk. rewrite Nat.add_1_r. apply Hq; lia.
    + split; [lia|]. intros j k Hj Hk. destruct (Nat.eq_dec j (n + 2)) as [->|Hne].
      * rewrite C by exact Hk. replace (n + 2) with (S (S n)) by lia. now rewrite Mr_next.
      * rewrite B by lia. apply Hq; lia.
Qed.

Lemma words_at : forall wb n data i, 0 < wb -> length data = n * wb -> i < n -> at_ (map le_val (chunks wb data)) i = le_val (slice data (i * wb) (i * wb + wb)).
Proof.
  intros wb n data i Hw L Hi. unfold chunks. rewrite L, Nat.div_mul by lia. rewrite map_map. rewrite at_map_seq by exact Hi. unfold slice. now replace (i * wb + wb - i * wb) with wb by lia.
Qed.
Lemma l_bytes_wb : l_bytes F = g_wb G.
Proof. unfold l_bytes. rewrite (lm_w _ _ HM). rewrite N.mul_comm, N.div_mul by lia. apply Nat2N.id. Qed.
Lemma at_firstn16 : forall (l : list N) k, k < 16 -> at_ (firstn 16 l) k = at_ l k.
Proof. intros l k H. unfold at_. rewrite <- (firstn_skipn 16 l) at 2. destruct (Nat.lt_ge_cases k (length (firstn 16 l))) as [A|A]; [now rewrite app_nth1 by exact A|].
  rewrite nth_overflow by exact A. rewrite firstn_length in A. symmetry. apply nth_overflow. rewrite app_length, firstn_length, skipn_length. lia. Qed.
Lemma at_skipn16 : forall (l : list N) k, at_ (skipn 16 l) k = at_ l (16 + k).
Proof. intros l k. unfold at_. destruct (Nat.lt_ge_cases (length l) 16) as [A|A]; [rewrite skipn_all2 by lia; rewrite !nth_overflow; cbn [length]; (reflexivity || lia)|].
  rewrite <- (firstn_skipn 16 l) at 2. rewrite app_nth2 by (rewrite firstn_length; lia). rewrite firstn_length. f_equal. lia. Qed.
Lemma expand_ok : forall msg data, length msg = 16 * (g_numStep G + 1) -> length data = 32 * g_wb G ->
  let M := l_words F data in let m' := lsh_expand G msg data in
  length m' = length msg /\ forall j k, j <= g_numStep G -> k < 16 -> at_ m' (16 * j + k) = at_ (Mr (firstn 16 M) (skipn 16 M) j) k.
Proof.
  intros msg data Lm Ld M m'. unfold m', lsh_expand, lsh_load. pose proof (lm_pos _ _ HM) as Hp. pose proof (lm_wb _ _ HM) as Hw.
  destruct (fill_at (fun _ i => le_val (slice data (i * g_wb G) (i * g_wb G + g_wb G))) 0 32 msg) as (A & _ & C); [lia|reflexivity|]. cbv zeta in A, C. cbn [Nat.add] in A, C.
  set (q := fold_left _ (seq 0 32) msg) in *. clearbody q.
  assert (HMk : forall k, k < 32 -> at_ q k = at_ M k). { intros k Hk. rewrite C by exact Hk. unfold M, l_words. rewrite l_bytes_wb. symmetry. now apply (words_at _ 32). }
  destruct (rows_ok q (firstn 16 M) (skipn 16 M) (g_numStep G - 1)) as [P Q]; [lia| | |].
  - intros k Hk. rewrite at_firstn16 by exact Hk. apply HMk. lia.
  - intros k Hk. rewrite at_skipn16. apply HMk. lia.
  - split; [lia|]. intros j k Hj Hk. apply Q; lia.
Qed.

(** one step *)
Lemma l_add_comm_ : forall x y, l_add F x y = l_add F y x.
Proof. intros. unfold l_add. now rewrite N.add_comm. Qed.
Lemma cols_ok : forall (f g : nat -> N), fold_left (fun t c => upd (upd t c (f c)) (c + 8) (g c)) (seq 0 8) (zeros 16) = map f (seq 0 8) ++ map g (seq 0 8).
Proof. intros. reflexivity. Qed.
Lemma fold_ext_seq : forall A (f g : A -> nat -> A) n a, (forall x i, i < n -> f x i = g x i) -> fold_left f (seq 0 n) a = fold_left g (seq 0 n) a.
Proof. intros A f g n a H. induction n as [|n IH]; [reflexivity|]. rewrite seq_S, !fold_left_app, IH by (intros; apply H; lia). cbn [fold_left Nat.add]. apply H. lia. Qed.
Lemma step_ok : forall msg s j Mj alpha beta, j < g_numStep G -> alpha = l_alpha F j -> beta = l_beta F j ->
  (forall k, k < 16 -> at_ msg (16 * j + k) = at_ Mj k) -> lsh_stepf G msg s j alpha beta = l_step F j s Mj.
Proof.
  intros msg s j Mj alpha beta Hj Ha Hb Hm. unfold lsh_stepf, l_step.
  assert (E : fold_left (lsh_col G msg s j alpha beta) (seq 0 8) (zeros 16) = l_Mix F j (l_msgadd s Mj)).
  { unfold l_Mix. rewrite <- cols_ok. apply fold_ext_seq. intros t c Hc. unfold lsh_col, l_msgadd. rewrite !at_map_seq by lia.
    rewrite Hm by lia. replace (16 * j + c + 8) with (16 * j + (c + 8)) by lia. rewrite Hm by lia. rewrite (lm_sc _ _ HM) by assumption.
    rewrite !(lm_add _ _ HM), !(lm_rotl _ _ HM), Ha, Hb, <- (lm_gamma _ _ HM).
    unfold l_mix. cbv zeta. cbn [fst snd]. rewrite l_add_comm_. reflexivity. }
  rewrite E. reflexivity.
Qed.

Lemma compress_ok : forall s msg data, length msg = 16 * (g_numStep G + 1) -> length data = 32 * g_wb G ->
  fst (lsh_compress G (s, msg) data) = l_CF F s (l_words F data) /\ length (snd (lsh_compress G (s, msg) data)) = 16 * (g_numStep G + 1).
Proof.
  intros s msg data Lm Ld. unfold lsh_compress. destruct (expand_ok msg data Lm Ld) as [A B]. set (m' := lsh_expand G msg data) in *. clearbody m'. cbn [fst snd].
  split; [|lia]. unfold l_CF. set (M0 := firstn 16 (l_words F data)) in *. set (M1 := skipn 16 (l_words F data)) in *. clearbody M0 M1.
  change M0 with (Mr M0 M1 0) at 1. change M1 with (Mr M0 M1 1) at 2. rewrite steps_fold. rewrite (lm_ns _ _ HM). cbn [Nat.add]. unfold l_msgadd.
  assert (Hn : g_numStep G = 2 * (g_numStep G / 2)). { pose proof (lm_even _ _ HM) as He. apply Nat.even_spec in He. destruct He as [q Eq]. rewrite Eq at 2. rewrite (Nat.mul_comm 2 q), Nat.div_mul; lia. }
  assert (E : fold_left (fun s i => lsh_stepf G m' (lsh_stepf G m' s (2 * i) (g_aE G) (g_bE G)) (2 * i + 1) (g_aO G) (g_bO G)) (seq 0 (g_numStep G / 2)) s =
              fold_left (fun T j => l_step F j T (Mr M0 M1 j)) (seq 0 (g_numStep G)) s).
  { rewrite Hn at 2. rewrite <- (pairs_fold _ (fun T j => l_step F j T (Mr M0 M1 j))). apply fold_ext_seq. intros x i Hi.
    rewrite (step_ok m' x (2 * i) (Mr M0 M1 (2 * i))); [|lia|symmetry; apply (lm_a0 _ _ HM)|symmetry; apply (lm_b0 _ _ HM)|intros; apply B; lia].
    apply step_ok; [lia|symmetry; apply (lm_a1 _ _ HM)|symmetry; apply (lm_b1 _ _ HM)|intros; apply B; lia]. }
  rewrite E. apply map_ext_in. intros i Hi. apply in_seq in Hi. f_equal. apply B; lia.
Qed.
Definition st_ok (st : list N * list N) : Prop := length (snd st) = 16 * (g_numStep G + 1).
Lemma blocks_ok : forall bl st, st_ok st -> Forall (fun b => length b = 32 * g_wb G) bl ->
  fst (fold_left (lsh_compress G) bl st) = fold_left (l_CF F) (map (l_words F) bl) (fst st) /\ st_ok (fold_left (lsh_compress G) bl st).
Proof.
  intro bl. induction bl as [|b bl IH]; intros [s msg] Hs Hb; [split; [reflexivity|exact Hs]|]. inversion Hb; subst. rewrite !fold_left_cons. cbn [map]. rewrite fold_left_cons.
  destruct (compress_ok s msg b) as [A B]; [exact Hs|assumption|]. destruct (IH (lsh_compress G (s, msg) b)) as [C D]; [exact B|assumption|]. split; [|exact D].
  rewrite C, A. reflexivity.
Qed.
(** the output bytes *)
Lemma out_ok : forall s hs, hs <= 8 * g_wb G -> (exists e, g_wb G = 2 ^ e) ->
  let temp := map (fun i => N.lxor (at_ s i) (at_ s (i + 8))) (seq 0 8) in
  map (fun i => w8 (N.shiftr (at_ temp (i / g_wb G)) (N.land (N.of_nat (8 * i)) (8 * N.of_nat (g_wb G) - 1)))) (seq 0 hs) =
  firstn hs (flat_map (fun l => le_bytes (g_wb G) (N.lxor (at_ s l) (at_ s (l + 8)))) (seq 0 8)).
Proof.
  intros s hs Hh [e He] temp. pose proof (lm_wb _ _ HM) as Hw.
  assert (E : flat_map (fun l => le_bytes (g_wb G) (N.lxor (at_ s l) (at_ s (l + 8)))) (seq 0 8) = concat (map (le_bytes (g_wb G)) temp)) by (unfold temp; rewrite map_map; symmetry; rewrite flat_map_concat_map; reflexivity).
  rewrite E. assert (Lt : length temp = 8) by (unfold temp; now rewrite map_length, seq_length). clearbody temp. clear E.
  assert (LC : length (concat (map (le_bytes (g_wb G)) temp)) = 8 * g_wb G) by (rewrite concat_le_length, Lt; lia).
  apply list_eq_at; [rewrite map_length, seq_length, firstn_length; lia|]. intros i Hi. rewrite map_length, seq_length in Hi. rewrite at_map_seq by exact Hi.
  transitivity (at_ (concat (map (le_bytes (g_wb G)) temp)) i).
  2:{ unfold at_. rewrite <- (firstn_skipn hs (concat (map (le_bytes (g_wb G)) temp))) at 1. rewrite app_nth1; [reflexivity|]. rewrite firstn_length. lia. }
  rewrite (at_concat (le_bytes (g_wb G)) (g_wb G)); [|intro; apply le_bytes_length|exact Hw|lia].
  rewrite at_le_bytes by (apply Nat.mod_upper_bound; lia). do 2 f_equal.
  replace (8 * N.of_nat (g_wb G) - 1)%N with (N.ones (3 + N.of_nat e)).
  - rewrite N.land_ones. rewrite N.pow_add_r. replace (2 ^ N.of_nat e)%N with (N.of_nat (g_wb G)) by (rewrite He, Nat2N.inj_pow; reflexivity).
    rewrite Nat2N.inj_mul. change (N.of_nat 8) with (2 ^ 3)%N. rewrite N.mul_mod_distr_l by lia. rewrite Nat2N.inj_mod. reflexivity.
  - rewrite N.ones_equiv, N.pow_add_r. replace (2 ^ N.of_nat e)%N with (N.of_nat (g_wb G)) by (rewrite He, Nat2N.inj_pow; reflexivity). change (2 ^ 3)%N with 8%N. lia.
Qed.
(** ** digests *)
Definition lsh_rel (iv : list N) (d : dig (list N * list N)) (m : list N) : Prop := dig_rel (lsh_bs G) (lsh_compress G) (iv, zeros (16 * (g_numStep G + 1))) 0 d m.
Theorem checkSum_ok : forall iv hs d m, hs <= 8 * g_wb G -> (exists e, g_wb G = 2 ^ e) -> iv = l_IV F (8 * N.of_nat hs) ->
  lsh_rel iv d m -> lsh_checkSum G hs d = lsh F hs m.
Proof.
  intros iv hs d m Hh He Hiv (Hs & Hb & _). unfold lsh_checkSum. assert (Hbs : 0 < lsh_bs G) by (unfold lsh_bs; pose proof (lm_wb _ _ HM); lia).
  destruct (last_block (lsh_bs G) (dx d) (dnx d) m Hbs Hb) as (A & B & _). set (x' := copy_at _ _ _) in *. clearbody x'.
  rewrite out_ok by assumption. unfold lsh. rewrite l_bytes_wb. unfold l_pad. rewrite l_bytes_wb. fold (lsh_bs G). rewrite A.
  replace (fst (lsh_compress G (ds d) x')) with (fold_left (l_CF F) (map (l_words F) (chunks (lsh_bs G) m ++ [x'])) (l_IV F (8 * N.of_nat hs))); [reflexivity|].
  symmetry. destruct (blocks_ok (chunks (lsh_bs G) m ++ [x']) (iv, zeros (16 * (g_numStep G + 1)))) as [C _].
  - unfold st_ok. cbn [snd]. unfold zeros. apply repeat_length.
  - apply Forall_app. split; [apply (chunks_all_length _ (lsh_bs G) m); lia|]. constructor; [exact B|constructor].
  - cbn [fst] in C. rewrite <- Hiv, <- C, fold_left_app, Hs. reflexivity.
Qed.
End P.
