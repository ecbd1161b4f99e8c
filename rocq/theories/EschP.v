(** EschP.v -- proofs about Esch.v (no model definitions here). *)
From Coq Require Import List NArith Arith Lia Bool.
From Verif Require Import Base Words HashAPI Buf Refine SpecEsch Esch.
Import ListNotations.

(** ** The permutation *)
Definition toB (nb : nat) (H : list N) : list (N * N) := map (fun i => (at_ H (2 * i), at_ H (2 * i + 1))) (seq 0 nb).
Ltac des16 a L := do 16 (destruct a as [|? a]; [discriminate L|]); destruct a; [|discriminate L]; clear L.
Ltac szd := lazy -[N.lxor add32 rotl32 shl32 N.of_nat Nat.modulo w32].
Lemma step_raw6 : forall H s, length H = 16 -> w32 (N.of_nat s) = N.of_nat s -> toB 6 (esch_step 6 H s) = sk_step (toB 6 H) s.
Proof. intros H s L E. des16 H L. unfold esch_step. rewrite E. clear E. szd. reflexivity. Qed.
Lemma step_raw8 : forall H s, length H = 16 -> w32 (N.of_nat s) = N.of_nat s -> toB 8 (esch_step 8 H s) = sk_step (toB 8 H) s.
Proof. intros H s L E. des16 H L. unfold esch_step. rewrite E. clear E. szd. reflexivity. Qed.
Lemma fold_len : forall A (f : list N -> A -> list N) n l (H : list N), (forall H a, length H = n -> length (f H a) = n) -> length H = n -> length (fold_left f l H) = n.
Proof. induction l as [|a l IH]; intros H Hf L; [exact L|]. cbn [fold_left]. apply IH; auto. Qed.
Lemma step_len : forall r H s, length (esch_step r H s) = length H.
Proof.
  intros r H s. unfold esch_step. cbv zeta. rewrite !upd_length.
  rewrite (fold_len _ _ (length H)); [reflexivity|intros; now rewrite !upd_length|].
  rewrite (fold_len _ _ (length H)); [reflexivity|intros; now rewrite !upd_length|].
  apply fold_len; [intros; unfold esch_box; cbv zeta; now rewrite !upd_length|now rewrite !upd_length].
Qed.
Definition hs_ok (hs : nat) : Prop := hs = 256 \/ hs = 384.
Lemma sparkle_ok : forall hs ns H, hs_ok hs -> ns <= 100 -> length H = 16 ->
  toB (es_branches hs) (esch_sparkle H (es_branches hs) ns) = sparkle_p ns (toB (es_branches hs) H) /\ length (esch_sparkle H (es_branches hs) ns) = 16.
Proof.
  intros hs ns H Hh Hn L. unfold esch_sparkle, sparkle_p.
  assert (G : forall l H, (forall s, In s l -> s < 100) -> length H = 16 ->
    toB (es_branches hs) (fold_left (esch_step (es_branches hs)) l H) = fold_left sk_step l (toB (es_branches hs) H) /\ length (fold_left (esch_step (es_branches hs)) l H) = 16).
  { clear H L. induction l as [|s l IH]; intros H Hl L; [auto|]. cbn [fold_left]. assert (E : w32 (N.of_nat s) = N.of_nat s) by (apply w32_small; specialize (Hl s (or_introl eq_refl)); lia).
    assert (ES : toB (es_branches hs) (esch_step (es_branches hs) H s) = sk_step (toB (es_branches hs) H) s) by (destruct Hh as [-> | ->]; [now apply step_raw6|now apply step_raw8]).
    rewrite <- ES. apply IH; [intros; apply Hl; now right|]. now rewrite step_len. }
  apply G; auto. intros s Hs. apply in_seq in Hs. lia.
Qed.
Lemma mix_ok : forall hs s b, hs_ok hs -> length s = 16 -> toB (es_branches hs) (esch_mix hs s (map le_val (chunks 4 b))) = es_inject b (toB (es_branches hs) s).
Proof.
  intros hs s b Hh L. unfold es_inject. set (M := map le_val (chunks 4 b)). clearbody M. 
  set (m0 := at_ M 0). set (m1 := at_ M 1). set (m2 := at_ M 2). set (m3 := at_ M 3).
  assert (E : map (at_ M) [0; 1; 2; 3] = [m0; m1; m2; m3]) by reflexivity.
  destruct Hh as [-> | ->]; des16 s L.
  - unfold esch_mix. fold m0 m1 m2 m3. cbv zeta. unfold bmap, toB. cbn [es_branches Nat.eqb]. change (256 <? 256) with false. cbv iota.
    cbn [seq map length Nat.ltb Nat.leb Nat.div Nat.divmod fst nth Nat.mul Nat.add]. fold m0 m1 m2 m3. clearbody m0 m1 m2 m3. lazy -[N.lxor rotl32 shl32]. rewrite !N.lxor_assoc. reflexivity.
  - unfold esch_mix. fold m0 m1 m2 m3. cbv zeta. unfold bmap, toB. change (es_branches 384) with 8. change (256 <? 384) with true. cbv iota.
    cbn [seq map length Nat.ltb Nat.leb Nat.div Nat.divmod fst nth Nat.mul Nat.add]. fold m0 m1 m2 m3. clearbody m0 m1 m2 m3. lazy -[N.lxor rotl32 shl32]. rewrite !N.lxor_assoc. reflexivity.
Qed.
Lemma mix_len : forall hs s M, length (esch_mix hs s M) = length s.
Proof. intros. unfold esch_mix. cbv zeta. destruct (256 <? hs); now rewrite !upd_length. Qed.

(** ** transform *)
Definition tr1 (hs : nat) (lastb : bool) (s b : list N) : list N :=
  esch_sparkle (esch_mix hs s (map le_val (chunks 4 b))) (if 256 <? hs then 8 else 6) (if 256 <? hs then S (if lastb then 11 else 7) else (if lastb then 11 else 7)).
Lemma fold_map : forall A B C (f : A -> C -> A) (g : B -> C) l a, fold_left f (map g l) a = fold_left (fun a x => f a (g x)) l a.
Proof. induction l as [|x l IH]; intros a; [reflexivity|]. cbn [map fold_left]. apply IH. Qed.
Lemma sub_slice : forall (data : list N) n blk i, blk < n -> i < 4 -> 16 * n <= length data ->
  firstn 4 (skipn (i * 4) (firstn 16 (skipn (blk * 16) (firstn (16 * n) data)))) = slice data (4 * (blk * 4 + i)) (4 * (blk * 4 + i) + 4).
Proof.
  intros data n blk i Hb Hi L. unfold slice. rewrite skipn_firstn_comm, firstn_firstn, skipn_firstn_comm, skipn_firstn_comm, firstn_firstn, skipn_skipn.
  replace (Nat.min (Nat.min 4 (16 - i * 4)) (16 * n - blk * 16 - i * 4)) with 4 by lia. replace (4 * (blk * 4 + i) + 4 - 4 * (blk * 4 + i)) with 4 by lia.
  replace (blk * 16 + i * 4) with (4 * (blk * 4 + i)) by lia. reflexivity.
Qed.
Lemma transform_fold : forall hs s data n lastb, 16 * n <= length data ->
  esch_transform hs s data n lastb = fold_left (tr1 hs lastb) (chunks 16 (firstn (16 * n) data)) s.
Proof.
  intros hs s data n lastb L. unfold esch_transform. cbv zeta. unfold chunks at 1. rewrite firstn_length.
  replace (Nat.min (16 * n) (length data) / 16) with n by (rewrite Nat.min_l by lia; rewrite Nat.mul_comm, Nat.div_mul; lia).
  rewrite fold_map. apply fold_left_ext_in. intros a blk Hb. apply in_seq in Hb. unfold tr1. f_equal. f_equal.
  assert (LB : length (firstn 16 (skipn (blk * 16) (firstn (16 * n) data))) = 16) by (rewrite firstn_length, skipn_length, firstn_length; lia).
  unfold chunks at 1. rewrite LB. change (16 / 4) with 4. rewrite map_map. apply map_ext_in. intros i Hi. apply in_seq in Hi.
  rewrite sub_slice by lia.
  unfold at_. assert (Hd : blk * 4 + i < length data / 4) by (apply Nat.lt_le_trans with (16 * n / 4); [replace (16 * n) with (4 * n * 4) by lia; rewrite Nat.div_mul by lia; lia|apply Nat.div_le_mono; lia]).
  set (f := fun i => le_val (slice data (4 * i) (4 * i + 4))). rewrite (nth_indep _ 0%N (f 0)) by (rewrite map_length, seq_length; lia). rewrite (map_nth f), seq_nth by lia. reflexivity.
Qed.
Lemma tr1_ok : forall hs lastb s b, hs_ok hs -> length s = 16 ->
  toB (es_branches hs) (tr1 hs lastb s b) = sparkle_p (if lastb then es_big hs else es_slim hs) (es_inject b (toB (es_branches hs) s)) /\ length (tr1 hs lastb s b) = 16.
Proof.
  intros hs lastb s b Hh L. unfold tr1. rewrite <- mix_ok by assumption. set (s1 := esch_mix hs s _). assert (L1 : length s1 = 16) by (unfold s1; now rewrite mix_len). clearbody s1.
  assert (E1 : (if 256 <? hs then 8 else 6) = es_branches hs) by (destruct Hh as [-> | ->]; reflexivity).
  assert (E2 : (if 256 <? hs then S (if lastb then 11 else 7) else (if lastb then 11 else 7)) = if lastb then es_big hs else es_slim hs) by (destruct Hh as [-> | ->]; destruct lastb; reflexivity).
  rewrite E1, E2. apply sparkle_ok; auto. destruct Hh as [-> | ->]; destruct lastb; cbn; lia.
Qed.
Lemma absorb_ok : forall hs bs s, hs_ok hs -> length s = 16 ->
  toB (es_branches hs) (fold_left (tr1 hs false) bs s) = fold_left (es_absorb hs) bs (toB (es_branches hs) s) /\ length (fold_left (tr1 hs false) bs s) = 16.
Proof.
  induction bs as [|b bs IH]; intros s Hh L; [auto|]. cbn [fold_left]. destruct (tr1_ok hs false s b Hh L) as [A B]. unfold es_absorb at 2. rewrite <- A. now apply IH.
Qed.

(** ** Write *)
Definition es_state (hs : nat) (m : list N) : list (N * N) := fold_left (es_absorb hs) (chunks 16 m) (repeat (0, 0)%N (es_branches hs)).
Definition erel (hs : nat) (d : edig) (m : list N) : Prop :=
  length (e_s d) = 16 /\ toB (es_branches hs) (e_s d) = es_state hs (firstn (16 * es_n m) m) /\ length (e_x d) = 128 /\
  e_nx d = length (es_last m) /\ firstn (e_nx d) (e_x d) = es_last m.
Lemma erel_new : forall hs, hs_ok hs -> erel hs esch_new [].
Proof. intros hs [-> | ->]; repeat split. Qed.
Lemma es_n_bounds : forall m, 16 * es_n m <= length m - 1 < 16 * es_n m + 16.
Proof. intros m. unfold es_n. pose proof (Nat.div_mod (length m - 1) 16 ltac:(lia)). pose proof (Nat.mod_upper_bound (length m - 1) 16 ltac:(lia)). lia. Qed.
Lemma es_n_unique : forall m n, 16 * n <= length m - 1 < 16 * n + 16 -> es_n m = n.
Proof. intros m n H. unfold es_n. symmetry. apply Nat.div_unique with (r := length m - 1 - 16 * n); lia. Qed.
Lemma es_last_length : forall m, length (es_last m) = length m - 16 * es_n m.
Proof. intros. unfold es_last. now rewrite skipn_length. Qed.
Lemma copy_prefix : forall (x p : list N), length x = 128 -> length p <= 128 -> firstn (length p) (copy_at x 0 p) = p.
Proof. intros x p L H. pose proof (copy_at_firstn _ x 0 p) as K. cbn [firstn app Nat.add] in K. apply K; lia. Qed.
Lemma tail_ok : forall hs s x m1 p, hs_ok hs -> length s = 16 -> toB (es_branches hs) s = es_state hs m1 -> length m1 mod 16 = 0 -> length x = 128 -> (p = [] -> m1 = []) ->
  let '(s', p') := if 16 <? length p then (esch_transform hs s (firstn ((length p - 1) / 16 * 16) p) ((length p - 1) / 16) false, skipn ((length p - 1) / 16 * 16) p) else (s, p) in
  erel hs (mkedig s' (copy_at x 0 p') (0 + length p')) (m1 ++ p).
Proof.
  intros hs s x m1 p Hh Ls HS Hm Lx Hp. destruct (list_eq_dec N.eq_dec p []) as [->|NE].
  { rewrite (Hp eq_refl) in *. cbn [length Nat.ltb Nat.leb]. cbn [app]. change (es_last []) with (@nil N).
    unfold erel. cbn [e_s e_x e_nx]. change (es_last []) with (@nil N). rewrite copy_at_nil by lia. cbn [length firstn]. repeat split; auto. }
  assert (1 <= length p) by (destruct p; [congruence|cbn [length]; lia]).
  set (k := (length p - 1) / 16). assert (Hk : 16 * k <= length p - 1 < 16 * k + 16) by (unfold k; pose proof (Nat.div_mod (length p - 1) 16 ltac:(lia)); pose proof (Nat.mod_upper_bound (length p - 1) 16 ltac:(lia)); lia).
  assert (Em : length m1 = 16 * (length m1 / 16)) by (pose proof (Nat.div_mod (length m1) 16 ltac:(lia)); lia).
  assert (En : es_n (m1 ++ p) = length m1 / 16 + k) by (apply es_n_unique; rewrite app_length; lia).
  assert (R1 : rest 16 m1 = []) by (apply rest_0; auto; lia).
  assert (EF : firstn (16 * es_n (m1 ++ p)) (m1 ++ p) = m1 ++ firstn (16 * k) p) by (rewrite En, firstn_app, firstn_all2 by lia; f_equal; f_equal; lia).
  assert (EL : es_last (m1 ++ p) = skipn (16 * k) p) by (unfold es_last; rewrite En, skipn_app, skipn_all2 by lia; cbn [app]; f_equal; lia).
  assert (ES : es_state hs (m1 ++ firstn (16 * k) p) = fold_left (es_absorb hs) (chunks 16 (firstn (16 * k) p)) (es_state hs m1)).
  { unfold es_state. rewrite chunks_app, R1, fold_left_app by lia. reflexivity. }
  clearbody k. unfold erel. rewrite EF, EL, ES, <- HS. rewrite (Nat.mul_comm k 16). destruct (Nat.ltb_spec 16 (length p)) as [G|G].
  - rewrite transform_fold by (rewrite firstn_length; lia). rewrite firstn_firstn, Nat.min_id. cbn [e_s e_x e_nx].
    destruct (absorb_ok hs (chunks 16 (firstn (16 * k) p)) s Hh Ls) as [A B].
    split; [exact B|]. split; [exact A|]. split; [rewrite copy_at_length; lia|]. split; [reflexivity|].
    apply copy_prefix; auto. rewrite skipn_length. lia.
  - assert (K0 : k = 0) by lia. subst k. change (16 * 0) with 0. cbn [firstn skipn]. change (chunks 16 (@nil N)) with (@nil (list N)). cbn [fold_left e_s e_x e_nx].
    split; [exact Ls|]. split; [reflexivity|]. split; [rewrite copy_at_length; lia|]. split; [reflexivity|]. apply copy_prefix; auto. lia.
Qed.
(** A Write that exactly completes the block being filled. *)
Definition completes (m p : list N) : Prop := m <> [] /\ length (es_last m) + length p = 16.
Lemma write_ok : forall hs d m p, hs_ok hs -> erel hs d m -> ~ completes m p -> erel hs (fst (esch_write hs d p)) (m ++ p).
Proof.
  intros hs d m p Hh (Ls & HS & Lx & Hn & HB) NC. unfold esch_write. pose proof (es_n_bounds m) as Bm. pose proof (es_last_length m) as LL.
  assert (Hm : firstn (16 * es_n m) m ++ es_last m = m) by apply firstn_skipn.
  assert (L16 : length (es_last m) <= 16) by lia.
  destruct (Nat.ltb_spec 0 (e_nx d)) as [G|G]; cbn [andb].
  - assert (NE : m <> []) by (intros ->; cbn [length] in *; lia).
    assert (N1 : 1 <= length m) by (destruct m; [congruence|cbn [length]; lia]).
    destruct (Nat.leb_spec 16 (e_nx d + length p)) as [G2|G2].
    + assert (G3 : 16 < e_nx d + length p) by (destruct (Nat.eq_dec (e_nx d + length p) 16); [exfalso; apply NC; split; [exact NE|lia]|lia]).
      set (xx := 16 - e_nx d). rewrite (transform_fold hs (e_s d) (copy_at (e_x d) (e_nx d) p) 1 false) by (rewrite copy_at_length; lia).
      assert (EB : firstn (16 * 1) (copy_at (e_x d) (e_nx d) p) = es_last m ++ firstn xx p).
      { unfold copy_at. rewrite HB. change (16 * 1) with 16. rewrite firstn_app, firstn_all2 by lia. f_equal. rewrite <- Hn. fold xx.
        rewrite firstn_app, firstn_firstn. rewrite firstn_length. replace (xx - Nat.min (length (e_x d) - e_nx d) (length p)) with 0 by lia. rewrite firstn_O, app_nil_r. f_equal. lia. }
      rewrite EB. assert (LB : length (es_last m ++ firstn xx p) = 16) by (rewrite app_length, firstn_length; lia). rewrite chunks_one by (lia || exact LB). cbn [fold_left].
      destruct (tr1_ok hs false (e_s d) (es_last m ++ firstn xx p) Hh Ls) as [A B]. set (s1 := tr1 hs false (e_s d) (es_last m ++ firstn xx p)) in *. clearbody s1.
      set (m1 := m ++ firstn xx p). assert (L1 : length m1 = 16 * (es_n m + 1)) by (unfold m1; rewrite app_length, firstn_length; lia).
      assert (HS1 : toB (es_branches hs) s1 = es_state hs m1).
      { rewrite A, HS. replace m1 with (firstn (16 * es_n m) m ++ (es_last m ++ firstn xx p)) by (unfold m1; rewrite app_assoc, Hm; reflexivity). unfold es_state at 2. rewrite chunks_app by lia.
        assert (R0 : rest 16 (firstn (16 * es_n m) m) = []) by (apply rest_0; [lia|]; rewrite firstn_length, Nat.min_l by lia; rewrite Nat.mul_comm; apply Nat.mod_mul; lia).
        rewrite R0. cbn [app]. rewrite (chunks_one _ 16 (es_last m ++ firstn xx p)) by (lia || exact LB). rewrite fold_left_app. reflexivity. }
      replace (m ++ p) with (m1 ++ skipn xx p) by (unfold m1; now rewrite <- app_assoc, firstn_skipn).
      pose proof (tail_ok hs s1 (copy_at (e_x d) (e_nx d) p) m1 (skipn xx p) Hh B HS1) as T.
      assert (LM : length m1 mod 16 = 0) by (rewrite L1, Nat.mul_comm; apply Nat.mod_mul; lia). specialize (T LM ltac:(rewrite copy_at_length; lia)).
      assert (NP : skipn xx p = [] -> m1 = []) by (intros K; apply (f_equal (@length N)) in K; rewrite skipn_length in K; cbn [length] in K; lia). specialize (T NP).
      destruct (if 16 <? length (skipn xx p) then _ else _) as [s' p']. exact T.
    + destruct (Nat.ltb_spec 16 (length p)) as [G3|G3]; [lia|]. cbn [fst].
      assert (En : es_n (m ++ p) = es_n m) by (apply es_n_unique; rewrite app_length; lia).
      assert (EL : es_last (m ++ p) = es_last m ++ p) by (unfold es_last; rewrite En, skipn_app; f_equal; replace (16 * es_n m - length m) with 0 by lia; reflexivity).
      unfold erel. cbn [e_s e_x e_nx]. rewrite En, EL, app_length. rewrite firstn_app. replace (16 * es_n m - length m) with 0 by lia. rewrite firstn_O, app_nil_r.
      split; [exact Ls|]. split; [exact HS|]. split; [rewrite copy_at_length; lia|]. split; [lia|]. rewrite copy_at_firstn by lia. now rewrite HB.
  - assert (Z : m = []) by (destruct m as [|b m]; [reflexivity|]; cbn [length] in *; lia). subst m. cbn [length] in *. assert (Z0 : e_nx d = 0) by lia. rewrite Z0.
    pose proof (tail_ok hs (e_s d) (e_x d) [] p Hh Ls HS eq_refl Lx ltac:(auto)) as T. destruct (if 16 <? length p then _ else _) as [s' p']. exact T.
Qed.

(** ** Sum *)
Lemma es_bytes_toB6 : forall s, length s = 16 -> firstn 16 (concat (map (le_bytes 4) s)) = firstn 16 (es_bytes (toB 6 s)).
Proof. intros s L. des16 s L. reflexivity. Qed.
Lemma es_bytes_toB8 : forall s, length s = 16 -> firstn 16 (concat (map (le_bytes 4) s)) = firstn 16 (es_bytes (toB 8 s)).
Proof. intros s L. des16 s L. reflexivity. Qed.
Lemma out_bytes : forall hs s, hs_ok hs -> length s = 16 -> firstn 16 (concat (map (le_bytes 4) s)) = firstn 16 (es_bytes (toB (es_branches hs) s)).
Proof. intros hs s [-> | ->] L; [now apply es_bytes_toB6|now apply es_bytes_toB8]. Qed.
Lemma slim_ok : forall hs s, hs_ok hs -> length s = 16 ->
  toB (es_branches hs) (if 256 <? hs then esch_sparkle s 8 8 else esch_sparkle s 6 7) = sparkle_p (es_slim hs) (toB (es_branches hs) s) /\ length (if 256 <? hs then esch_sparkle s 8 8 else esch_sparkle s 6 7) = 16.
Proof.
  intros hs s Hh L. assert (E : (if 256 <? hs then esch_sparkle s 8 8 else esch_sparkle s 6 7) = esch_sparkle s (es_branches hs) (es_slim hs)) by (destruct Hh as [-> | ->]; reflexivity).
  rewrite E. apply sparkle_ok; auto. destruct Hh as [-> | ->]; cbn; lia.
Qed.
Lemma out_loop : forall hs k fuel s, hs_ok hs -> length s = 16 -> k <= fuel ->
  esch_out hs fuel (16 * k) false s = flat_map (fun i => firstn 16 (es_bytes (Nat.iter (S i) (sparkle_p (es_slim hs)) (toB (es_branches hs) s)))) (seq 0 k).
Proof.
  induction k as [|k IH]; intros fuel s Hh L Hf; [destruct fuel; reflexivity|]. destruct fuel as [|fuel]; [lia|]. cbn [esch_out].
  destruct (Nat.eqb_spec (16 * S k) 0); [lia|]. destruct (Nat.ltb_spec (16 * S k) 16); [lia|]. destruct (slim_ok hs s Hh L) as [A B].
  set (s1 := if 256 <? hs then esch_sparkle s 8 8 else esch_sparkle s 6 7) in *. clearbody s1. rewrite out_bytes with (hs := hs) by assumption.
  replace (16 * S k - 16) with (16 * k) by lia. rewrite IH by (auto; lia). cbn [seq flat_map]. rewrite A. f_equal. rewrite <- seq_shift, !flat_map_concat_map, map_map. f_equal. apply map_ext. intros i. f_equal. f_equal.
  set (g := sparkle_p (es_slim hs)). clearbody g. set (z := toB _ s). clearbody z. change (g (Nat.iter i g (g z)) = g (g (Nat.iter i g z))). f_equal.
  induction i as [|i IHi]; [reflexivity|]. change (g (Nat.iter i g (g z)) = g (g (Nat.iter i g z))). now rewrite IHi.
Qed.
Lemma out_first : forall hs fuel k s, esch_out hs (S fuel) (16 * S k) true s = firstn 16 (concat (map (le_bytes 4) s)) ++ esch_out hs fuel (16 * k) false s.
Proof.
  intros hs fuel k s. cbn [esch_out]. destruct (Nat.eqb_spec (16 * S k) 0); [lia|]. destruct (Nat.ltb_spec (16 * S k) 16); [lia|]. replace (16 * S k - 16) with (16 * k) by lia. reflexivity.
Qed.
Lemma flat_map_seq_S : forall (f : nat -> list N) k, flat_map f (seq 0 (S k)) = f 0 ++ flat_map (fun i => f (S i)) (seq 0 k).
Proof. intros f k. cbn [seq flat_map]. f_equal. rewrite <- seq_shift, !flat_map_concat_map, map_map. reflexivity. Qed.
Lemma out_ok : forall hs s, hs_ok hs -> length s = 16 -> esch_out hs (hs / 8) (hs / 8) true s = es_squeeze hs (toB (es_branches hs) s).
Proof.
  intros hs s Hh L. unfold es_squeeze. assert (E : exists k fuel, hs / 8 = 16 * S k /\ hs / 8 = S fuel /\ k <= fuel /\ hs / 128 = S k) by (destruct Hh as [-> | ->]; [exists 1, 31|exists 2, 47]; repeat split; cbn; lia).
  destruct E as (k & fuel & E1 & E2 & E3 & E4). rewrite E4. rewrite E2 at 1. rewrite E1, out_first, flat_map_seq_S. rewrite out_loop by assumption. rewrite (out_bytes hs) by assumption. reflexivity.
Qed.
Lemma mark6 : forall s k, length s = 16 -> toB 6 (upd s 5 (N.lxor (at_ s 5) k)) = es_mark k (toB 6 s).
Proof. intros s k L. des16 s L. reflexivity. Qed.
Lemma mark8 : forall s k, length s = 16 -> toB 8 (upd s 7 (N.lxor (at_ s 7) k)) = es_mark k (toB 8 s).
Proof. intros s k L. des16 s L. reflexivity. Qed.
Lemma mark_ok : forall hs s k, hs_ok hs -> length s = 16 -> let j := (hs + 128) / 64 - 1 in toB (es_branches hs) (upd s j (N.lxor (at_ s j) k)) = es_mark k (toB (es_branches hs) s).
Proof. intros hs s k [-> | ->] L; [now apply mark6|now apply mark8]. Qed.
(** Sum, whatever the buffered bytes l are (at most 16). *)
Definition es_finish (hs : nat) (B : list (N * N)) (l : list N) : list N :=
  es_squeeze hs (sparkle_p (es_big hs) (es_inject (es_pad l) (es_mark (es_const l) B))).
Lemma checkSum_gen : forall hs d B l, hs_ok hs -> length (e_s d) = 16 -> toB (es_branches hs) (e_s d) = B -> length (e_x d) = 128 -> e_nx d = length l -> firstn (e_nx d) (e_x d) = l -> length l <= 16 ->
  esch_checkSum hs d = es_finish hs B l.
Proof.
  intros hs d B0 l Hh Ls HS Lx Hn HB HL.
  unfold esch_checkSum, es_finish. rewrite <- HS. unfold es_const, es_pad. rewrite Hn in *.
  set (j := (hs + 128) / 64 - 1). destruct (Nat.ltb_spec (length l) 16) as [G|G].
  - set (x := upd _ _ 128%N). assert (EX : firstn (16 * 1) x = l ++ 128%N :: zeros (15 - length l)).
    { unfold x, copy_at. rewrite HB, zeros_length.
      replace (firstn (length (e_x d) - length l) (zeros 128)) with (0%N :: zeros (127 - length l)) by (rewrite firstn_zeros, Lx; replace (Nat.min (128 - length l) 128) with (S (127 - length l)) by lia; reflexivity).
      rewrite <- app_comm_cons, upd_app_at. change (16 * 1) with 16. rewrite firstn_app, firstn_all2 by lia. f_equal. replace (16 - length l) with (S (15 - length l)) by lia. cbn [firstn]. f_equal.
      rewrite firstn_app, firstn_zeros, zeros_length. replace (15 - length l - (127 - length l)) with 0 by lia. rewrite firstn_O, app_nil_r. f_equal. lia. }
    assert (LX : 16 * 1 <= length x) by (unfold x; rewrite upd_length, copy_at_length; lia).
    rewrite transform_fold by exact LX. rewrite EX. rewrite chunks_one by (lia || (rewrite app_length; cbn [length]; rewrite zeros_length; lia)). cbn [fold_left].
    set (s1 := upd (e_s d) j _). assert (L1 : length s1 = 16) by (unfold s1; now rewrite upd_length). destruct (tr1_ok hs true s1 (l ++ 128%N :: zeros (15 - length l)) Hh L1) as [A B].
    rewrite out_ok by assumption. f_equal. rewrite A. f_equal. f_equal. unfold s1. apply (mark_ok hs (e_s d) 0x1000000 Hh Ls).
  - rewrite transform_fold by lia.
    assert (EX : firstn (16 * 1) (e_x d) = l) by (rewrite <- HB; f_equal; lia). rewrite EX. rewrite chunks_one by lia. cbn [fold_left].
    set (s1 := upd (e_s d) j _). assert (L1 : length s1 = 16) by (unfold s1; now rewrite upd_length). destruct (tr1_ok hs true s1 l Hh L1) as [A B].
    rewrite out_ok by assumption. f_equal. rewrite A. f_equal. f_equal. unfold s1. apply (mark_ok hs (e_s d) 0x2000000 Hh Ls).
Qed.
Lemma checkSum_ok : forall hs d m, hs_ok hs -> erel hs d m -> esch_checkSum hs d = esch hs m.
Proof.
  intros hs d m Hh (Ls & HS & Lx & Hn & HB). pose proof (es_n_bounds m) as Bm. pose proof (es_last_length m) as LL.
  rewrite (checkSum_gen hs d _ (es_last m) Hh Ls HS Lx Hn HB) by lia. reflexivity.
Qed.

(** ** The state after a Write that completed the buffered block: all blocks absorbed, nothing buffered. *)
Definition eager_rel (hs : nat) (d : edig) (m : list N) : Prop :=
  length (e_s d) = 16 /\ toB (es_branches hs) (e_s d) = es_state hs m /\ length (e_x d) = 128 /\ e_nx d = 0 /\ length m mod 16 = 0 /\ m <> [].
Lemma write_completes : forall hs d m p, hs_ok hs -> erel hs d m -> completes m p -> eager_rel hs (fst (esch_write hs d p)) (m ++ p).
Proof.
  intros hs d m p Hh (Ls & HS & Lx & Hn & HB) [NE HC]. unfold esch_write. pose proof (es_n_bounds m) as Bm. pose proof (es_last_length m) as LL.
  assert (Hm : firstn (16 * es_n m) m ++ es_last m = m) by apply firstn_skipn.
  assert (N1 : 1 <= length m) by (destruct m; [congruence|cbn [length]; lia]).
  destruct (Nat.ltb_spec 0 (e_nx d)) as [G|G]; [|lia]. destruct (Nat.leb_spec 16 (e_nx d + length p)) as [G2|G2]; [|lia]. cbn [andb].
  rewrite (skipn_all2 p) by lia. change (16 <? length (@nil N)) with false. cbv iota zeta.
  rewrite (transform_fold hs (e_s d) (copy_at (e_x d) (e_nx d) p) 1 false) by (rewrite copy_at_length; lia).
  assert (EB : firstn (16 * 1) (copy_at (e_x d) (e_nx d) p) = es_last m ++ p).
  { unfold copy_at. rewrite HB. change (16 * 1) with 16. rewrite firstn_app, firstn_all2 by lia. f_equal.
    rewrite firstn_app, firstn_firstn. rewrite firstn_length. replace (16 - length (es_last m) - Nat.min (length (e_x d) - e_nx d) (length p)) with 0 by lia. rewrite firstn_O, app_nil_r. apply firstn_all2. lia. }
  rewrite EB. assert (LB : length (es_last m ++ p) = 16) by (rewrite app_length; lia). rewrite chunks_one by (lia || exact LB). cbn [fold_left].
  destruct (tr1_ok hs false (e_s d) (es_last m ++ p) Hh Ls) as [A B]. set (s1 := tr1 hs false (e_s d) (es_last m ++ p)) in *. clearbody s1.
  unfold eager_rel. cbn [fst e_s e_x e_nx length Nat.add]. split; [exact B|]. split.
  - rewrite A, HS. replace (m ++ p) with (firstn (16 * es_n m) m ++ (es_last m ++ p)) by (rewrite app_assoc, Hm; reflexivity). unfold es_state at 2. rewrite chunks_app by lia.
    assert (R0 : rest 16 (firstn (16 * es_n m) m) = []) by (apply rest_0; [lia|]; rewrite firstn_length, Nat.min_l by lia; rewrite Nat.mul_comm; apply Nat.mod_mul; lia).
    rewrite R0. cbn [app]. rewrite (chunks_one _ 16 (es_last m ++ p)) by (lia || exact LB). rewrite fold_left_app. reflexivity.
  - split; [rewrite !copy_at_length; rewrite ?copy_at_length; lia|]. split; [reflexivity|]. split.
    + rewrite app_length. replace (length m + length p) with ((es_n m + 1) * 16) by lia. apply Nat.mod_mul. lia.
    + destruct m; [congruence|discriminate].
Qed.
Lemma write_eager_nil : forall hs d m, hs_ok hs -> eager_rel hs d m -> eager_rel hs (fst (esch_write hs d [])) m.
Proof.
  intros hs d m Hh (Ls & HS & Lx & Hn & HM & NE). unfold esch_write. rewrite Hn. cbn [Nat.ltb Nat.leb andb length fst Nat.add].
  unfold eager_rel. cbn [e_s e_x e_nx]. rewrite copy_at_nil by lia. repeat split; auto.
Qed.
Lemma write_eager : forall hs d m p, hs_ok hs -> eager_rel hs d m -> p <> [] -> erel hs (fst (esch_write hs d p)) (m ++ p).
Proof.
  intros hs d m p Hh (Ls & HS & Lx & Hn & HM & NE) NP. unfold esch_write. rewrite Hn. change (0 <? 0) with false. cbn [andb].
  pose proof (tail_ok hs (e_s d) (e_x d) m p Hh Ls HS HM Lx ltac:(congruence)) as T. destruct (if 16 <? length p then _ else _) as [s' p']. exact T.
Qed.
Lemma checkSum_eager : forall hs d m, hs_ok hs -> eager_rel hs d m -> esch_checkSum hs d = es_finish hs (es_state hs m) [].
Proof. intros hs d m Hh (Ls & HS & Lx & Hn & HM & NE). apply checkSum_gen; auto; try (rewrite Hn; reflexivity); cbn [length]; lia. Qed.
Lemma write_count : forall hs d p, snd (esch_write hs d p) = length p.
Proof. intros hs d p. unfold esch_write. destruct (if (0 <? e_nx d) && _ then _ else _) as [[[s x] nx] q]. destruct (if 16 <? length q then _ else _) as [s' q']. reflexivity. Qed.
