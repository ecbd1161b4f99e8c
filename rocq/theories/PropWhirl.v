(** PropWhirl.v -- C105: the whirlpool package computes Whirlpool, Whirlpool-0 and Whirlpool-T on every history. *)
From Coq Require Import List NArith Arith Lia.
Require Import Verif.Base Verif.Words Verif.HashAPI Verif.Buf Verif.Bytes Verif.Refine Verif.Stream Verif.Gost3411P Verif.JhP3 Verif.Ascon2 Verif.MakwaR Verif.Gmac Verif.Kupyna Verif.SpecWhirl Verif.WhirlTab Verif.Whirl.
Import ListNotations.
Local Open Scope nat_scope.

(** ** Rows of bytes and words *)
Definition wb (v : N) (j : nat) : N := w8 (N.shiftr v (56 - 8 * N.of_nat j)).
Lemma be8_map : forall v, be_bytes 8 v = map (wb v) (seq 0 8).
Proof.
  intro v. apply list_eq_at; [now rewrite be_bytes_length, map_length, seq_length|]. intros i Hi. rewrite be_bytes_length in Hi.
  rewrite at_be_bytes, at_le_bytes by lia. rewrite at_map_seq by lia. unfold wb. do 2 f_equal. lia.
Qed.
Lemma at_be8 : forall v j, j < 8 -> at_ (be_bytes 8 v) j = wb v j.
Proof. intros v j H. rewrite be8_map. now apply at_map_seq. Qed.
Lemma wb_lxor : forall a b j, wb (N.lxor a b) j = N.lxor (wb a j) (wb b j).
Proof. intros. apply w8_shiftr_lxor. Qed.
Lemma wb_lt : forall a j, (wb a j < 256)%N.
Proof. intros. unfold wb. rewrite w8_mod. apply N.mod_lt. discriminate. Qed.
Definition wst (w : list N) : list (list N) := map (be_bytes 8) w.
Lemma wst_build : forall w, length w = 8 -> wst w = wh_build (fun i j => wb (at_ w i) j).
Proof.
  intros w L. unfold wst, wh_build. rewrite <- (map_at w) at 1. rewrite L, map_map. apply map_ext. intro i. apply be8_map.
Qed.
Lemma build_ext : forall f g, (forall i j, i < 8 -> j < 8 -> f i j = g i j) -> wh_build f = wh_build g.
Proof. intros f g H. unfold wh_build. apply map_ext_in. intros i Hi. apply in_seq in Hi. apply map_ext_in. intros j Hj. apply in_seq in Hj. apply H; lia. Qed.
Lemma e_build : forall f i j, i < 8 -> j < 8 -> wh_e (wh_build f) i j = f i j.
Proof.
  intros f i j Hi Hj. unfold wh_e, wh_build. rewrite (nth_indep _ [] (map (f 0) (seq 0 8))) by (rewrite map_length, seq_length; exact Hi).
  rewrite (map_nth (fun i => map (f i) (seq 0 8))), seq_nth by exact Hi. now apply at_map_seq.
Qed.
Lemma e_wst : forall w i j, length w = 8 -> i < 8 -> j < 8 -> wh_e (wst w) i j = wb (at_ w i) j.
Proof. intros w i j L Hi Hj. rewrite wst_build by exact L. now apply e_build. Qed.

Section Cipher.
Variable p : wh_par.
Variable c : list (list N).
Variable rc : list N.
Hypothesis Htab : forall k x l, k < 8 -> (x < 256)%N -> l < 8 ->
  wb (at_ (nth k c []) (N.to_nat x)) l = wh_mul (at_ (wh_cir p) ((l + 8 - k) mod 8)) (wh_s p x).
Hypothesis Hrc : forall r j, 1 <= r <= 10 -> j < 8 -> wb (at_ rc r) j = wh_s p (N.of_nat (8 * (r - 1) + j)).
Definition wh_tpg (st : list (list N)) : list (list N) := wh_theta p (wh_pi (wh_gamma p st)).
Lemma row_ok : forall K i j, length K = 8 -> i < 8 -> j < 8 -> wb (wp_row c K i) j = wh_e (wh_tpg (wst K)) i j.
Proof.
  intros K i j LK Hi Hj. unfold wh_tpg, wh_theta. rewrite e_build by assumption.
  assert (E : forall k, k < 8 -> wh_mul (at_ (wh_cir p) ((j + 8 - k) mod 8)) (wh_e (wh_pi (wh_gamma p (wst K))) i k) = wb (wpT c k (at_ K ((i + 8 - k) mod 8))) j).
  { intros k Hk. unfold wh_pi, wh_gamma. assert (M : (i + 8 - k) mod 8 < 8) by (apply Nat.mod_upper_bound; discriminate).
    rewrite e_build, e_build by assumption. rewrite e_wst by assumption. unfold wpT. rewrite Htab by (try assumption; apply wb_lt). reflexivity. }
  cbn [seq map fold_left]. rewrite !E by lia. rewrite N.lxor_0_l. unfold wp_row. rewrite !wb_lxor.
  replace (i + 8 - 0) with (i + 1 * 8) by lia. rewrite Nat.mod_add by discriminate.
  replace (i + 8 - 1) with (i + 7) by lia. replace (i + 8 - 2) with (i + 6) by lia. replace (i + 8 - 3) with (i + 5) by lia. replace (i + 8 - 4) with (i + 4) by lia.
  replace (i + 8 - 5) with (i + 3) by lia. replace (i + 8 - 6) with (i + 2) by lia. replace (i + 8 - 7) with (i + 1) by lia. reflexivity.
Qed.
Opaque wp_row.
Lemma round_ok : forall K st r, length K = 8 -> length st = 8 -> 1 <= r <= 10 ->
  let q := wp_round c rc (K, st) r in
  length (fst q) = 8 /\ length (snd q) = 8 /\ wst (fst q) = wh_rho p (wh_rc p r) (wst K) /\ wst (snd q) = wh_rho p (wst (fst q)) (wst st).
Proof.
  intros K st r LK Lst Hr. cbv zeta. unfold wp_round. cbv zeta. set (L := upd _ 0 _).
  assert (LL : length L = 8) by (unfold L; now rewrite upd_length, map_length, seq_length).
  assert (EL : map (fun i => at_ L i) (seq 0 8) = L) by (rewrite <- LL; apply map_at). rewrite EL. cbn [fst snd].
  set (L2 := map (fun i => N.lxor (wp_row c st i) (at_ L (i mod 8))) (seq 0 8)).
  assert (LL2 : length L2 = 8) by (unfold L2; now rewrite map_length, seq_length).
  assert (EL2 : map (fun i => at_ L2 i) (seq 0 8) = L2) by (rewrite <- LL2; apply map_at). rewrite EL2.
  split; [exact LL|]. split; [exact LL2|]. split.
  - rewrite wst_build by exact LL. unfold wh_rho, wh_sigma. apply build_ext. intros i j Hi Hj. fold (wh_tpg (wst K)). rewrite <- row_ok by assumption.
    unfold wh_rc. rewrite e_build by assumption. unfold L.
    destruct (Nat.eqb_spec i 0) as [->|Hn].
    + unfold at_ at 1. rewrite nth_upd_same by (rewrite map_length, seq_length; lia). rewrite wb_lxor, Hrc by assumption. now rewrite at_map_seq by lia.
    + unfold at_ at 1. rewrite nth_upd_other by lia. fold (at_ (map (wp_row c K) (seq 0 8)) i). rewrite at_map_seq by exact Hi. now rewrite N.lxor_0_r.
  - rewrite wst_build by exact LL2. unfold wh_rho, wh_sigma. apply build_ext. intros i j Hi Hj. fold (wh_tpg (wst st)). rewrite <- row_ok by assumption.
    rewrite e_wst by assumption. unfold L2. rewrite at_map_seq by exact Hi. rewrite Nat.mod_small by exact Hi. apply wb_lxor.
Qed.
Opaque wp_round wh_rho wh_rc.
Lemma rounds_ok : forall n K st, n <= 10 -> length K = 8 -> length st = 8 ->
  let q := fold_left (wp_round c rc) (seq 1 n) (K, st) in
  length (fst q) = 8 /\ length (snd q) = 8 /\
  (wst (fst q), wst (snd q)) = fold_left (fun '(K, st) r => let K := wh_rho p (wh_rc p r) K in (K, wh_rho p K st)) (seq 1 n) (wst K, wst st).
Proof.
  induction n as [|n IH]; intros K st Hn LK Ls; cbv zeta; [auto|]. rewrite seq_S, !fold_left_app. cbn [fold_left].
  destruct (IH K st ltac:(lia) LK Ls) as (L1 & L2 & E). cbv zeta in E. rewrite <- E. destruct (fold_left (wp_round c rc) (seq 1 n) (K, st)) as [K1 s1]. cbn [fst snd] in *.
  destruct (round_ok K1 s1 (1 + n) L1 L2 ltac:(lia)) as (L3 & L4 & E3 & E4). split; [exact L3|]. split; [exact L4|]. now rewrite E4, E3.
Qed.
Lemma wwords_ok : forall x, length x = 64 -> isbytes x -> length (wwords x) = 8 /\ wst (wwords x) = chunks 8 x.
Proof.
  intros x L B. unfold wwords. rewrite L. change (64 / 8) with 8. split; [now rewrite map_length, seq_length|]. unfold wst. rewrite map_map. unfold chunks. rewrite L. change (64 / 8) with 8.
  apply map_ext_in. intros i Hi. apply in_seq in Hi. unfold slice. replace (8 * i + 8 - 8 * i) with 8 by lia. rewrite (Nat.mul_comm 8 i).
  apply be_bytes_unique; [now apply isbytes_firstn, isbytes_skipn| |reflexivity]. rewrite firstn_length, skipn_length. lia.
Qed.
Lemma sigma_ok : forall a b, length a = 8 -> length b = 8 -> wst (map (fun i => N.lxor (at_ a i) (at_ b i)) (seq 0 8)) = wh_sigma (wst b) (wst a).
Proof.
  intros a b La Lb. rewrite wst_build by (now rewrite map_length, seq_length). apply build_ext. intros i j Hi Hj. rewrite !e_wst by assumption.
  rewrite at_map_seq by exact Hi. apply wb_lxor.
Qed.
Lemma sigma_comm : forall a b, wh_sigma a b = wh_sigma b a.
Proof. intros. apply build_ext. intros. apply N.lxor_comm. Qed.
Lemma transform_ok : forall h x, length h = 8 -> length x = 64 -> isbytes x -> length (wp_transform c rc h x) = 8 /\ wst (wp_transform c rc h x) = wh_f p (wst h) x.
Proof.
  intros h x Lh Lx Bx. destruct (wwords_ok x Lx Bx) as [LW EW]. unfold wp_transform. cbv zeta. set (blk := wwords x) in *. clearbody blk.
  assert (EK : map (fun i => at_ h i) (seq 0 8) = h) by (rewrite <- Lh; apply map_at). rewrite EK.
  split; [now rewrite map_length, seq_length|].
  destruct (rounds_ok 10 h (map (fun i => N.lxor (at_ blk i) (at_ h i)) (seq 0 8)) (le_n _) Lh ltac:(now rewrite map_length, seq_length)) as (L1 & L2 & E).
  rewrite (sigma_ok blk h LW Lh), EW in E. cbv zeta in E. unfold wh_f, wh_W. cbv zeta. rewrite <- E. cbn [snd].
  set (st := snd (fold_left (wp_round c rc) (seq 1 10) _)) in *. clearbody st.
  rewrite <- EW. rewrite wst_build by (now rewrite map_length, seq_length). unfold wh_sigma. apply build_ext. intros i j Hi Hj. rewrite e_build by assumption. rewrite !e_wst by assumption.
  rewrite at_map_seq by exact Hi. rewrite !wb_lxor. rewrite <- N.lxor_assoc. apply N.lxor_comm.
Qed.
Opaque wp_transform wh_f.

(** ** Streaming *)
Definition core (d : wpd) (m : list N) : Prop :=
  isbytes m /\ buf_ok 64 64 (w_x d) (w_nx d) m /\ isbytes (w_x d) /\ w_len d = 8 * w_nx d /\ at_ (w_x d) (w_nx d) = 0%N /\
  length (w_h d) = 8 /\ wst (w_h d) = fold_left (wh_f p) (chunks 64 m) (wh_build (fun _ _ => 0%N)).
Lemma isbytes_upd : forall x i v, isbytes x -> (v < 256)%N -> isbytes (upd x i v).
Proof.
  intros x i v Hx Hv. unfold isbytes. apply Forall_forall. intros b Hb. apply (In_nth _ _ 0%N) in Hb. destruct Hb as (j & Hj & <-). rewrite upd_length in Hj.
  destruct (Nat.eq_dec i j) as [->|Hn]; [rewrite nth_upd_same by exact Hj; exact Hv|]. rewrite nth_upd_other by lia. apply (proj1 (Forall_forall _ _) Hx). now apply nth_In.
Qed.
Lemma step_ok : forall d m b, (b < 256)%N -> core d m -> core (wp_flush c rc (wp_or d b) b 0 0) (m ++ [b]).
Proof.
  intros d m b Hb (Bm & Hbuf & Bx & El & Ez & Lh & Eh). pose proof (buf_ok_nx_lt 64 64 _ _ _ ltac:(lia) Hbuf) as Hnx. destruct Hbuf as (Lx & En & Ex).
  unfold wp_or, wp_flush. cbn [w_nx w_len w_x w_h w_s]. rewrite Ez, N.lor_0_l. change (N.of_nat 0) with 0%N. rewrite N.sub_0_r.
  assert (W0 : w8 (N.shiftl b 8) = 0%N) by (rewrite w8_mod, N.shiftl_mul_pow2; change (2 ^ 8)%N with 256%N; now apply N.mod_mul).
  rewrite W0. change (8 - 0) with 8. rewrite El.
  assert (Bm' : isbytes (m ++ [b])) by (apply Forall_app; split; [exact Bm|constructor; [exact Hb|constructor]]).
  set (x' := upd (w_x d) (w_nx d) b). assert (Lx' : length x' = 64) by (unfold x'; now rewrite upd_length).
  assert (Bx' : isbytes x') by (now apply isbytes_upd).
  assert (Fx' : firstn (w_nx d + 1) x' = rest 64 m ++ [b]).
  { unfold x'. rewrite upd_split by lia. rewrite Ex. replace (w_nx d + 1) with (length (rest 64 m ++ [b])) by (rewrite app_length; cbn [length]; lia).
    change (b :: skipn (S (w_nx d)) (w_x d)) with ([b] ++ skipn (S (w_nx d)) (w_x d)). rewrite app_assoc. now apply firstn_app_len. }
  destruct (Nat.eqb_spec (8 * w_nx d + 8) 512) as [H|H].
  - assert (E64 : w_nx d + 1 = 64) by lia. rewrite E64, firstn_all2 in Fx' by lia.
    destruct (transform_ok (w_h d) x' Lh Lx' Bx') as [L1 E1].
    assert (ER : rest 64 (m ++ [b]) = []) by (rewrite rest_app by lia; apply rest_one; [lia|rewrite app_length; cbn [length]; lia]).
    unfold core. cbn [w_nx w_len w_x w_h]. split; [exact Bm'|]. split; [split; [now rewrite upd_length|]; rewrite ER; split; reflexivity|].
    split; [apply isbytes_upd; [exact Bx'|reflexivity]|]. split; [reflexivity|]. split; [unfold at_; rewrite nth_upd_same by lia; reflexivity|]. split; [exact L1|].
    rewrite E1, absorb_snoc by (cbn [length]; lia). now rewrite <- Eh, <- Fx'.
  - assert (H1 : w_nx d + 1 < 64) by lia.
    assert (ER : rest 64 (m ++ [b]) = rest 64 m ++ [b]) by (rewrite rest_app by lia; apply rest_short; rewrite app_length; cbn [length]; lia).
    unfold core. cbn [w_nx w_len w_x w_h]. split; [exact Bm'|]. split; [split; [now rewrite upd_length|]; rewrite ER; split; [rewrite app_length; cbn [length]; lia|]|].
    { rewrite firstn_upd. exact Fx'. }
    split; [apply isbytes_upd; [exact Bx'|reflexivity]|]. split; [lia|]. split; [unfold at_; rewrite nth_upd_same by lia; reflexivity|]. split; [exact Lh|].
    rewrite Eh. symmetry. rewrite (absorb_short _ (wh_f p) 64 _ m [b]) by (cbn [length]; lia). reflexivity.
Qed.
Lemma loop_ok : forall q d m a, isbytes (a :: q) -> core d m ->
  let r := wp_loop c rc 0 0 d a q in
  core (wp_flush c rc (wp_or (fst r) (N.shiftr (w8 (N.shiftl (snd r) 0)) 0)) (w8 (N.shiftl (snd r) 0)) 0 0) (m ++ a :: q).
Proof.
  assert (W : forall a, (a < 256)%N -> w8 (N.shiftl a 0) = a) by (intros a Ha; rewrite N.shiftl_0_r, w8_mod; now apply N.mod_small).
  induction q as [|a' q IH]; intros d m a B R; cbv zeta.
  - cbn [wp_loop fst snd]. assert (Ha := Forall_inv B). rewrite W by exact Ha. rewrite N.shiftr_0_r. now apply step_ok.
  - cbn [wp_loop]. assert (Ha := Forall_inv B). assert (B' := Forall_inv_tail B). assert (Ha' := Forall_inv B').
    change (N.of_nat 0) with 0%N. rewrite W by exact Ha. replace (N.shiftr (N.land a' 255) (8 - 0)) with 0%N.
    2:{ symmetry. rewrite N.shiftr_div_pow2. apply N.div_small. change (w8 a' < 256)%N. rewrite w8_mod. apply N.mod_lt. discriminate. }
    rewrite N.lor_0_r, N.shiftr_0_r. replace (w8 a) with a by (rewrite w8_mod; symmetry; now apply N.mod_small).
    replace (m ++ a :: a' :: q) with ((m ++ [a]) ++ a' :: q) by (rewrite <- app_assoc; reflexivity).
    apply (IH _ (m ++ [a]) a' B'). now apply step_ok.
Qed.
Lemma loop_s : forall gap rem q d a, w_s (fst (wp_loop c rc gap rem d a q)) = w_s d.
Proof.
  intros gap rem. induction q as [|a' q IH]; intros d a; [reflexivity|]. cbn [wp_loop]. rewrite IH. unfold wp_flush, wp_or. cbn [w_s w_nx w_len w_x w_h].
  destruct (_ =? 512); reflexivity.
Qed.
Lemma tally_ok : forall i s1 s2 carry value, length s1 = i -> (carry < 256)%N -> isbytes s1 ->
  exists r1, wp_tally i (s1 ++ s2) carry value = r1 ++ s2 /\ length r1 = i /\ isbytes r1 /\ be_val r1 = ((be_val s1 + carry + value) mod 256 ^ N.of_nat i)%N.
Proof.
  induction i as [|i IH]; intros s1 s2 carry value L Hc B.
  - exists s1. cbn [wp_tally]. destruct s1; [|discriminate L]. repeat split; auto. cbn [N.of_nat]. rewrite N.pow_0_r, N.mod_1_r. reflexivity.
  - cbn [wp_tally]. destruct (N.eqb carry 0 && N.eqb value 0)%bool eqn:EZ.
    { apply andb_prop in EZ. destruct EZ as [E1 E2]. apply N.eqb_eq in E1, E2. rewrite E1, E2. exists s1. repeat split; auto. rewrite !N.add_0_r. symmetry. apply N.mod_small. rewrite pow256, <- L. now apply be_val_lt. }
    destruct (exists_last (l := s1)) as (t & b & E); [intros ->; discriminate L|]. rewrite E in *. clear E s1. rewrite app_length in L. cbn [length] in L.
    apply Forall_app in B. destruct B as [Bt Bb]. assert (Hb := Forall_inv Bb). unfold isbyte in Hb. rewrite <- app_assoc.
    assert (EA : at_ (t ++ [b] ++ s2) i = b) by (unfold at_; rewrite app_nth2 by lia; replace (i - length t) with 0 by lia; reflexivity). rewrite EA.
    assert (EU : forall v, upd (t ++ [b] ++ s2) i v = t ++ v :: s2) by (intro v; replace i with (length t) by lia; apply upd_app_at). rewrite EU.
    assert (Hl : (N.land value 255 = value mod 256)%N) by (apply (w8_mod value)). rewrite Hl.
    pose proof (N.mod_lt value 256 ltac:(discriminate)) as Hm.
    assert (Ew : w32 (carry + (b + value mod 256)) = (carry + (b + value mod 256))%N) by (rewrite w32_mod; apply N.mod_small; change (2 ^ 32)%N with 4294967296%N; lia).
    rewrite Ew. set (cc := (carry + (b + value mod 256))%N).
    assert (Hcc : (N.shiftr cc 8 < 256)%N) by (rewrite N.shiftr_div_pow2; change (2 ^ 8)%N with 256%N; apply N.div_lt_upper_bound; [discriminate|unfold cc; lia]).
    destruct (IH t (w8 cc :: s2) (N.shiftr cc 8) (N.shiftr value 8) ltac:(lia) Hcc Bt) as (r1 & E1 & L1 & B1 & V1).
    exists (r1 ++ [w8 cc]). cbv zeta. rewrite E1, <- app_assoc. split; [reflexivity|]. split; [rewrite app_length; cbn [length]; lia|].
    split; [apply Forall_app; split; [exact B1|]; constructor; [red; rewrite w8_mod; apply N.mod_lt; discriminate|constructor]|].
    rewrite !be_val_app. cbn [length]. change (2 ^ N.of_nat (8 * 1))%N with 256%N. change (be_val [w8 cc]) with (w8 cc + 256 * 0)%N. change (be_val [b]) with (b + 256 * 0)%N.
    rewrite V1, w8_mod, !N.shiftr_div_pow2. change (2 ^ 8)%N with 256%N. rewrite Nat2N.inj_succ, N.pow_succ_r'.
    set (M := (256 ^ N.of_nat i)%N). assert (HM : (M <> 0)%N) by (apply N.pow_nonzero; discriminate).
    pose proof (N.div_mod cc 256 ltac:(discriminate)) as D1. pose proof (N.div_mod value 256 ltac:(discriminate)) as D2.
    set (A := (be_val t + cc / 256 + value / 256)%N).
    replace (be_val t * 256 + (b + 256 * 0) + carry + value)%N with (cc mod 256 + A * 256)%N.
    2:{ unfold A. assert (cc = carry + (b + value mod 256))%N by reflexivity. clearbody cc. revert D1 D2. generalize (cc / 256)%N (cc mod 256)%N (value / 256)%N. intros. lia. }
    rewrite N.mod_mul_r by (discriminate || exact HM). rewrite N.mod_add, N.div_add by discriminate. rewrite N.mod_mod by discriminate.
    rewrite (N.div_small (cc mod 256)) by (apply N.mod_lt; discriminate). rewrite N.add_0_l. lia.
Qed.
Definition wrel (d : wpd) (m : list N) : Prop :=
  core d m /\ length (w_s d) = 32 /\ isbytes (w_s d) /\ be_val (w_s d) = (8 * N.of_nat (length m))%N.
Definition wB : N := (2 ^ 61)%N.
Lemma write_rel : forall d m q, isbytes q -> (N.of_nat (length (m ++ q)) < wB)%N -> wrel d m -> wrel (fst (wp_write c rc d q)) (m ++ q).
Proof.
  intros d m q Bq HB (R & Ls & Bs & Es). unfold wB in HB. change (2 ^ 61)%N with 2305843009213693952%N in HB. rewrite app_length in HB.
  unfold wp_write. cbv zeta. cbn [fst].
  assert (EB : w64 (8 * N.of_nat (length q)) = (8 * N.of_nat (length q))%N) by (apply w64_small; change (2 ^ 64)%N with 18446744073709551616%N; lia). rewrite EB.
  destruct (tally_ok 32 (w_s d) [] 0 (8 * N.of_nat (length q)) Ls ltac:(reflexivity) Bs) as (s' & E1 & L1 & B1 & V1). rewrite !app_nil_r in E1. rewrite E1.
  assert (V : be_val s' = (8 * N.of_nat (length (m ++ q)))%N).
  { rewrite V1, Es, app_length. rewrite N.mod_small; [lia|]. apply N.lt_le_trans with 18446744073709551616%N; [lia|]. vm_compute. discriminate. }
  assert (G : N.to_nat (N.land (8 - N.land (8 * N.of_nat (length q)) 7) 7) = 0).
  { replace (N.land (8 * N.of_nat (length q)) 7) with 0%N; [reflexivity|]. symmetry. change 7%N with (N.ones 3). rewrite N.land_ones. change (2 ^ 3)%N with 8%N. rewrite N.mul_comm. now apply N.mod_mul. }
  rewrite G. destruct R as (Bm & Hbuf & Bx & El & Ez & Lh & Eh).
  assert (R8 : w_len d mod 8 = 0) by (rewrite El, Nat.mul_comm; now apply Nat.mod_mul). rewrite R8.
  set (d1 := mkwpd s' (w_x d) (w_nx d) (w_len d) (w_h d)).
  assert (R1 : core d1 m) by (unfold core; cbn [d1 w_x w_nx w_len w_h]; auto 10).
  destruct q as [|a q'].
  - rewrite app_nil_r in *. split; [exact R1|]. cbn [w_s]. auto.
  - pose proof (loop_ok q' d1 m a Bq R1) as RL. pose proof (loop_s 0 0 q' d1 a) as SL. cbv zeta in RL. destruct (wp_loop c rc 0 0 d1 a q') as [d2 a2]. cbn [fst snd] in *.
    split; [exact RL|]. assert (SF : forall v b e, w_s (wp_flush c rc (wp_or d2 v) b 0 e) = w_s d2) by (intros; unfold wp_flush, wp_or; cbn [w_s w_nx w_len w_x w_h]; destruct (_ =? 512); reflexivity).
    rewrite SF, SL. cbn [d1 w_s]. auto.
Qed.
Lemma fill_map : forall (g : nat -> N) n a (x : list N), a + n <= length x ->
  fold_left (fun x i => upd x (a + i) (g i)) (seq 0 n) x = firstn a x ++ map g (seq 0 n) ++ skipn (a + n) x.
Proof.
  intros g n. induction n as [|n IH]; intros a x H; [cbn [seq fold_left map app]; rewrite Nat.add_0_r; symmetry; apply firstn_skipn|].
  rewrite seq_S, fold_left_app, IH by lia. cbn [fold_left]. rewrite map_app. cbn [map Nat.add]. rewrite app_assoc, upd_app_r' with (k := 0) by (rewrite app_length, firstn_length, map_length, seq_length; lia).
  rewrite <- !app_assoc. do 2 f_equal. cbn [app].
  destruct (skipn (a + n) x) as [|y t] eqn:E; [exfalso; assert (length (skipn (a + n) x) = 0) by (now rewrite E); rewrite skipn_length in *; lia|]. cbn [upd]. f_equal.
  replace (a + S n) with ((a + n) + 1) by lia. rewrite <- skipn_skipn, E. reflexivity.
Qed.
Lemma map_zero : forall n a, map (fun _ : nat => 0%N) (seq a n) = zeros n.
Proof. induction n as [|n IH]; intro a; [reflexivity|]. cbn [seq map]. rewrite IH. reflexivity. Qed.
Lemma checkSum_ok : forall d m, (N.of_nat (length m) < wB)%N -> wrel d m -> wp_checkSum c rc d = wh_hash p m /\ length (wp_checkSum c rc d) = 64.
Proof.
  intros d m HB ((Bm & Hbuf & Bx & El & Ez & Lh & Eh) & Ls & Bs & Es). 
  assert (ES : be_bytes 32 (8 * N.of_nat (length m)) = w_s d) by (now apply be_bytes_unique).
  unfold wh_hash, wh_pad. rewrite ES. rewrite (finish_blocks_ok 64 0x80 (w_x d) (w_nx d) (w_s d) m) by (lia || exact Hbuf).
  rewrite fold_left_app, <- Eh.
  pose proof (buf_ok_nx_lt 64 64 _ _ _ ltac:(lia) Hbuf) as Hnx. destruct Hbuf as (Lx & En & Ex).
  unfold wp_checkSum. cbv zeta. rewrite Ez, N.lor_0_l. replace (w_len d mod 8) with 0 by (rewrite El, Nat.mul_comm; symmetry; now apply Nat.mod_mul).
  change (N.shiftr 128 (N.of_nat 0)) with 128%N. unfold finish_blocks. cbv zeta. rewrite Ls. change (64 - 32) with 32.
  set (x1 := upd (w_x d) (w_nx d) 128%N). assert (L1 : length x1 = 64) by (unfold x1; now rewrite upd_length).
  assert (B1 : isbytes x1) by (apply isbytes_upd; [exact Bx|reflexivity]).
  assert (EC : copy_at x1 (w_nx d + 1) (zeros 64) = firstn (w_nx d + 1) x1 ++ zeros (63 - w_nx d)).
  { rewrite copy_at_full by (rewrite ?zeros_length; lia). rewrite L1, firstn_zeros. do 2 f_equal. lia. }
  assert (EF : forall x, length x = 64 -> fold_left (fun x i => upd x (32 + i) (at_ (w_s d) i)) (seq 0 32) x = firstn 32 x ++ w_s d).
  { intros x Hx. rewrite fill_map by lia. rewrite skipn_all2 by lia. rewrite app_nil_r. f_equal. rewrite <- Ls. apply map_at. }
  assert (OUT : forall w V, length w = 8 -> wst w = V -> firstn 64 (wbytes w) = concat V /\ length (firstn 64 (wbytes w)) = 64).
  { intros w V Lw <-. unfold wbytes. assert (LL : length (concat (map (be_bytes 8) w)) = 64) by (rewrite concat_be_length, Lw; reflexivity). rewrite firstn_all2 by lia. split; [reflexivity|exact LL]. }
  destruct (Nat.ltb_spec 32 (w_nx d + 1)) as [Hlong|Hshort].
  - assert (EX : (if w_nx d + 1 <? 64 then wp_zero x1 (w_nx d + 1) (64 - (w_nx d + 1)) else x1) = firstn (w_nx d + 1) x1 ++ zeros (63 - w_nx d)).
    { destruct (Nat.ltb_spec (w_nx d + 1) 64).
      - unfold wp_zero. rewrite fill_map by lia. rewrite map_zero, skipn_all2 by lia. rewrite app_nil_r. do 2 f_equal. lia.
      - replace (63 - w_nx d) with 0 by lia. change (zeros 0) with (@nil N). rewrite app_nil_r, firstn_all2 by lia. reflexivity. }
    rewrite EX, <- EC. set (x2 := copy_at x1 (w_nx d + 1) (zeros 64)) in *.
    assert (L2 : length x2 = 64) by (unfold x2; rewrite copy_at_length; lia). assert (B2 : isbytes x2) by (apply copy_at_isbytes; [exact B1|apply zeros_isbytes]).
    cbn [Nat.ltb Nat.leb]. change (32 - 0) with 32. unfold wp_zero. rewrite (fill_map (fun _ => 0%N) 32 0 x2) by lia. rewrite map_zero. cbn [firstn app Nat.add].
    rewrite EF by (rewrite app_length, zeros_length, skipn_length; lia). rewrite firstn_app_len by (now rewrite zeros_length).
    assert (EL : copy_at (zeros 64) 32 (w_s d) = zeros 32 ++ w_s d).
    { rewrite copy_at_full by (rewrite ?zeros_length; lia). rewrite firstn_zeros, zeros_length. change (Nat.min 32 64) with 32. rewrite firstn_all2 by lia. reflexivity. }
    rewrite EL. cbn [fold_left].
    destruct (transform_ok (w_h d) x2 Lh L2 B2) as [L3 E3].
    destruct (transform_ok (wp_transform c rc (w_h d) x2) (zeros 32 ++ w_s d) L3) as [L4 E4]; [rewrite app_length, zeros_length; lia|apply Forall_app; split; [apply zeros_isbytes|exact Bs]|].
    rewrite <- E3, <- E4. apply OUT; [exact L4|reflexivity].
  - assert (EX : (if w_nx d + 1 <? 32 then wp_zero x1 (w_nx d + 1) (32 - (w_nx d + 1)) else x1) = firstn (w_nx d + 1) x1 ++ zeros (31 - w_nx d) ++ skipn 32 x1).
    { destruct (Nat.ltb_spec (w_nx d + 1) 32).
      - unfold wp_zero. rewrite fill_map by lia. rewrite map_zero. replace (w_nx d + 1 + (32 - (w_nx d + 1))) with 32 by lia. do 3 f_equal. lia.
      - replace (31 - w_nx d) with 0 by lia. change (zeros 0 ++ skipn 32 x1) with (skipn 32 x1). replace (w_nx d + 1) with 32 by lia. symmetry. apply firstn_skipn. }
    rewrite EX. rewrite EF by (rewrite !app_length, firstn_length, zeros_length, skipn_length; lia).
    assert (E32 : firstn 32 (firstn (w_nx d + 1) x1 ++ zeros (31 - w_nx d) ++ skipn 32 x1) = firstn (w_nx d + 1) x1 ++ zeros (31 - w_nx d)).
    { rewrite app_assoc. apply firstn_app_len. rewrite app_length, firstn_length, zeros_length. lia. }
    rewrite E32, EC.
    assert (EL : copy_at (firstn (w_nx d + 1) x1 ++ zeros (63 - w_nx d)) 32 (w_s d) = (firstn (w_nx d + 1) x1 ++ zeros (31 - w_nx d)) ++ w_s d).
    { rewrite copy_at_full by (rewrite app_length, firstn_length, zeros_length; lia). rewrite (firstn_all2 (w_s d)) by (rewrite app_length, firstn_length, zeros_length; lia). f_equal.
      rewrite firstn_app, firstn_length, firstn_firstn, firstn_zeros. rewrite Nat.min_r by lia. do 2 f_equal. lia. }
    rewrite EL. cbn [fold_left].
    destruct (transform_ok (w_h d) ((firstn (w_nx d + 1) x1 ++ zeros (31 - w_nx d)) ++ w_s d) Lh) as [L4 E4]; [rewrite !app_length, firstn_length, zeros_length; lia|repeat (apply Forall_app; split); [now apply isbytes_firstn|apply zeros_isbytes|exact Bs]|].
    rewrite <- E4. apply OUT; [exact L4|reflexivity].
Qed.
Lemma new_rel : wrel wp_reset [].
Proof.
  unfold wrel, core, wp_reset. cbn [w_x w_nx w_len w_h w_s]. split; [|split; [reflexivity|split; [apply zeros_isbytes|reflexivity]]].
  split; [constructor|]. split; [apply buf_ok_nil; [lia|reflexivity]|]. split; [apply zeros_isbytes|]. repeat split.
Qed.
Lemma write_count : forall d q, snd (wp_write c rc d q) = length q.
Proof. reflexivity. Qed.
Lemma history : forall ops, Forall op_bytes ops -> (ops_total ops < 2 ^ 61)%N -> run (wp_impl c rc) wp_reset ops = ideal_run (wh_hash p) [] ops.
Proof.
  intros ops HF HB. apply run_refines_total with (R := wrel) (B := wB).
  - intros d m q Hq HL R. now apply write_rel.
  - intros d m q _ _ R. reflexivity.
  - intros d m i R. exact R.
  - intros d m i HL R. cbn [i_sum wp_impl]. unfold wp_sum. cbn [snd]. now rewrite (proj1 (checkSum_ok d m HL R)).
  - intros d m R. exact new_rel.
  - exact HF.
  - exact HB.
  - exact new_rel.
Qed.
Lemma oneshot : forall data, isbytes data -> (N.of_nat (length data) < 2 ^ 61)%N -> wp_Sum c rc data = wh_hash p data.
Proof.
  intros data HF HB. unfold wp_Sum. destruct (checkSum_ok (fst (wp_write c rc wp_reset data)) data HB (write_rel _ [] data HF HB new_rel)) as [E L]. rewrite <- E.
  rewrite copy_at_over by (rewrite zeros_length, L; lia). rewrite L. apply app_nil_r.
Qed.
End Cipher.

(** * The three table sets of the code *)
Definition tab_check (p : wh_par) (c : list (list N)) : bool :=
  forallb (fun k => forallb (fun x => forallb (fun l => (wb (at_ (nth k c []) x) l =? wh_mul (at_ (wh_cir p) ((l + 8 - k) mod 8)) (wh_s p (N.of_nat x)))%N) (seq 0 8)) (seq 0 256)) (seq 0 8).
Definition rc_check (p : wh_par) (rc : list N) : bool :=
  forallb (fun r => forallb (fun j => (wb (at_ rc r) j =? wh_s p (N.of_nat (8 * (r - 1) + j)))%N) (seq 0 8)) (seq 1 10).
Lemma tab_check_ok : forall p c, tab_check p c = true -> forall k x l, k < 8 -> (x < 256)%N -> l < 8 ->
  wb (at_ (nth k c []) (N.to_nat x)) l = wh_mul (at_ (wh_cir p) ((l + 8 - k) mod 8)) (wh_s p x).
Proof.
  intros p c H k x l Hk Hx Hl. unfold tab_check in H. rewrite forallb_forall in H.
  assert (H1 := H k ltac:(apply in_seq; lia)). cbv beta in H1. rewrite forallb_forall in H1.
  assert (H2 := H1 (N.to_nat x) ltac:(apply in_seq; lia)). cbv beta in H2. rewrite forallb_forall in H2.
  assert (H3 := H2 l ltac:(apply in_seq; lia)). cbv beta in H3. apply N.eqb_eq in H3. rewrite N2Nat.id in H3. exact H3.
Qed.
Lemma rc_check_ok : forall p rc, rc_check p rc = true -> forall r j, 1 <= r <= 10 -> j < 8 -> wb (at_ rc r) j = wh_s p (N.of_nat (8 * (r - 1) + j)).
Proof.
  intros p rc H r j Hr Hj. unfold rc_check in H. rewrite forallb_forall in H.
  assert (H1 := H r ltac:(apply in_seq; lia)). cbv beta in H1. rewrite forallb_forall in H1.
  assert (H2 := H1 j ltac:(apply in_seq; lia)). cbv beta in H2. apply N.eqb_eq in H2. exact H2.
Qed.
Lemma tabF : tab_check whirlpool_final wp_c = true. Proof. vm_compute. reflexivity. Qed.
Lemma tab0 : tab_check whirlpool_0 wp_c0 = true. Proof. vm_compute. reflexivity. Qed.
Lemma tabT : tab_check whirlpool_T wp_c1 = true. Proof. vm_compute. reflexivity. Qed.
Lemma rcF : rc_check whirlpool_final wp_rc = true. Proof. vm_compute. reflexivity. Qed.
Lemma rc0 : rc_check whirlpool_0 wp_rc0 = true. Proof. vm_compute. reflexivity. Qed.
Lemma rcT : rc_check whirlpool_T wp_rc1 = true. Proof. vm_compute. reflexivity. Qed.

(** C105: New (Whirlpool), New0 (Whirlpool-0) and New1 (Whirlpool-T): for every history of Write, Sum and Reset each
    digest answers as the ideal hash. *)
Theorem C105_whirlpool_histories : forall ops, Forall op_bytes ops -> (ops_total ops < 2 ^ 61)%N ->
  run whirlpool_impl wp_reset ops = ideal_run (wh_hash whirlpool_final) [] ops /\
  run whirlpool0_impl wp_reset ops = ideal_run (wh_hash whirlpool_0) [] ops /\
  run whirlpool1_impl wp_reset ops = ideal_run (wh_hash whirlpool_T) [] ops.
Proof.
  intros ops HF HB. split; [|split].
  - exact (history whirlpool_final wp_c wp_rc (tab_check_ok _ _ tabF) (rc_check_ok _ _ rcF) ops HF HB).
  - exact (history whirlpool_0 wp_c0 wp_rc0 (tab_check_ok _ _ tab0) (rc_check_ok _ _ rc0) ops HF HB).
  - exact (history whirlpool_T wp_c1 wp_rc1 (tab_check_ok _ _ tabT) (rc_check_ok _ _ rcT) ops HF HB).
Qed.
Theorem C105_whirlpool_oneshot : forall data, isbytes data -> (N.of_nat (length data) < 2 ^ 61)%N ->
  whirlpool_Sum data = wh_hash whirlpool_final data /\ whirlpool_Sum0 data = wh_hash whirlpool_0 data /\ whirlpool_Sum1 data = wh_hash whirlpool_T data.
Proof.
  intros data HF HB. split; [|split].
  - exact (oneshot whirlpool_final wp_c wp_rc (tab_check_ok _ _ tabF) (rc_check_ok _ _ rcF) data HF HB).
  - exact (oneshot whirlpool_0 wp_c0 wp_rc0 (tab_check_ok _ _ tab0) (rc_check_ok _ _ rc0) data HF HB).
  - exact (oneshot whirlpool_T wp_c1 wp_rc1 (tab_check_ok _ _ tabT) (rc_check_ok _ _ rcT) data HF HB).
Qed.
(** The specification gives the published digest of "abc", and the code the same after two writes, a Sum and a Reset. *)
Transparent wp_row wp_round wh_rho wh_rc wp_transform wh_f.
Example whirlpool_abc : be_val (wh_hash whirlpool_final [97; 98; 99]%N) =
  0x4E2448A4C6F486BB16B6562C73B4020BF3043E3A731BCE721AE1B303D97E6D4C7181EEBDB6C57E277D0E34957114CBD6C797FC9D95D8B582D225292076D4EEF5%N.
Proof. vm_compute. reflexivity. Qed.
Example whirlpool_hyps : let ops := [Write [1]; Sum [9]; Reset; Write [97]; Write [98; 99]; Sum []]%N in
  Forall op_bytes ops /\ (ops_total ops < 2 ^ 61)%N /\ nth_error (run whirlpool_impl wp_reset ops) 4 = Some (Summed (wh_hash whirlpool_final [97; 98; 99]%N)).
Proof. cbv zeta. split; [repeat constructor|split; [reflexivity|vm_compute; reflexivity]]. Qed.
Print Assumptions C105_whirlpool_histories.
Print Assumptions C105_whirlpool_oneshot.
