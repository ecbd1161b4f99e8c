(** LyraR.v -- Lyra2: the input, the squeeze and the whole function. *)
From Coq Require Import List NArith ZArith Arith Bool Lia.
Require Import Verif.Base Verif.Words Verif.Bytes Verif.SpecLyra Verif.Lyra Verif.LyraP Verif.LyraQ.
Import ListNotations.

(** ** After the absorption *)
Definition tail_ (R C : nat) (T : N) (k mem st : list N) : outcome (list N) :=
  let len := 12 * C in
  let s := lm_row1 0 len C (lm_row0 0 C (st, mem)) in
  let x := lm_setup R C s in
  obind (lm_passes (N.to_nat T) 1 R C (su_s x, su_prev x, su_rowa x, 0%Z)) (fun '(s, _, rowa, _) =>
  Ok (lm_squeeze (lm_absorb 12 (snd s) (N.to_nat rowa * len) (fst s)) k)).

Section Run.
Variable R C : nat.
Hypothesis HR : 2 <= R.
Hypothesis HR2 : (N.of_nat R < 4611686018427387904)%N.
Hypothesis HC : 1 <= C.
Lemma setup_all : forall s t, rel R C (done C 2 0) s t ->
  let x := lm_setup R C s in
  xrel R C (su_s x, su_prev x, su_rowa x) (ly_setup R C t, R - 1, ly_revisit R).
Proof.
  intros s t H. cbv zeta. unfold lm_setup. rewrite setup_at by lia. replace (2 + (R - 2)) with R by lia. unfold su_at. cbv zeta. cbn [su_s su_prev su_rowa]. unfold ly_setup.
  pose proof (revisit_lt R HR). unfold xrel. split; [|repeat split; lia].
  assert (G : forall n, n <= R - 2 -> rel R C (done C (2 + n) 0)
    (fold_left (fun s r => lm_setupRow ((r - 1) * (12 * C)) (ly_revisit r * (12 * C)) (r * (12 * C)) C s) (seq 2 n) s)
    (fold_left (fun s row => ly_setup_row C (row - 1) (ly_revisit row) row s) (seq 2 n) t)).
  { induction n as [|n IH]; intro Hn; [exact H|]. rewrite seq_S, !fold_left_app. cbn [fold_left].
    eapply rel_sub; [|apply setup_rel; [lia| |lia|apply IH; lia]].
    - intros i Hi Q. unfold done in *. nia.
    - apply revisit_lt. lia. }
  eapply rel_sub; [|apply (G (R - 2)); lia]. intros i Hi _. unfold done. left. nia.
Qed.
Lemma before_wander : forall st mem M, length st = 16 -> length mem = 12 * (R * C) -> length M = R * C ->
  let x := lm_setup R C (lm_row1 0 (12 * C) C (lm_row0 0 C (st, mem))) in
  xrel R C (su_s x, su_prev x, su_rowa x) (ly_setup R C (let '(st, M) := ly_row0 C st M in ly_row1 C st M), R - 1, ly_revisit R).
Proof.
  intros st mem M L1 L2 L3. cbv zeta. apply setup_all.
  assert (H0 : rel R C (done C 0 0) (st, mem) (st, M)) by (unfold rel; cbn [fst snd]; repeat split; auto; intros i Hi Q; unfold done in Q; lia).
  pose proof (row0_rel R C _ _ ltac:(lia) H0) as H1. cbn [fst snd] in H1. destruct (ly_row0 C st M) as [st1 M1].
  assert (H1' : rel R C (done C 1 0) (lm_row0 0 C (st, mem)) (st1, M1)) by (eapply rel_sub; [|exact H1]; intros i Hi Q; unfold done in *; lia).
  pose proof (row1_rel R C _ _ ltac:(lia) H1') as H2. cbn [fst snd] in H2. eapply rel_sub; [|exact H2]. intros i Hi Q. unfold done in *. lia.
Qed.
End Run.

(** ** The squeeze *)
Lemma tmp_ok : forall st, length st = 16 -> lm_tmp st = concat (map (le_bytes 8) (ly_rate st)).
Proof. intros st H. destruct (list16' st H) as (a&b&c&d&e&f&g&h&i&j&k&m&n&o&p&q&->). reflexivity. Qed.
Lemma rate_bytes : forall st, length st = 16 -> length (concat (map (le_bytes 8) (ly_rate st))) = 96.
Proof. intros st H. destruct (list16' st H) as (a&b&c&d&e&f&g&h&i&j&k&m&n&o&p&q&->). reflexivity. Qed.
Lemma iter_full_length : forall n v, length (Nat.iter n ly_full v) = length v.
Proof. induction n as [|n IH]; intro v; [reflexivity|]. change (Nat.iter (S n) ly_full v) with (ly_full (Nat.iter n ly_full v)). now rewrite full_length. Qed.
Definition sqb (st : list N) (i : nat) : list N := concat (map (le_bytes 8) (ly_rate (Nat.iter i ly_full st))).
Lemma sqb_cat : forall st n, length st = 16 -> length (concat (map (sqb st) (seq 0 n))) = 96 * n.
Proof.
  intros st n H. induction n as [|n IH]; [reflexivity|]. rewrite seq_S, map_app, concat_app, app_length, IH. cbn [map concat Nat.add]. rewrite app_nil_r. unfold sqb. rewrite rate_bytes by (now rewrite iter_full_length). lia.
Qed.
Lemma squeeze_steps : forall st out n, length st = 16 -> n <= length out / 96 + 1 ->
  fold_left (fun s j => (lm_full (fst s), copy_at (snd s) (j * 96) (lm_tmp (fst s)))) (seq 0 n) (st, out) =
  (Nat.iter n ly_full st, firstn (length out) (concat (map (sqb st) (seq 0 n))) ++ skipn (96 * n) out).
Proof.
  intros st out n L. pose proof (Nat.mul_div_le (length out) 96 ltac:(lia)) as MD. induction n as [|n IH]; intro Hn; [cbn; now rewrite firstn_nil|].
  rewrite !seq_S, fold_left_app, IH by lia. cbn [fold_left fst snd Nat.add]. rewrite full_ok. f_equal.
  rewrite tmp_ok by (now rewrite iter_full_length). fold (sqb st n). rewrite map_app, concat_app. cbn [map concat]. rewrite app_nil_r.
  pose proof (sqb_cat st n L) as Lc. set (cat := concat (map (sqb st) (seq 0 n))) in *.
  assert (Lb : length (sqb st n) = 96) by (unfold sqb; apply rate_bytes; now rewrite iter_full_length). set (b := sqb st n) in *. clearbody cat b.
  assert (Hl : 96 * n <= length out) by nia. rewrite (firstn_all2 (n := length out) cat) by lia.
  unfold copy_at. rewrite app_length, skipn_length, Lc. replace (96 * n + (length out - 96 * n) - n * 96) with (length out - 96 * n) by lia. rewrite Lb.
  replace (n * 96) with (length cat + 0) at 1 by lia. rewrite firstn_app_2. cbn [firstn]. rewrite app_nil_r.
  rewrite (firstn_app (length out) cat b), (firstn_all2 (n := length out) cat) by lia. rewrite Lc. rewrite <- app_assoc. f_equal. f_equal.
  rewrite skipn_app, (skipn_all2 cat) by lia. cbn [app]. rewrite skipn_skipn. rewrite Lc.
  destruct (Nat.le_gt_cases 96 (length out - 96 * n)) as [Q|Q].
  - rewrite Nat.min_r by lia. f_equal. lia.
  - rewrite Nat.min_l by lia. rewrite !skipn_all2 by lia. reflexivity.
Qed.
Lemma squeeze_ok : forall st out, length st = 16 -> lm_squeeze st out = ly_squeeze (length out) st.
Proof.
  intros st out L. unfold lm_squeeze. rewrite squeeze_steps by (auto; lia). cbn [snd]. rewrite (skipn_all2 out) by (pose proof (Nat.div_mod (length out) 96 ltac:(lia)); pose proof (Nat.mod_upper_bound (length out) 96 ltac:(lia)); lia).
  rewrite app_nil_r. reflexivity.
Qed.

(** ** Everything after the absorption *)
Theorem tail_ok : forall R C k mem st T, 2 <= R -> (N.of_nat R < 4611686018427387904)%N -> 1 <= C -> (T <= 1)%N -> length st = 16 -> length mem = 12 * (R * C) ->
  tail_ R C T k mem st = Ok (ly_run R C (length k) (N.to_nat T) st).
Proof.
  intros R C k mem st T HR HR2 HC HT Ls Lm. unfold tail_, ly_run. cbv zeta.
  pose proof (before_wander R C HR HR2 HC st mem (repeat (zeros 12) (R * C)) Ls Lm (repeat_length _ _)) as X. cbv zeta in X.
  set (x := lm_setup _ _ _) in *. set (y := ly_setup _ _ _) in *. clearbody x y.
  assert (P : exists x' , lm_passes (N.to_nat T) 1 R C (su_s x, su_prev x, su_rowa x, 0%Z) = Ok (x', 0%Z) /\ xrel R C x' (ly_passes R C (N.to_nat T) (y, R - 1, ly_revisit R))).
  { assert (Q : (T = 0 \/ T = 1)%N) by lia. destruct Q as [Q|Q]; subst T.
    - eexists. split; [reflexivity|]. exact X.
    - apply (pass1_rel R C HR). exact X. }
  destruct P as (x' & E & X'). rewrite E. cbn [obind]. destruct x' as [[s1 p1] r1]. destruct (ly_passes R C (N.to_nat T) (y, R - 1, ly_revisit R)) as [[t2 p2] r2].
  destruct X' as ((A & B & D & F & G) & _ & _ & -> & H). f_equal. rewrite Nat2N.id. unfold lm_absorb. rewrite full_ok, A, xin_ok by lia.
  replace (map (fun i => at_ (snd s1) (r2 * (12 * C) + i)) (seq 0 12)) with (blk (snd s1) (r2 * C + 0)) by (unfold blk; apply map_ext; intro; f_equal; lia).
  unfold ly_get. rewrite <- G by (try nia; exact I). apply squeeze_ok. rewrite full_length, inject_length; [exact B|]. rewrite G by (try nia; exact I). unfold blk. rewrite map_length, seq_length. lia.
Qed.
Theorem tail_panic : forall R C k mem st T, 2 <= R -> (N.of_nat R < 4611686018427387904)%N -> 1 <= C -> (2 <= T)%N -> length st = 16 -> length mem = 12 * (R * C) ->
  tail_ R C T k mem st = Panic.
Proof.
  intros R C k mem st T HR HR2 HC HT Ls Lm. unfold tail_. cbv zeta.
  pose proof (before_wander R C HR HR2 HC st mem (repeat (zeros 12) (R * C)) Ls Lm (repeat_length _ _)) as X. cbv zeta in X.
  rewrite (passes_panic R C HR (N.to_nat T) _ _ ltac:(lia) X). reflexivity.
Qed.

(** ** The input *)
Lemma wrs_ok : forall vs i mem, i + length vs <= length mem -> lm_wrs i vs mem = Ok (firstn i mem ++ vs ++ skipn (i + length vs) mem).
Proof.
  induction vs as [|v vs IH]; intros i mem H; cbn [lm_wrs length] in *.
  - rewrite Nat.add_0_r. cbn [app]. now rewrite firstn_skipn.
  - unfold lm_wr. destruct (Nat.ltb_spec i (length mem)); [|lia]. cbn [obind]. rewrite IH by (rewrite upd_length; lia). f_equal.
    rewrite upd_split by lia. rewrite firstn_app, firstn_length, Nat.min_l by lia. replace (S i - i) with 1 by lia. rewrite firstn_firstn, Nat.min_r by lia. cbn [firstn]. rewrite <- app_assoc. cbn [app]. f_equal. f_equal. f_equal.
    rewrite skipn_app, firstn_length, Nat.min_l by lia. rewrite skipn_all2 by (rewrite firstn_length; lia). cbn [app]. replace (S i + length vs - i) with (S (length vs)) by lia. rewrite skipn_cons, skipn_skipn. f_equal. lia.
Qed.
Lemma wrs_len : forall vs i mem, (exists m, lm_wrs i vs mem = Ok m /\ length m = length mem) \/ lm_wrs i vs mem = Panic.
Proof.
  induction vs as [|v vs IH]; intros i mem; cbn [lm_wrs]; [left; eauto|]. unfold lm_wr. destruct (i <? length mem); [|now right]. cbn [obind].
  destruct (IH (S i) (upd mem i v)) as [(m & E & L)|E]; [left; exists m; rewrite E, L, upd_length; auto|now right].
Qed.
Lemma wrs_over : forall vs i mem, vs <> [] -> length mem < i + length vs -> lm_wrs i vs mem = Panic.
Proof.
  induction vs as [|v vs IH]; intros i mem N H; [congruence|]. cbn [lm_wrs]. unfold lm_wr. destruct (Nat.ltb_spec i (length mem)); [|reflexivity]. cbn [obind].
  destruct vs as [|w vs]; [cbn [length] in H; lia|]. apply IH; [discriminate|]. rewrite upd_length. cbn [length] in *. lia.
Qed.
Definition lhead (klen : nat) (pwd salt : list N) (T : N) (R C : nat) : list N :=
  lm_load pwd ++ lm_load salt ++ [w64 (N.of_nat klen); w64 (N.of_nat (length pwd)); w64 (N.of_nat (length salt)); T; w64 (N.of_nat R); w64 (N.of_nat C); 0x80%N].
Definition limg (n : nat) (klen : nat) (pwd salt : list N) (T : N) (R C : nat) : list N :=
  let m := lhead klen pwd salt T R C ++ zeros (n - length (lhead klen pwd salt T R C)) in
  let q := lm_nBlocks pwd salt * 8 - 1 in upd m q (N.lxor (at_ m q) 0x0100000000000000).
Lemma load_length : forall b, length (lm_load b) = length b / 8.
Proof. intro b. unfold lm_load. now rewrite map_length, seq_length. Qed.
Lemma nB_div : forall pwd salt, (lm_nBlocks pwd salt * 64) / 8 = lm_nBlocks pwd salt * 8.
Proof. intros. replace (lm_nBlocks pwd salt * 64) with (lm_nBlocks pwd salt * 8 * 8) by lia. apply Nat.div_mul. lia. Qed.
Lemma nB_big : forall pwd salt, length pwd / 8 + length salt / 8 + 7 <= lm_nBlocks pwd salt * 8.
Proof.
  intros. unfold lm_nBlocks. pose proof (Nat.mul_div_le (length pwd) 8 ltac:(lia)). pose proof (Nat.mul_div_le (length salt) 8 ltac:(lia)).
  set (L := length salt + length pwd + 6 * 8). pose proof (Nat.div_mod L 64 ltac:(lia)). pose proof (Nat.mod_upper_bound L 64 ltac:(lia)). unfold L in *. lia.
Qed.
Lemma input_ok : forall n klen pwd salt T R C, lm_nBlocks pwd salt * 8 <= n -> lm_input klen pwd salt T R C (zeros n) = Ok (limg n klen pwd salt T R C).
Proof.
  intros n klen pwd salt T R C H. pose proof (nB_big pwd salt) as NB. pose proof (load_length pwd) as L1. pose proof (load_length salt) as L2.
  unfold lm_input, limg. cbv zeta. rewrite nB_div. unfold lhead. set (tl := [w64 (N.of_nat klen); _; _; _; _; _; _]). assert (L3 : length tl = 7) by reflexivity. clearbody tl.
  set (a := lm_load pwd) in *. set (b := lm_load salt) in *. rewrite <- L1, <- L2 in *. clearbody a b.
  assert (Lz : forall n, length (zeros n) = n) by (intro; apply repeat_length).
  assert (S : forall i k, skipn i (zeros k) = zeros (k - i)). { intros i k. revert i. induction k as [|k IH]; intros [|i]; try reflexivity. cbn [zeros repeat skipn]. apply IH. }
  rewrite wrs_ok by (rewrite Lz; lia). cbn [obind firstn app Nat.add]. rewrite S.
  rewrite wrs_ok by (rewrite app_length, Lz; lia). cbn [obind].
  rewrite firstn_app, Nat.sub_diag, firstn_all, skipn_app. cbn [firstn]. rewrite app_nil_r. rewrite (skipn_all2 a) by lia. replace (length a + length b - length a) with (length b) by lia. rewrite S. cbn [app].
  rewrite wrs_ok by (rewrite !app_length, Lz; lia). cbn [obind].
  rewrite (app_assoc a b). assert (Lab : length (a ++ b) = length a + length b) by apply app_length.
  rewrite <- Lab. rewrite firstn_app, Nat.sub_diag, firstn_all. cbn [firstn]. rewrite app_nil_r.
  rewrite skipn_app, (skipn_all2 (a ++ b)) by lia. replace (length (a ++ b) + length tl - length (a ++ b)) with (length tl) by lia. rewrite S. cbn [app].
  match goal with |- context [if ?i <? ?l then _ else _] => destruct (Nat.ltb_spec i l) as [Q|Q] end.
  2:{ rewrite !app_length, Lz in Q. lia. }
  f_equal. rewrite !app_length. replace (n - length a - length b - length tl) with (n - (length a + (length b + length tl))) by lia. rewrite <- !app_assoc. reflexivity.
Qed.
Lemma input_over : forall n klen pwd salt T R C, n < lm_nBlocks pwd salt * 8 -> lm_input klen pwd salt T R C (zeros n) = Panic.
Proof.
  intros n klen pwd salt T R C H. unfold lm_input. cbv zeta. rewrite nB_div.
  destruct (wrs_len (lm_load pwd) 0 (zeros n)) as [(m1 & E & L1)|E]; rewrite E; [|reflexivity]. cbn [obind].
  destruct (wrs_len (lm_load salt) (length pwd / 8) m1) as [(m2 & E2 & L2)|E2]; rewrite E2; [|reflexivity]. cbn [obind].
  match goal with |- obind (lm_wrs ?i ?v m2) _ = _ => destruct (wrs_len v i m2) as [(m3 & E3 & L3)|E3]; rewrite E3; [|reflexivity] end. cbn [obind].
  assert (Lz : length (zeros n) = n) by apply repeat_length. destruct (Nat.ltb_spec (lm_nBlocks pwd salt * 8 - 1) (length m3)); [lia|reflexivity].
Qed.
Lemma limg_length : forall n klen pwd salt T R C, lm_nBlocks pwd salt * 8 <= n -> length (limg n klen pwd salt T R C) = n.
Proof.
  intros n klen pwd salt T R C H. pose proof (nB_big pwd salt) as NB. unfold limg. cbv zeta. rewrite upd_length, app_length. assert (length (lhead klen pwd salt T R C) <= n).
  { unfold lhead. rewrite !app_length, !load_length. cbn [length]. lia. }
  unfold zeros. rewrite repeat_length. lia.
Qed.

(** ** The absorption of the input *)
Lemma boot_ok : forall stride n mem st, length st = 16 -> (n = 0 \/ (n - 1) * stride + 8 <= length mem) ->
  lm_boot stride n mem (st) = Ok (ly_absorb st (map (fun i => firstn 8 (skipn (i * stride) mem)) (seq 0 n))) /\ length (ly_absorb st (map (fun i => firstn 8 (skipn (i * stride) mem)) (seq 0 n))) = 16.
Proof.
  intros stride n mem st L. unfold lm_boot, ly_absorb. induction n as [|n IH]; intro H; [split; [reflexivity|exact L]|].
  rewrite seq_S, fold_left_app, map_app, fold_left_app. destruct IH as [IH IL]; [destruct n; [now left|right; nia]|]. rewrite IH. cbn [fold_left map obind Nat.add].
  set (st1 := fold_left _ (map _ (seq 0 n)) st) in *. clearbody st1. destruct H as [H|H]; [lia|]. replace (S n - 1) with n in H by lia.
  destruct (Nat.leb_spec (n * stride + 8) (length mem)); [|lia].
  assert (E : map (fun i => at_ mem (n * stride + i)) (seq 0 8) = firstn 8 (skipn (n * stride) mem)).
  { rewrite <- at_seq_firstn by (rewrite skipn_length; lia). apply map_ext_in. intros j _. unfold at_. generalize (n * stride). clear. revert j. induction mem as [|m mem IH]; intros j [|k]; try reflexivity; [now destruct j|]. cbn [skipn Nat.add nth]. apply IH. }
  unfold lm_absorb. rewrite full_ok, xin_ok by lia. rewrite E. split; [reflexivity|]. rewrite full_length, inject_length; [exact IL|]. rewrite firstn_length. lia.
Qed.
Lemma boot_panic : forall stride n mem st, length st = 16 -> 1 <= n -> length mem < (n - 1) * stride + 8 -> lm_boot stride n mem st = Panic.
Proof.
  intros stride n mem st L Hn H. unfold lm_boot. destruct n as [|n]; [lia|]. rewrite seq_S, fold_left_app. cbn [fold_left Nat.add]. replace (S n - 1) with n in H by lia.
  set (o := fold_left _ (seq 0 n) (Ok st)). destruct o as [a| |] eqn:E; cbn [obind]; [|reflexivity|].
  - destruct (Nat.leb_spec (n * stride + 8) (length mem)); [lia|reflexivity].
  - exfalso. assert (G : forall l o, o <> Fuel -> fold_left (fun st i => obind st (fun st => if i * stride + 8 <=? length mem then Ok (lm_absorb 8 mem (i * stride) st) else Panic)) l o <> Fuel).
    { induction l as [|i l IH]; intros o' Ho; [exact Ho|]. cbn [fold_left]. apply IH. destruct o'; cbn [obind]; [destruct (_ <=? _)| |]; congruence. }
    apply (G (seq 0 n) (Ok st)); [discriminate|]. exact E.
Qed.
