(** PropFsb.v -- C115, C116: the fsb package. *)
From Coq Require Import List NArith Arith Lia Bool.
Require Import Verif.Base Verif.Words Verif.HashAPI Verif.Buf Verif.Bytes Verif.Refine Verif.JhP3 Verif.SpecWhirl Verif.Whirl Verif.PropWhirl Verif.SpecFsb Verif.Fsb Verif.FsbP.
Import ListNotations.
Local Open Scope nat_scope.

Section Dig.
Variable P : fsb_par.
Variable Pi : list N.
Variable nb : nat.
Hypothesis Hnb : 9 <= nb.
Hypothesis Hsz : fm_inputsize P = 8 * nb.
Hypothesis Hbig : (8 * N.of_nat nb < 2 ^ 20)%N.
Let f := fm_performHash P Pi.
Definition s0 : list N := zeros (fm_LUI (f_r P) * 4).
Definition rel (d : fmd) (m : list N) : Prop :=
  fm_syn d = fold_left f (chunks nb m) s0 /\ fm_count d = (8 * N.of_nat (length (rest nb m)))%N /\
  buf_ok nb nb (fm_buf d) (length (rest nb m)) m /\ fm_len d = w64 (8 * N.of_nat (length m)).
Lemma rel_reset : rel (fm_reset P) [].
Proof.
  unfold rel, fm_reset. cbn [fm_syn fm_count fm_buf fm_len]. assert (E8 : fm_inputsize P / 8 = nb) by (rewrite Hsz, Nat.mul_comm, Nat.div_mul; lia). rewrite E8.
  rewrite chunks_short, rest_short by (cbn [length]; lia). split; [reflexivity|]. split; [reflexivity|]. split; [apply (buf_ok_nil nb nb (zeros nb)); [lia|apply zeros_length]|reflexivity].
Qed.
Lemma w64_add : forall a b, w64 (w64 a + b) = w64 (a + b).
Proof. intros. rewrite !w64_mod. apply N.add_mod_idemp_l. discriminate. Qed.
Lemma w32_small : forall a, (a < 4294967296)%N -> w32 a = a.
Proof. intros. rewrite w32_mod. now apply N.mod_small. Qed.
Lemma copy_prefix : forall (x c : list N) n, n + length c <= length x -> firstn (n + length c) (copy_at x n c) = firstn n x ++ c.
Proof.
  intros x c n L. unfold copy_at. rewrite app_assoc. rewrite (firstn_all2 c) by lia. apply firstn_app_len. rewrite app_length, firstn_length. lia.
Qed.
(** the bytes-only path of write *)
Lemma bits_ok : forall fuel d data k m, rel d m -> k <= length data -> length data < fuel -> (8 * N.of_nat (k + nb) < 4294967296)%N ->
  exists d', fm_writebits P Pi fuel d data (8 * N.of_nat k) = Some d' /\ rel d' (m ++ firstn k data).
Proof.
  induction fuel as [|fuel IH]; intros d data k m HR Hk Hf Hb; [lia|].
  destruct HR as (ES & EC & EB & EL). cbn [fm_writebits]. rewrite EC, Hsz.
  pose proof (buf_ok_nx_lt nb nb _ _ _ ltac:(lia) EB) as Hnx. set (nx := length (rest nb m)) in *.
  replace (8 * N.of_nat nx mod 8)%N with 0%N by (rewrite N.mul_comm; symmetry; apply N.mod_mul; lia). cbn [N.eqb negb].
  rewrite w32_small by lia. replace (N.to_nat (8 * N.of_nat nx / 8)) with nx by (rewrite N.mul_comm, N.div_mul by lia; lia).
  destruct EB as (Lx & _ & Ex).
  destruct (N.ltb_spec (8 * N.of_nat k + 8 * N.of_nat nx) (N.of_nat (8 * nb))) as [H|H].
  - destruct (N.eqb_spec (8 * N.of_nat k) 0) as [E0|N0].
    + exists d. split; [reflexivity|]. assert (k = 0) as -> by lia. cbn [firstn]. rewrite app_nil_r. unfold rel. fold nx. split; [exact ES|]. split; [exact EC|]. split; [|exact EL]. split; [exact Lx|]. split; [reflexivity|exact Ex].
    + replace (N.to_nat ((8 * N.of_nat k - 1) / 8 + 1)) with k.
      2: { replace (8 * N.of_nat k - 1)%N with (7 + (N.of_nat k - 1) * 8)%N by lia. rewrite N.div_add by lia. change (7 / 8)%N with 0%N. lia. }
      destruct (Nat.ltb_spec (length data) k); [lia|]. eexists. split; [reflexivity|].
      assert (Lk : length (firstn k data) = k) by (rewrite firstn_length; lia).
      assert (ER : rest nb (m ++ firstn k data) = rest nb m ++ firstn k data).
      { rewrite rest_app by lia. rewrite rest_short; [reflexivity|]. rewrite app_length, Lk. fold nx. lia. }
      unfold rel. cbn [fm_syn fm_count fm_buf fm_len]. rewrite ER. rewrite app_length, Lk. fold nx.
      split; [|split; [|split]].
      * rewrite absorb_short by (rewrite ?Lk; fold nx; lia). exact ES.
      * rewrite w32_small by lia. lia.
      * split; [|split].
        -- rewrite copy_at_length by lia. exact Lx.
        -- rewrite ER, app_length, Lk. reflexivity.
        -- rewrite ER. rewrite <- Lk at 1. rewrite copy_prefix by lia. now rewrite Ex.
      * rewrite EL, w64_add. f_equal. rewrite app_length. lia.
  - replace (N.to_nat ((N.of_nat (8 * nb) - 8 * N.of_nat nx) / 8)) with (nb - nx).
    2: { replace (N.of_nat (8 * nb) - 8 * N.of_nat nx)%N with (N.of_nat (nb - nx) * 8)%N by lia. rewrite N.div_mul by lia. lia. }
    destruct (Nat.ltb_spec (length data) (nb - nx)); [lia|].
    set (c := firstn (nb - nx) data). assert (Lc : length c = nb - nx) by (unfold c; rewrite firstn_length; lia).
    assert (EBf : copy_at (fm_buf d) nx c = rest nb m ++ c).
    { rewrite <- Ex. rewrite copy_at_full by lia. f_equal. rewrite firstn_all2 by lia. reflexivity. }
    rewrite EBf.
    assert (Lrc : length (rest nb m ++ c) = nb) by (rewrite app_length, Lc; fold nx; lia).
    assert (ER : rest nb (m ++ c) = []) by (rewrite rest_app by lia; apply rest_one; lia || exact Lrc).
    assert (HR' : rel (mkfm (f (fm_syn d) (rest nb m ++ c)) (rest nb m ++ c) 0 (w64 (fm_len d + (N.of_nat (8 * nb) - 8 * N.of_nat nx)))) (m ++ c)).
    { unfold rel. cbn [fm_syn fm_count fm_buf fm_len]. rewrite ER. cbn [length]. split; [|split; [|split]].
      - rewrite absorb_snoc by (rewrite ?Lc; fold nx; lia). now rewrite ES.
      - reflexivity.
      - split; [exact Lrc|]. rewrite ER. split; reflexivity.
      - rewrite EL, w64_add. f_equal. rewrite app_length, Lc. lia. }
    replace (sub32 (8 * N.of_nat k) (N.of_nat (8 * nb) - 8 * N.of_nat nx)) with (8 * N.of_nat (k - (nb - nx)))%N.
    2: { unfold sub32. rewrite w32_mod. replace (8 * N.of_nat k + 4294967296 - (N.of_nat (8 * nb) - 8 * N.of_nat nx))%N with (8 * N.of_nat (k - (nb - nx)) + 1 * 4294967296)%N by lia.
         change (2 ^ 32)%N with 4294967296%N. rewrite N.mod_add by lia. symmetry. apply N.mod_small. lia. }
    destruct (IH _ (skipn (nb - nx) data) (k - (nb - nx)) (m ++ c) HR') as (d' & E' & R').
    + rewrite skipn_length. lia.
    + rewrite skipn_length. lia.
    + lia.
    + exists d'. split; [exact E'|]. replace (m ++ firstn k data) with ((m ++ c) ++ firstn (k - (nb - nx)) (skipn (nb - nx) data)); [exact R'|].
      rewrite <- app_assoc. f_equal. unfold c. replace k with ((nb - nx) + (k - (nb - nx))) at 2 by lia. clear. generalize (nb - nx) (k - (nb - nx)). intros a b. revert data. induction a as [|a IHa]; intros data; [reflexivity|].
      destruct data as [|x data]; [rewrite skipn_nil, !firstn_nil; reflexivity|]. cbn [firstn skipn app Nat.add]. now rewrite IHa.
Qed.
Lemma write_ok : forall d m q, rel d m -> (8 * N.of_nat (length q + nb) < 4294967296)%N -> exists d', fm_write P Pi d q = Some d' /\ rel d' (m ++ q).
Proof.
  intros d m q HR Hq. unfold fm_write, fm_bits. rewrite w32_small by lia.
  destruct (bits_ok (S (length q)) d q (length q) m HR (le_n _) ltac:(lia) Hq) as (d' & E & R). rewrite firstn_all in R. now exists d'.
Qed.
Lemma be8_w64 : forall a, be_bytes 8 (w64 a) = be_bytes 8 a.
Proof. intro a. unfold be_bytes. now rewrite le_bytes8_w64. Qed.
Lemma checkSum_ok : forall d m, rel d m ->
  fm_checkSum P Pi d = Some (firstn (f_hash P / 8) (whirlpool_Sum (firstn (f_r P / 8) (fold_left f (chunks nb (md_pad nb 0x80 (be_bytes 8 (8 * N.of_nat (length m))) m)) s0)))).
Proof.
  intros d m HR. pose proof HR as (ES & EC & EB & EL). unfold fm_checkSum. cbv zeta. rewrite Hsz, EC, EL.
  rewrite be8_w64.
  replace (8 * nb / 8) with nb by (rewrite Nat.mul_comm, Nat.div_mul; lia).
  pose proof (buf_ok_nx_lt nb nb _ _ _ ltac:(lia) EB) as Hnx. set (nx := length (rest nb m)) in *.
  set (len8 := be_bytes 8 (8 * N.of_nat (length m))). assert (L8 : length len8 = 8) by apply be_bytes_length.
  assert (EP : md_pad nb 0x80 len8 m = m ++ 0x80%N :: zeros (if nb - 8 <? nx + 1 then 2 * nb - (nx + 1 + 8) else nb - (nx + 1 + 8)) ++ len8).
  { unfold md_pad. rewrite L8. rewrite pad_count by lia. reflexivity. }
  rewrite EP.
  assert (Done : forall z d1, rel d1 (m ++ z) -> fm_syn d1 = fold_left f (chunks nb (m ++ z)) s0) by (intros z d1 HH; exact (proj1 HH)).
  change (fm_bits P Pi) with (fun d data bits => fm_writebits P Pi (S (length data)) d data bits). cbv beta.
  destruct (Nat.ltb_spec (nb - 8) (nx + 1)) as [H|H].
  - destruct (N.ltb_spec (N.of_nat (8 * nb)) (8 * N.of_nat nx + 65)) as [_|HH]; [|lia].
    replace (N.of_nat (8 * nb) - 8 * N.of_nat nx)%N with (8 * N.of_nat (nb - nx))%N by lia.
    set (pd := upd (zeros nb) 0 0x80%N). assert (Lp : length pd = nb) by (unfold pd; rewrite upd_length; apply zeros_length).
    destruct (bits_ok (S (length pd)) d pd (nb - nx) m HR ltac:(lia) ltac:(lia) ltac:(lia)) as (d1 & E1 & R1). rewrite E1.
    replace (N.of_nat (8 * nb)) with (8 * N.of_nat nb)%N by lia.
    set (pd2 := copy_at (upd pd 0 0%N) (nb - 8) len8). assert (Lp2 : length pd2 = nb) by (unfold pd2; rewrite copy_at_length by (rewrite upd_length; lia); now rewrite upd_length).
    destruct (bits_ok (S (length pd2)) d1 pd2 nb _ R1 ltac:(lia) ltac:(lia) ltac:(lia)) as (d2 & E2 & R2). rewrite E2.
    destruct R2 as (ES2 & _). rewrite ES2.
    match goal with |- context[chunks nb ((m ++ ?a) ++ ?b)] => assert (EQ : (m ++ a) ++ b = m ++ 0x80%N :: zeros (2 * nb - (nx + 1 + 8)) ++ len8); [|rewrite EQ; reflexivity] end.
    rewrite <- app_assoc. f_equal. rewrite (firstn_all2 pd2) by lia.
    assert (Epd : firstn (nb - nx) pd = 0x80%N :: zeros (nb - nx - 1)).
    { unfold pd. destruct nb as [|n]; [lia|]. change (zeros (S n)) with (0%N :: zeros n). cbn [upd]. replace (S n - nx) with (S (n - nx)) by lia. rewrite firstn_cons, firstn_zeros. do 2 f_equal. lia. }
    rewrite Epd. cbn [app]. f_equal.
    assert (Epd2 : pd2 = zeros (nb - 8) ++ len8).
    { unfold pd2, pd. assert (Ez : upd (upd (zeros nb) 0 128%N) 0 0%N = zeros nb) by (destruct nb as [|n]; [lia|reflexivity]). rewrite Ez.
      rewrite copy_at_full by (rewrite zeros_length; lia). rewrite firstn_zeros, zeros_length. f_equal; [f_equal; lia|]. apply firstn_all2. lia. }
    rewrite Epd2, app_assoc. f_equal. unfold zeros. rewrite <- repeat_app. f_equal. lia.
  - destruct (N.ltb_spec (N.of_nat (8 * nb)) (8 * N.of_nat nx + 65)) as [HH|_]; [lia|].
    replace (N.to_nat ((N.of_nat (8 * nb) - 8 * N.of_nat nx) / 8)) with (nb - nx).
    2: { replace (N.of_nat (8 * nb) - 8 * N.of_nat nx)%N with (N.of_nat (nb - nx) * 8)%N by lia. rewrite N.div_mul by lia. lia. }
    replace (N.of_nat (8 * nb) - 8 * N.of_nat nx - 64)%N with (8 * N.of_nat (nb - nx - 8))%N by lia.
    set (pd := upd (zeros (nb - nx + 1)) 0 0x80%N). assert (Lp : length pd = nb - nx + 1) by (unfold pd; rewrite upd_length; apply zeros_length).
    destruct (bits_ok (S (length pd)) d pd (nb - nx - 8) m HR ltac:(lia) ltac:(lia) ltac:(lia)) as (d1 & E1 & R1). rewrite E1.
    set (pd2 := copy_at pd 0 len8). assert (Lp2 : length pd2 = nb - nx + 1) by (unfold pd2; rewrite copy_at_length by lia; exact Lp).
    destruct (bits_ok (S (length pd2)) d1 pd2 8 _ R1 ltac:(lia) ltac:(lia) ltac:(lia)) as (d2 & E2 & R2). change (8 * N.of_nat 8)%N with 64%N in E2. rewrite E2.
    destruct R2 as (ES2 & _). rewrite ES2.
    match goal with |- context[chunks nb ((m ++ ?a) ++ ?b)] => assert (EQ : (m ++ a) ++ b = m ++ 0x80%N :: zeros (nb - (nx + 1 + 8)) ++ len8); [|rewrite EQ; reflexivity] end.
    rewrite <- app_assoc. f_equal.
    assert (Epd : firstn (nb - nx - 8) pd = 0x80%N :: zeros (nb - (nx + 1 + 8))).
    { unfold pd. rewrite Nat.add_1_r. change (zeros (S (nb - nx))) with (0%N :: zeros (nb - nx)). cbn [upd]. replace (nb - nx - 8) with (S (nb - (nx + 1 + 8))) by lia. rewrite firstn_cons, firstn_zeros. do 2 f_equal. lia. }
    rewrite Epd. cbn [app]. do 2 f_equal. unfold pd2.
    pose proof (copy_prefix pd len8 0 ltac:(lia)) as CP. rewrite L8 in CP. cbn [Nat.add firstn app] in CP. exact CP.
Qed.
End Dig.

(** ** The parameters *)
Definition par_ok (P : fsb_par) : bool :=
  (f_r P =? 32 * (f_r P / 32)) && (0 <? f_r P / 32) && (4 * (f_r P / 32) <=? f_p P / 8) && (0 <? f_p P mod 8) && (f_r P =? 8 * f_w P) &&
  (fm_bfiv P =? 8) && (fs_iv P =? 8) && (fm_bfm P =? fs_msg P) && ((fs_msg P =? 5) || (fs_msg P =? 6)) && (fm_bpc P =? fs_s P) && (fs_s P =? fs_msg P + 8) &&
  (fs_in P =? f_w P * fs_msg P) && (8 * (fs_in P / 8) =? fs_in P) && (9 <=? fs_in P / 8) && (fm_inputsize P =? 8 * (fs_in P / 8)) && (fs_in P <=? 2000) &&
  (f_n P =? N.of_nat (f_w P) * 2 ^ N.of_nat (fs_s P))%N && (f_n P =? N.of_nat (f_r P) * (f_n P / N.of_nat (f_r P)))%N.
Lemma params_ok : forall P, In P fsb_params -> par_ok P = true.
Proof. apply (proj1 (forallb_forall par_ok fsb_params)). vm_compute. reflexivity. Qed.

Section Top.
Variable P : fsb_par.
Hypothesis HP : In P fsb_params.
Variable Pi : list N.
Hypothesis HPi : isbytes Pi.
Let W := f_r P / 32.
Let Q := f_p P / 8.
Let nb := fs_in P / 8.
Ltac par := pose proof (params_ok P HP) as HK; unfold par_ok in HK; rewrite !andb_true_iff in HK;
  destruct HK as (((((((((((((((((K1 & K2) & K3) & K4) & K5) & K6) & K7) & K8) & K9) & K10) & K11) & K12) & K13) & K14) & K15) & K16) & K17) & K18);
  apply Nat.eqb_eq in K1, K5, K6, K7, K8, K10, K11, K12, K13, K15; apply Nat.ltb_lt in K2, K4; apply Nat.leb_le in K3, K14, K16; apply N.eqb_eq in K17, K18; apply orb_true_iff in K9; rewrite !Nat.eqb_eq in K9.
Lemma state_ok : forall bl syn x, isbytes syn -> length syn = 4 * W -> fs_bits syn = x -> Forall (fun b => length b = nb) bl ->
  length (fold_left (fm_performHash P Pi) bl syn) = 4 * W /\ isbytes (fold_left (fm_performHash P Pi) bl syn) /\
  fs_bits (fold_left (fm_performHash P Pi) bl syn) = fold_left (fun st b => fs_compress P Pi st (fs_bits b)) bl x.
Proof.
  par. induction bl as [|b bl IH]; intros syn x HS LS E HF; [split; [exact LS|split; [exact HS|exact E]]|]. inversion HF as [|? ? Lb HF']; subst.
  cbn [fold_left].
  destruct (performHash_ok P Pi HPi W Q K1 K2 eq_refl K3 K4 K5 K6 K7 K8 K9 K10 K11 K12 K13 syn b HS LS Lb) as (L' & B' & E').
  apply IH; assumption.
Qed.
Lemma digest_ok : forall m, firstn (f_hash P / 8) (whirlpool_Sum (firstn (f_r P / 8) (fold_left (fm_performHash P Pi) (chunks nb (md_pad nb 0x80 (be_bytes 8 (8 * N.of_nat (length m))) m)) (s0 P)))) = fsb P Pi m.
Proof.
  intro m. pose proof (params_ok P HP) as HK0. par. unfold fsb. cbv zeta. fold nb. unfold fs_pad. fold nb.
  set (bl := chunks nb (md_pad nb 128 (be_bytes 8 (8 * N.of_nat (length m))) m)).
  assert (ES0 : s0 P = zeros (4 * W)) by (unfold s0; rewrite (LUI_ok P W Q) by (assumption || reflexivity); rewrite Nat.mul_comm; reflexivity).
  destruct (state_ok bl (zeros (4 * W)) (repeat false (f_r P)) (zeros_isbytes _) (zeros_length _)) as (L & B & E).
  - rewrite (bits_zeros P W Q) by (assumption || reflexivity). f_equal. unfold W. lia.
  - apply chunks_all_length. unfold nb. lia.
  - rewrite <- E, <- ES0 in *. assert (E8 : f_r P / 8 = 4 * W) by (unfold W; rewrite K1 at 1; replace (32 * (f_r P / 32)) with (4 * (f_r P / 32) * 8) by lia; now rewrite Nat.div_mul).
    rewrite E8. set (st := fold_left (fm_performHash P Pi) bl (s0 P)) in *. rewrite (firstn_all2 st) by lia.
    change (fs_bytes (fs_bits st)) with (SpecJh.bytes_of_bits (SpecJh.bits_of_bytes st)). rewrite bytes_bits by exact B.
    destruct (C105_whirlpool_oneshot st B) as [EW _]; [|now rewrite EW].
    rewrite L. unfold W. assert (f_r P <= 3200). { rewrite K5. destruct K9 as [K9|K9]; rewrite K9 in K12; lia. } 
    pose proof (Nat.div_le_upper_bound (f_r P) 32 (f_r P) ltac:(lia) ltac:(lia)). change (2 ^ 61)%N with 2305843009213693952%N. lia.
Qed.
(** one Write is within the limit of the uint32 bit count *)
Definition write_fits (o : op) : Prop := match o with Write q => (8 * N.of_nat (length q) + N.of_nat (fs_in P) < 2 ^ 32)%N | _ => True end.
Lemma run_ok : forall ops d m, rel P Pi nb d m -> Forall write_fits ops -> fm_run P Pi d ops = Some (ideal_run (fsb P Pi) m ops).
Proof.
  par. assert (Hb : (8 * N.of_nat nb < 2 ^ 20)%N) by (unfold nb; change (2 ^ 20)%N with 1048576%N; lia).
  induction ops as [|o ops IH]; intros d m HR HF; [reflexivity|]. inversion HF as [|? ? Ho HF']; subst. destruct o as [q|i|]; cbn [fm_run ideal_run].
  - destruct (write_ok P Pi nb K14 K15 Hb d m q HR) as (d' & E & R').
    { unfold write_fits in Ho. change (2 ^ 32)%N with 4294967296%N in Ho. unfold nb. lia. }
    rewrite E. rewrite (IH d' (m ++ q) R' HF'). reflexivity.
  - rewrite (checkSum_ok P Pi nb K14 K15 Hb d m HR). rewrite digest_ok. rewrite (IH d m HR HF'). reflexivity.
  - rewrite (IH (fm_reset P) []); [reflexivity| |exact HF']. apply rel_reset; assumption.
Qed.
End Top.

(** C115: for each of the six parameter sets, whatever the table, every history of calls returns what FSB returns; no call panics. *)
Theorem C115_fsb_history : forall P, In P fsb_params -> forall Pi, isbytes Pi -> forall ops, Forall (write_fits P) ops ->
  fm_run P Pi (fm_reset P) ops = Some (ideal_run (fsb P Pi) [] ops).
Proof.
  intros P HP Pi HPi ops HF. apply run_ok; try assumption. pose proof (params_ok P HP) as HK. unfold par_ok in HK. rewrite !andb_true_iff in HK.
  destruct HK as (((((((((((((((((K1 & K2) & K3) & K4) & K5) & K6) & K7) & K8) & K9) & K10) & K11) & K12) & K13) & K14) & K15) & K16) & K17) & K18).
  apply Nat.leb_le in K14, K16. apply Nat.eqb_eq in K15. apply rel_reset; [exact K14|exact K15|]. change (2 ^ 20)%N with 1048576%N. apply Nat.eqb_eq in K13. lia.
Qed.
Theorem C115_fsb_oneshot : forall P, In P fsb_params -> forall Pi, isbytes Pi -> forall data, (8 * N.of_nat (length data) + N.of_nat (fs_in P) < 2 ^ 32)%N ->
  fm_Sum P Pi data = Some (fsb P Pi data).
Proof.
  intros P HP Pi HPi data HD.
  assert (H : fm_run P Pi (fm_reset P) [Write data; Sum []] = Some (ideal_run (fsb P Pi) [] [Write data; Sum []])).
  { apply C115_fsb_history; try assumption. constructor; [exact HD|]. constructor; [exact I|constructor]. }
  cbn [fm_run ideal_run] in H. unfold fm_Sum. destruct (fm_write P Pi (fm_reset P) data) as [d|]; [|discriminate].
  destruct (fm_checkSum P Pi d) as [h|]; cbn [option_map app] in H; [|discriminate]. congruence.
Qed.
(** the column used is always one of the n columns of the matrix (firstLine has n / r entries, so its index is in range) *)
Theorem C115_fsb_column_in_range : forall P, In P fsb_params -> forall syn buf i, isbytes syn -> length syn = f_r P / 8 -> length buf = fs_in P / 8 -> i < f_w P ->
  (fm_index P syn buf i < f_n P /\ fm_index P syn buf i / N.of_nat (f_r P) < f_n P / N.of_nat (f_r P))%N.
Proof.
  intros P HP syn buf i HS LS LB Hi. pose proof (params_ok P HP) as HK. unfold par_ok in HK. rewrite !andb_true_iff in HK.
  destruct HK as (((((((((((((((((K1 & K2) & K3) & K4) & K5) & K6) & K7) & K8) & K9) & K10) & K11) & K12) & K13) & K14) & K15) & K16) & K17) & K18).
  apply Nat.eqb_eq in K1, K5, K6, K7, K8, K10, K11, K12, K13, K15. apply Nat.ltb_lt in K2, K4. apply Nat.leb_le in K3, K14. apply N.eqb_eq in K17, K18. apply orb_true_iff in K9. rewrite !Nat.eqb_eq in K9.
  assert (E8 : f_r P / 8 = 4 * (f_r P / 32)) by (rewrite K1 at 1; replace (32 * (f_r P / 32)) with (4 * (f_r P / 32) * 8) by lia; now rewrite Nat.div_mul).
  assert (H1 : (fm_index P syn buf i < f_n P)%N).
  { rewrite (index_ok P (f_r P / 32) (f_p P / 8)) by (assumption || reflexivity || lia).
    rewrite K17. apply (select_lt P (f_r P / 32) (f_p P / 8)); assumption || reflexivity. }
  split; [exact H1|]. apply N.div_lt_upper_bound; [lia|]. rewrite <- K18. exact H1.
Qed.

(** Non-vacuity: the hypotheses are met by a history with two writes, a Sum in between and a Reset, and by a table that is not constant. *)
Example C115_instance : exists P, In P fsb_params /\ isbytes [0xb9; 0xde; 0x81]%N /\ Forall (write_fits P) [Write [1; 2; 3]%N; Sum []; Write (repeat 7%N 200); Sum [9]%N; Reset; Sum []].
Proof.
  exists (mkfsb 160 1310720 80 640 653). split; [right; left; reflexivity|]. split; [repeat constructor|].
  repeat constructor; unfold write_fits; rewrite ?repeat_length; vm_compute; reflexivity.
Qed.

(** C116: Write takes 8 len(data) as a uint32; a message of 2^29 bytes counts as 0 bits, is reported as written and leaves the state as it was. *)
Lemma w32_len : forall p : list N, N.of_nat (length p) = (2 ^ 29)%N -> w32 (8 * N.of_nat (length p)) = 0%N.
Proof. intros p E. rewrite E. reflexivity. Qed.
Theorem C116_fsb_write_2_29_refuted : forall P, In P fsb_params -> forall Pi, isbytes Pi ->
  (forall ops p, Forall (write_fits P) ops -> N.of_nat (length p) = (2 ^ 29)%N ->
     fm_run P Pi (fm_reset P) (Write p :: ops) = Some (Wrote (length p) :: ideal_run (fsb P Pi) [] ops)) /\
  (forall p, N.of_nat (length p) = (2 ^ 29)%N -> fm_Sum P Pi p = Some (fsb P Pi [])) /\
  exists p, isbytes p /\ N.of_nat (length p) = (2 ^ 29)%N.
Proof.
  intros P HP Pi HPi.
  assert (W0 : forall p, N.of_nat (length p) = (2 ^ 29)%N -> fm_write P Pi (fm_reset P) p = Some (fm_reset P)).
  { intros p E. unfold fm_write, fm_bits. rewrite (w32_len p E). cbn [fm_writebits fm_reset fm_count]. change (0 mod 8 =? 0)%N with true. cbn [negb].
    change (w32 (0 + 0)) with 0%N.
    assert (B : (0 <? N.of_nat (fm_inputsize P))%N = true). { assert (K : forallb (fun P => (0 <? N.of_nat (fm_inputsize P))%N) fsb_params = true) by (vm_compute; reflexivity). rewrite forallb_forall in K. now apply K. }
    rewrite B. reflexivity. }
  split; [|split].
  - intros ops p HF E. cbn [fm_run]. rewrite (W0 p E). rewrite (C115_fsb_history P HP Pi HPi ops HF). reflexivity.
  - intros p E. unfold fm_Sum. rewrite (W0 p E).
    assert (F0 : (8 * N.of_nat (length (@nil N)) + N.of_nat (fs_in P) < 2 ^ 32)%N).
    { assert (K : forallb (fun P => (8 * N.of_nat (length (@nil N)) + N.of_nat (fs_in P) <? 2 ^ 32)%N) fsb_params = true) by (vm_compute; reflexivity). rewrite forallb_forall in K. apply N.ltb_lt. now apply K. }
    pose proof (C115_fsb_history P HP Pi HPi [Sum []] ltac:(constructor; [exact I|constructor])) as H. cbn [fm_run ideal_run] in H.
    destruct (fm_checkSum P Pi (fm_reset P)) as [h|]; cbn [option_map app] in H; [|discriminate]. congruence.
  - exists (repeat 0%N (N.to_nat (2 ^ 29)%N)). split; [apply Forall_forall; intros x Hx; apply repeat_spec in Hx; subst; reflexivity|]. rewrite repeat_length. apply N2Nat.id.
Qed.
