(** PropSkn.v -- C117-C120: the skein512 package. *)
From Coq Require Import List NArith Arith Lia Bool.
Require Import Verif.Base Verif.Words Verif.HashAPI Verif.Buf Verif.Buf3 Verif.Bytes Verif.Refine Verif.SpecCmac Verif.SpecSkein Verif.ThreefishTab Verif.Threefish Verif.Skein Verif.SpecSkn Verif.SknTab Verif.Skn.
Import ListNotations.
Local Open Scope nat_scope.

(** ** block is one UBI step *)
Lemma add64_w64 : forall a b, add64 a (add64 b 0) = add64 a b.
Proof. intros. unfold add64. rewrite N.add_0_r, !w64_mod. apply N.add_mod_idemp_r. discriminate. Qed.
Lemma inj_tab : forall k t x s, length k = 8 -> s < 19 -> tf_fin add64 (nth s skn_inj []) (tf_k k) (tf_t t) x = tf_addkey V512 k t s x.
Proof.
  intros k t x s L Hs. destruct s as [|s].
  - set (K := at_ (tf_k k)).
    change (tf_fin add64 (nth 0 skn_inj []) (tf_k k) (tf_t t) x) with
      [add64 (at_ x 0) (K 0); add64 (at_ x 1) (K 1); add64 (at_ x 2) (K 2); add64 (at_ x 3) (K 3); add64 (at_ x 4) (K 4); add64 (at_ x 5) (add64 (K 5) (fst t)); add64 (at_ x 6) (add64 (K 6) (snd t)); add64 (at_ x 7) (K 7)].
    change (tf_addkey V512 k t 0 x) with
      [add64 (at_ x 0) (K 0); add64 (at_ x 1) (K 1); add64 (at_ x 2) (K 2); add64 (at_ x 3) (K 3); add64 (at_ x 4) (K 4); add64 (at_ x 5) (add64 (K 5) (fst t)); add64 (at_ x 6) (add64 (K 6) (snd t)); add64 (at_ x 7) (add64 (K 7) 0)].
    rewrite add64_w64. reflexivity.
  - do 18 (destruct s as [|s]; [reflexivity|]). lia.
Qed.
Lemma tab_ok : combine skn_inj skn_mix = map (fun s => (nth s skn_inj [], if Nat.even s then enc_a V512 else enc_b V512)) (seq 0 18).
Proof. reflexivity. Qed.
Lemma fold_left_map0 : forall A B C (f : A -> B -> A) (g : C -> B) l a, fold_left f (map g l) a = fold_left (fun a c => f a (g c)) l a.
Proof. intros A B C f g. induction l as [|c l IH]; intro a; [reflexivity|]. cbn [map fold_left]. apply IH. Qed.
Lemma rounds_ok : forall k t p, length k = 8 -> skn_rounds k t p = threefish V512 k t p.
Proof.
  intros k t p L. unfold skn_rounds. cbv zeta. change (skn_keys k) with (tf_k k). change (skn_tw t) with (tf_t t). rewrite inj_tab by lia.
  unfold threefish. change (nr V512 / 4) with 18. f_equal. rewrite tab_ok, fold_left_map0. cbn [fst snd].
  change (nr V512) with (8 * 9). rewrite fold_seq_groups. change (seq 0 18) with (seq 0 (2 * 9)). rewrite fold_seq_groups.
  apply fold_left_ext_in. intros x m Hm. apply in_seq in Hm. rewrite eight_rounds. cbn [seq fold_left].
  replace (Nat.even (2 * m)) with true by (symmetry; apply Nat.even_spec; exists m; lia).
  replace (Nat.even (S (2 * m))) with false by (rewrite Nat.even_succ; symmetry; rewrite <- Nat.negb_even; replace (Nat.even (2 * m)) with true by (symmetry; apply Nat.even_spec; exists m; lia); reflexivity).
  rewrite !inj_tab by lia. rewrite Nat.add_1_r. reflexivity.
Qed.
Lemma block_ok : forall k t p, length k = 8 -> length p = 8 -> skn_block k t p = xorblk (threefish V512 k t p) p.
Proof.
  intros k t p L Lp. unfold skn_block. cbv zeta. rewrite rounds_ok by exact L. pose proof (threefish_len V512 k t p) as LT. change (nw V512) with 8 in LT.
  revert LT. generalize (threefish V512 k t p). intros x LT. destr_list x LT 8. destr_list p Lp 8. unfold xorblk. cbn [seq map combine fst snd]. unfold at_. cbn [nth].
  do 7 (f_equal; [apply N.lxor_comm|]). f_equal. apply N.lxor_comm.
Qed.
Lemma load_ok : forall b, 64 <= length b -> skn_load b = bytesToBlock V512 (firstn 64 b).
Proof.
  intros b L. unfold skn_load, bytesToBlock. change (nw V512) with 8. apply map_ext_in. intros i Hi. apply in_seq in Hi. f_equal. unfold slice.
  rewrite <- (firstn_skipn 64 b) at 1. rewrite skipn_app, firstn_app. rewrite firstn_length, skipn_length, firstn_length.
  replace (8 * i + 8 - 8 * i - (Nat.min 64 (length b) - 8 * i)) with 0 by lia. rewrite firstn_O, app_nil_r. reflexivity.
Qed.
(** one call of hashBlock, when the byte count does not overflow *)
Lemma hb_ok : forall k t0 t1 b unp typ pos first fin, length k = 8 -> 64 <= length b -> (t0 + unp < 2 ^ 64)%N -> pos = (t0 + unp)%N -> t1 = tw1 typ first fin ->
  skn_hb (k, (t0, t1)) b unp = (ubi_block V512 k (tweak_of pos typ first fin) (firstn 64 b), (pos, N.ldiff t1 skn_first)).
Proof.
  intros k t0 t1 b unp typ pos first fin L Lb HB EP ET. unfold skn_hb. cbn [fst snd]. assert (E : add64 t0 unp = pos) by (unfold add64; rewrite w64_mod, N.mod_small by exact HB; now rewrite EP). rewrite E.
  f_equal. rewrite load_ok by exact Lb. assert (L64 : length (firstn 64 b) = 64) by (rewrite firstn_length; lia).
  rewrite bytesToBlock_ok by exact L64. rewrite block_ok; [|exact L|rewrite to_words_len, L64; reflexivity]. unfold ubi_block. rewrite tw_words_ok by (rewrite EP; exact HB). rewrite <- ET. reflexivity.
Qed.
Definition stp (kt : list N * (N * N)) (b : list N) : list N * (N * N) := skn_hb kt b 64.
Lemma skn_start_eq : forall typ, skn_start typ = tw_start typ.
Proof. reflexivity. Qed.
Lemma skn_fold : forall G typ bl, length G = 8 -> In typ types -> Forall (fun b => length b = 64) bl -> (N.of_nat (length bl * 64) < 2 ^ 64)%N ->
  fold_left stp bl (G, skn_start typ) = (chain V512 G typ bl, (N.of_nat (length bl * 64), tw1 typ (length bl =? 0) false)) /\ length (chain V512 G typ bl) = 8.
Proof.
  intros G typ bl LG Ht. induction bl as [|b bl IH] using rev_ind; intros F HB.
  - cbn [fold_left length]. rewrite skn_start_eq, tw_start_ok by auto. auto.
  - apply Forall_app in F. destruct F as [F Fb]. inversion Fb as [|? ? Lb _]; subst. rewrite app_length in HB |- *. cbn [length] in HB |- *.
    destruct IH as [E L]; [auto|lia|]. rewrite fold_left_app, E. cbn [fold_left]. rewrite chain_snoc. change (nb V512) with 64. split; [|apply (ubi_block_len V512); exact Lb].
    unfold stp. rewrite (hb_ok _ _ _ b 64 typ (N.of_nat ((length bl + 1) * 64)) (length bl =? 0) false); [|exact L|lia| |lia|reflexivity].
    2: { replace (N.of_nat (length bl * 64) + 64)%N with (N.of_nat ((length bl + 1) * 64)) by lia. exact HB. }
    rewrite firstn_all2 by lia. f_equal. f_equal. change skn_first with FirstBlock. rewrite tw_ldiff by exact Ht. destruct (Nat.eqb_spec (length bl + 1) 0); [lia|]. reflexivity.
Qed.

(** ** update keeps the last block *)
Definition lz (typ : N) (G : list N) (h : skn) (m : list N) : Prop := lazy_rel 64 stp (G, skn_start typ) (n_k h, n_t h) (n_x h) (n_nx h) m.
Lemma stp_firstn : forall kt b, 64 <= length b -> stp kt (firstn 64 b) = stp kt b.
Proof.
  intros kt b L. unfold stp, skn_hb. rewrite (load_ok b) by exact L. rewrite (load_ok (firstn 64 b)) by (rewrite firstn_length; lia). rewrite firstn_firstn. reflexivity.
Qed.
Lemma full_ok : forall fuel kt b, length b <= fuel -> 0 < length b ->
  exists c r, b = c ++ r /\ length c mod 64 = 0 /\ 0 < length r <= 64 /\ skn_full fuel kt b = (fold_left stp (chunks 64 c) kt, r).
Proof.
  induction fuel as [|fuel IH]; intros kt b L H0; [lia|]. cbn [skn_full]. destruct (Nat.ltb_spec 64 (length b)) as [H|H].
  - destruct (IH (skn_hb kt b 64) (skipn 64 b)) as (c & r & Eb & Mc & Lr & E); [rewrite skipn_length; lia|rewrite skipn_length; lia|].
    exists (firstn 64 b ++ c), r. split; [rewrite <- app_assoc, <- Eb; symmetry; apply firstn_skipn|].
    assert (L64 : length (firstn 64 b) = 64) by (rewrite firstn_length; lia).
    split; [rewrite app_length, L64; replace (64 + length c) with (length c + 1 * 64) by lia; rewrite Nat.mod_add by lia; exact Mc|]. split; [exact Lr|].
    rewrite E. f_equal. rewrite chunks_app by lia. rewrite (rest_one _ 64 (firstn 64 b)) by (lia || exact L64). rewrite (chunks_one _ 64 (firstn 64 b)) by (lia || exact L64).
    cbn [app fold_left]. rewrite stp_firstn by lia. reflexivity.
  - exists [], b. split; [reflexivity|]. split; [reflexivity|]. split; [lia|]. rewrite chunks_short by (cbn [length]; lia). reflexivity.
Qed.
Lemma full_short : forall fuel kt b, length b <= 64 -> skn_full fuel kt b = (kt, b).
Proof. intros [|fuel] kt b L; cbn [skn_full]; [reflexivity|]. destruct (Nat.ltb_spec 64 (length b)); [lia|reflexivity]. Qed.
Lemma update_ok : forall typ G h m b, lz typ G h m -> lz typ G (skn_update h b) (m ++ b).
Proof.
  intros typ G h m b (a & Ma & Es & Em & Lx & Lo & Ho). unfold skn_update. destruct (Nat.ltb_spec (64 - n_nx h) (length b)) as [H|H].
  - set (left := 64 - n_nx h) in *. set (x := copy_at (n_x h) (n_nx h) (firstn left b)).
    assert (Ex : x = firstn (n_nx h) (n_x h) ++ firstn left b).
    { unfold x. rewrite copy_at_full by (rewrite ?firstn_length; lia). f_equal. apply firstn_all2. rewrite firstn_length. lia. }
    assert (Lx' : length x = 64) by (rewrite Ex, app_length, !firstn_length; lia).
    destruct (full_ok (length (skipn left b)) (skn_hb (n_k h, n_t h) x 64) (skipn left b) (le_n _)) as (c & r & Eb & Mc & Lr & E); [rewrite skipn_length; lia|].
    rewrite E. unfold lz, lazy_rel. cbn [n_k n_t n_x n_nx]. exists ((a ++ x) ++ c).
    assert (Max : length (a ++ x) mod 64 = 0) by (rewrite app_length, Lx'; replace (length a + 64) with (length a + 1 * 64) by lia; rewrite Nat.mod_add by lia; exact Ma).
    split; [rewrite app_length, Nat.add_mod, Max, Mc by lia; reflexivity|]. split.
    { rewrite (fold_whole 64 stp ltac:(lia) _ (a ++ x) c Max). rewrite (fold_whole 64 stp ltac:(lia) _ a x Ma). rewrite (chunks_one _ 64 x) by (lia || exact Lx'). cbn [fold_left]. rewrite <- Es.
      change (stp (n_k h, n_t h) x) with (skn_hb (n_k h, n_t h) x 64). destruct (fold_left stp (chunks 64 c) (skn_hb (n_k h, n_t h) x 64)); reflexivity. }
    split.
    { replace (0 + Nat.min (64 - 0) (length r)) with (length r) by lia.
      replace (firstn (length r) (copy_at x 0 r)) with r.
      2: { unfold copy_at. rewrite firstn_O. cbn [app]. rewrite (firstn_all2 r) by lia. symmetry. apply firstn_app_len. reflexivity. }
      rewrite Em, Ex. rewrite <- !app_assoc. do 2 f_equal. rewrite <- Eb. symmetry. apply firstn_skipn. }
    split; [rewrite copy_at_length by lia; exact Lx'|]. split; [lia|]. intro Z. lia.
  - rewrite full_short by lia. unfold lz, lazy_rel. cbn [n_k n_t n_x n_nx fst snd]. exists a. split; [exact Ma|]. split; [exact Es|].
    replace (Nat.min (64 - n_nx h) (length b)) with (length b) by lia. split.
    { rewrite Em, <- app_assoc. f_equal. unfold copy_at. rewrite app_assoc. rewrite (firstn_all2 b) by lia. symmetry. apply firstn_app_len. rewrite app_length, firstn_length. lia. }
    split; [rewrite copy_at_length by lia; exact Lx|]. split; [lia|]. intro Z. apply Ho. lia.
Qed.
Lemma last_ok : forall typ G h m, length G = 8 -> In typ types -> lz typ G h m -> (N.of_nat (length m) < 2 ^ 64)%N ->
  n_k (skn_lastBlock h) = ubi V512 G m typ /\ length (ubi V512 G m typ) = 8 /\ length (n_x (skn_lastBlock h)) = 64.
Proof.
  intros typ G h m LG Ht (a & Ma & Es & Em & Lx & Lo & Ho) HB.
  pose proof (chunks_length N 64 a) as LC. pose proof (chunks_all_length N 64 a ltac:(lia)) as FC.
  assert (LA : length a = length (chunks 64 a) * 64) by (rewrite LC; pose proof (Nat.div_mod (length a) 64 ltac:(lia)); lia).
  set (r := firstn (n_nx h) (n_x h)) in *. assert (Lr : length r = n_nx h) by (unfold r; rewrite firstn_length; lia).
  assert (HM : length m = length a + n_nx h) by (rewrite Em, app_length; lia).
  destruct (skn_fold G typ (chunks 64 a) LG Ht FC) as [EF LF]; [lia|]. rewrite EF in Es.
  rewrite Em. rewrite (ubi_split V512 G typ a r Ma) by (change (nb V512) with 64; try lia; intros R0; apply Ho; rewrite <- Lr, R0; reflexivity).
  change (nb V512) with 64.
  assert (EX : copy_at (n_x h) (n_nx h) (zeros 64) = r ++ zeros (64 - length r)).
  { rewrite copy_at_full by (rewrite ?zeros_length; lia). unfold r. rewrite firstn_zeros, Lx. f_equal. rewrite firstn_length. f_equal. lia. }
  assert (LB : length (r ++ zeros (64 - length r)) = 64) by (rewrite app_length, zeros_length; lia).
  assert (Ek : n_k h = chain V512 G typ (chunks 64 a)) by (exact (f_equal fst Es)). assert (Et : n_t h = (N.of_nat (length (chunks 64 a) * 64), tw1 typ (length (chunks 64 a) =? 0) false)) by (exact (f_equal snd Es)).
  split; [|split].
  - unfold skn_lastBlock. cbn [n_k]. rewrite EX, Ek, Et. cbn [fst snd]. change skn_last with FinalBlock. rewrite tw_final by exact Ht.
    rewrite (hb_ok _ _ _ _ _ typ (N.of_nat (length a + length r)) (length (chunks 64 a) =? 0) true); [|exact LF|lia| |lia|reflexivity].
    + cbn [fst]. rewrite firstn_all2 by lia. reflexivity.
    + rewrite <- Nat2N.inj_add, <- LA, <- HM. exact HB.
  - apply (ubi_block_len V512). exact LB.
  - unfold skn_lastBlock. cbn [n_x]. rewrite EX. exact LB.
Qed.

Lemma lz_start : forall typ G x, length x = 64 -> forall ol nm ik, lz typ G (mkskn G (skn_start typ) x 0 ol nm ik) [].
Proof.
  intros typ G x L ol nm ik. exists []. cbn [n_k n_t n_x n_nx]. split; [reflexivity|]. split; [rewrite chunks_short by (cbn [length]; lia); reflexivity|].
  split; [reflexivity|]. split; [exact L|]. split; [lia|auto].
Qed.
(** ** New *)
Definition at_k (k : list N) (ol : N) (nm : bool) (h : skn) : Prop := n_k h = k /\ length k = 8 /\ n_nx h = 0 /\ length (n_x h) = 64 /\ n_outLen h = ol /\ n_noMsg h = nm.
Lemma update_keep : forall h b, n_outLen (skn_update h b) = n_outLen h /\ n_noMsg (skn_update h b) = n_noMsg h /\ n_ik (skn_update h b) = n_ik h.
Proof. intros h b. unfold skn_update. destruct (_ <? _); destruct (skn_full _ _ _); repeat split. Qed.
Lemma addArg_ok : forall typ k ol nm h arg, In typ types -> (N.of_nat (length arg) < 2 ^ 64)%N -> at_k k ol nm h -> at_k (ubi V512 k arg typ) ol nm (skn_addArg typ arg h).
Proof.
  intros typ k ol nm h arg Ht HA (E1 & L1 & E2 & L2 & E3 & E4). unfold skn_addArg. rewrite E1, E2.
  set (h0 := mkskn _ _ _ _ _ _ _). pose proof (update_ok typ k h0 [] arg) as U. cbn [app] in U. destruct (update_keep h0 arg) as (K1 & K2 & K3).
  destruct (last_ok typ k (skn_update h0 arg) arg L1 Ht) as (A & B & C); [apply U, lz_start, L2|exact HA|].
  split; [exact A|]. split; [exact B|]. split; [reflexivity|]. split; [exact C|].
  unfold skn_lastBlock. cbn [n_outLen n_noMsg]. rewrite K1, K2. split; assumption.
Qed.
Definition small (a : option (list N)) : Prop := match a with None => True | Some x => (N.of_nat (length x) < 2 ^ 64)%N end.
Lemma addOpt_ok : forall typ k ol nm h arg, In typ types -> small arg -> at_k k ol nm h -> at_k (skn_opt typ arg k) ol nm (skn_addOpt typ arg h).
Proof. intros typ k ol nm h [a|] Ht S A; [|exact A]. apply addArg_ok; assumption. Qed.
Lemma cfg_ok : forall n, copy_at (copy_at (zeros 32) 0 [0x53; 0x48; 0x41; 0x33; 1; 0; 0; 0]%N) 8 (le_bytes 8 (mul64 n 8)) = skn_cfg (8 * n).
Proof.
  intro n. unfold skn_cfg. rewrite N.mul_comm. unfold mul64. rewrite w64_mod. change 18446744073709551616%N with (256 ^ N.of_nat 8)%N. rewrite le_bytes_mod.
  pose proof (le_bytes_length 8 (n * 8)) as L. revert L. generalize (le_bytes 8 (n * 8)). intros l L. destr_list l L 8. reflexivity.
Qed.
Lemma in_types : In 0%N types /\ In 4%N types /\ In 8%N types /\ In 12%N types /\ In 16%N types /\ In 20%N types /\ In 48%N types.
Proof. unfold types. cbn [In]. tauto. Qed.
Lemma addConfig_ok : forall k n ol nm h, at_k k ol nm h -> at_k (ubi V512 k (skn_cfg (8 * n)) 4) ol nm (skn_addConfig (mul64 n 8) h).
Proof.
  intros k n ol nm h A. unfold skn_addConfig. rewrite cfg_ok. apply addArg_ok; [apply in_types| |exact A].
  unfold skn_cfg. rewrite !app_length, le_bytes_length, zeros_length. reflexivity.
Qed.
Lemma ivs_ok : skn_iv224 = ubi V512 (zeros 8) (skn_cfg (8 * 28)) 4 /\ skn_iv256 = ubi V512 (zeros 8) (skn_cfg (8 * 32)) 4 /\
  skn_iv384 = ubi V512 (zeros 8) (skn_cfg (8 * 48)) 4 /\ skn_iv512 = ubi V512 (zeros 8) (skn_cfg (8 * 64)) 4.
Proof. repeat split; vm_compute; reflexivity. Qed.
(** what the code does with the key: every key that is not nil goes through UBI *)
Definition code_key (key : option (list N)) : list N := skn_opt 0 key (zeros 8).
Definition args_small (a : skn_args) : Prop := small (a_key a) /\ small (a_person a) /\ small (a_pub a) /\ small (a_kid a) /\ small (a_nonce a).
Lemma with_k_ok : forall k ol nm h iv, at_k k ol nm h -> length iv = 8 -> at_k iv ol nm (skn_with_k h iv).
Proof. intros k ol nm h iv (E1 & L1 & E2 & L2 & E3 & E4) L. repeat split; assumption. Qed.
Lemma New_ok : forall ol a nm, args_small a ->
  let G := skn_inputs (8 * ol) a (code_key (a_key a)) in
  at_k G ol nm (skn_New ol a nm) /\ n_ik (skn_New ol a nm) = G /\ n_t (skn_New ol a nm) = skn_start 48.
Proof.
  intros ol a nm (S1 & S2 & S3 & S4 & S5) G. destruct in_types as (T0 & T4 & T8 & T12 & T16 & T20 & T48). unfold skn_New.
  set (h0 := mkskn (zeros 8) _ _ _ _ _ _). cbv zeta.
  assert (A0 : at_k (zeros 8) ol false h0) by (repeat split). clearbody h0.
  set (h1 := match a_key a with Some key => _ | None => _ end).
  assert (A1 : at_k (ubi V512 (code_key (a_key a)) (skn_cfg (8 * ol)) 4) ol false h1).
  { unfold h1, code_key, skn_opt. destruct (a_key a) as [key|].
    - apply addConfig_ok. apply addArg_ok; assumption.
    - destruct ivs_ok as (I1 & I2 & I3 & I4).
      destruct (N.eqb_spec ol 28) as [H|H]; [rewrite H in *; rewrite <- I1; eapply with_k_ok; [exact A0|reflexivity]|].
      destruct (N.eqb_spec ol 32) as [H2|H2]; [rewrite H2 in *; rewrite <- I2; eapply with_k_ok; [exact A0|reflexivity]|].
      destruct (N.eqb_spec ol 48) as [H3|H3]; [rewrite H3 in *; rewrite <- I3; eapply with_k_ok; [exact A0|reflexivity]|].
      destruct (N.eqb_spec ol 64) as [H4|H4]; [rewrite H4 in *; rewrite <- I4; eapply with_k_ok; [exact A0|reflexivity]|].
      apply addConfig_ok. exact A0. }
  clearbody h1. set (h2 := mkskn (n_k h1) _ _ _ _ nm _).
  assert (A2 : at_k (ubi V512 (code_key (a_key a)) (skn_cfg (8 * ol)) 4) ol nm h2).
  { destruct A1 as (E1 & L1 & E2 & L2 & E3 & E4). repeat split; assumption. }
  clearbody h2. set (h3 := skn_addOpt 20 _ _).
  assert (A3 : at_k G ol nm h3) by (unfold h3, G, skn_inputs; repeat apply addOpt_ok; assumption).
  clearbody h3. cbn [n_ik n_t]. destruct A3 as (E1 & L1 & E2 & L2 & E3 & E4). repeat split; assumption.
Qed.
(** ** output *)
Definition ob (G : list N) (i : nat) : list N := to_bytes (ubi V512 G (le_bytes 8 (N.of_nat i)) 63).
Lemma ctr_w64 : forall i, le_bytes 8 (w64 (N.of_nat i)) = le_bytes 8 (N.of_nat i).
Proof. intro i. rewrite w64_mod. change 18446744073709551616%N with (256 ^ N.of_nat 8)%N. apply le_bytes_mod. Qed.
Lemma ctr_next : forall i, add64 (w64 (N.of_nat i)) 1 = w64 (N.of_nat (S i)).
Proof. intro i. unfold add64. rewrite !w64_mod, N.add_mod_idemp_l by discriminate. f_equal. lia. Qed.
Lemma outBlock_ok : forall G i, length G = 8 -> skn_outBlock G (w64 (N.of_nat i)) = ob G i /\ length (ob G i) = 64.
Proof.
  intros G i L. unfold ob. rewrite <- ctr_w64. set (ctr := w64 (N.of_nat i)). assert (Hc : is64 ctr) by apply w64_is64. clearbody ctr.
  pose proof (ubi_split V512 G 63 [] (le_bytes 8 ctr)) as U. cbn [app] in U. rewrite chunks_short in U by (cbn [length]; change (nb V512) with 64; lia).
  rewrite U; [|reflexivity|rewrite le_bytes_length; change (nb V512) with 64; lia|reflexivity]. clear U.
  change (chain V512 G 63 []) with G. change (length (@nil (list N)) =? 0) with true. change (length (@nil N)) with 0. rewrite le_bytes_length. split.
  - unfold ubi_block. rewrite tw_words_ok by reflexivity. rewrite to_words_ctr by exact Hc. unfold skn_outBlock. change (flat_map (le_bytes 8)) with to_bytes.
    rewrite block_ok by (exact L || reflexivity). reflexivity.
  - rewrite to_bytes_len. rewrite (ubi_block_len V512) by (rewrite app_length, le_bytes_length, zeros_length; reflexivity). reflexivity.
Qed.
Definition obz (G : list N) (c n : nat) : list N := flat_map (ob G) (seq c n).
Lemma obs_len : forall G n c, length G = 8 -> length (obz G c n) = 64 * n.
Proof. intros G n. unfold obz. induction n as [|n IH]; intros c L; [reflexivity|]. cbn [seq flat_map]. rewrite app_length, IH by exact L. destruct (outBlock_ok G c L) as [_ E]. lia. Qed.
Lemma obs_app : forall G n m c, obz G c (n + m) = obz G c n ++ obz G (c + n) m.
Proof. intros. unfold obz. rewrite seq_app, flat_map_app. reflexivity. Qed.
Lemma obs_one : forall G c, obz G c 1 = ob G c.
Proof. intros. unfold obz. cbn [seq flat_map]. apply app_nil_r. Qed.
Lemma out_any : forall G n M, length G = 8 -> n <= 64 * M -> skein_output V512 G n = firstn n (obz G 0 M).
Proof.
  intros G n M L H. unfold skein_output. change (nb V512) with 64. fold (ob G). change (flat_map (ob G) (seq 0 ?k)) with (obz G 0 k).
  assert (C : n <= 64 * ((n + 64 - 1) / 64)) by (pose proof (Nat.div_mod (n + 64 - 1) 64 ltac:(lia)); pose proof (Nat.mod_upper_bound (n + 64 - 1) 64 ltac:(lia)); lia).
  set (q := (n + 64 - 1) / 64) in *. change (flat_map (fun i => to_bytes (ubi V512 G (le_bytes 8 (N.of_nat i)) 63)) (seq 0 q)) with (obz G 0 q). clearbody q.
  destruct (Nat.le_ge_cases q M) as [A|A].
  - replace M with (q + (M - q)) by lia. rewrite obs_app, firstn_app, obs_len by exact L. replace (n - 64 * q) with 0 by lia. rewrite firstn_O, app_nil_r. reflexivity.
  - replace q with (M + (q - M)) by lia. rewrite obs_app, firstn_app, obs_len by exact L. replace (n - 64 * M) with 0 by lia. rewrite firstn_O, app_nil_r. reflexivity.
Qed.
Lemma append_ok : forall fuel G n c, length G = 8 -> n < 64 * fuel -> skn_append fuel G (N.of_nat n) (w64 (N.of_nat c)) = firstn n (obz G c fuel).
Proof.
  induction fuel as [|fuel IH]; intros G n c L H; [lia|]. cbn [skn_append]. destruct (outBlock_ok G c L) as [E EL]. rewrite E, ctr_next.
  change (obz G c (S fuel)) with (ob G c ++ obz G (S c) fuel).
  destruct (N.eqb_spec (N.of_nat n) 0) as [Z|Z]; [replace n with 0 by lia; reflexivity|].
  destruct (N.ltb_spec (N.of_nat n) 64) as [B|B].
  - rewrite Nat2N.id, firstn_app. replace (n - length (ob G c)) with 0 by lia. rewrite firstn_O, app_nil_r. reflexivity.
  - replace (N.of_nat n - 64)%N with (N.of_nat (n - 64)) by lia. rewrite IH by (exact L || lia). rewrite firstn_app, EL, (firstn_all2 (ob G c)) by lia. reflexivity.
Qed.
Lemma appendOutput_ok : forall G n, length G = 8 -> skn_appendOutput G (N.of_nat n) = skein_output V512 G n.
Proof.
  intros G n L. unfold skn_appendOutput. change 0%N with (w64 (N.of_nat 0)) at 1.
  replace (N.to_nat (N.of_nat n / 64)) with (n / 64) by (change 64%N with (N.of_nat 64); rewrite <- Nat2N.inj_div, Nat2N.id; reflexivity).
  assert (C : n < 64 * S (n / 64)) by (pose proof (Nat.div_mod n 64 ltac:(lia)); pose proof (Nat.mod_upper_bound n 64 ltac:(lia)); lia).
  change 0%N with (w64 (N.of_nat 0)). rewrite append_ok by assumption. symmetry. apply out_any; [exact L|lia].
Qed.

(** ** the hash *)
Definition skn_rel (G : list N) (ol : N) (h : skn) (m : list N) : Prop := lz 48 G h m /\ n_outLen h = ol /\ n_noMsg h = false /\ n_ik h = G /\ length (n_x h) = 64.
Lemma lz_x : forall typ G h m, lz typ G h m -> length (n_x h) = 64.
Proof. intros typ G h m (a & _ & _ & _ & L & _). exact L. Qed.
Lemma New_rel : forall ol a, args_small a -> skn_rel (skn_inputs (8 * ol) a (code_key (a_key a))) ol (skn_New ol a false) [] /\ length (skn_inputs (8 * ol) a (code_key (a_key a))) = 8.
Proof.
  intros ol a S. destruct (New_ok ol a false S) as ((E1 & L1 & E2 & L2 & E3 & E4) & E5 & E6). split; [|exact L1]. unfold skn_rel.
  split; [|repeat split; assumption]. revert E1 E2 L2 E6. destruct (skn_New ol a false) as [k t x nx o n ik]. cbn [n_k n_nx n_x n_t]. intros E1 E2 L2 E6. rewrite E1, E2, E6. apply lz_start. exact L2.
Qed.
Lemma write_rel : forall G ol h m p, skn_rel G ol h m -> skn_rel G ol (fst (skn_write h p)) (m ++ p) /\ snd (skn_write h p) = length p.
Proof.
  intros G ol h m p (A & B & C & D & E). unfold skn_write. rewrite C. cbn [fst snd]. split; [|reflexivity]. destruct (update_keep h p) as (K1 & K2 & K3).
  pose proof (update_ok 48 G h m p A) as U. unfold skn_rel. rewrite K1, K2, K3. split; [exact U|]. repeat split; try assumption. apply (lz_x _ _ _ _ U).
Qed.
Lemma sum_rel : forall G ol h m, length G = 8 -> skn_rel G (N.of_nat ol) h m -> (N.of_nat (length m) < 2 ^ 64)%N -> skn_checkSum h = skein_output V512 (ubi V512 G m 48) ol.
Proof.
  intros G ol h m L (A & B & C & D & E) HB. unfold skn_checkSum. cbv zeta. rewrite C. destruct (last_ok 48 G h m L ltac:(apply in_types) A HB) as (E1 & E2 & _).
  rewrite E1. change (n_outLen (skn_lastBlock h)) with (n_outLen h). rewrite B. apply appendOutput_ok. exact E2.
Qed.
Lemma reset_rel : forall G ol h m, skn_rel G ol h m -> skn_rel G ol (skn_reset h) [].
Proof.
  intros G ol h m (A & B & C & D & E). unfold skn_reset, skn_rel. rewrite D. split; [apply lz_start; exact E|]. repeat split; assumption.
Qed.
Lemma key_eq : forall k, k <> Some [] -> code_key k = skn_key k.
Proof. intros [[|b k]|] H; [congruence|reflexivity|reflexivity]. Qed.
Lemma skn_run_ok : forall outLen a ops, args_small a -> Forall op_bytes ops -> (ops_total ops < 2 ^ 64)%N ->
  run skn_impl (skn_New (N.of_nat outLen) a false) ops =
  ideal_run (fun m => skein_output V512 (ubi V512 (skn_inputs (8 * N.of_nat outLen) a (code_key (a_key a))) m 48) outLen) [] ops.
Proof.
  intros outLen a ops S HF HB. destruct (New_rel (N.of_nat outLen) a S) as [R L]. revert R L. generalize (skn_inputs (8 * N.of_nat outLen) a (code_key (a_key a))). intros G R L.
  apply (run_refines_total _ skn_impl _ (skn_rel G (N.of_nat outLen)) (2 ^ 64)%N).
  - intros h m p _ _ H. apply (write_rel G _ h m p H).
  - intros h m p _ _ H. apply (write_rel G _ h m p H).
  - intros h m i H. exact H.
  - intros h m i HM H. cbn [skn_impl i_sum snd]. f_equal. apply (sum_rel G outLen h m L H HM).
  - intros h m H. apply (reset_rel G _ h m H).
  - exact HF.
  - exact HB.
  - exact R.
Qed.

(** C117: the hash of the skein512 package is Skein-512 with the given optional inputs. *)
Theorem C117_skn_history : forall outLen a ops, args_small a -> a_key a <> Some [] -> Forall op_bytes ops -> (ops_total ops < 2 ^ 64)%N ->
  run skn_impl (skn_New (N.of_nat outLen) a false) ops = ideal_run (skn_hash outLen a) [] ops.
Proof.
  intros outLen a ops S K HF HB. rewrite skn_run_ok by assumption. unfold skn_hash, skn_chain. rewrite key_eq by exact K. reflexivity.
Qed.
(** With NoMsg, Write accepts nothing and Sum always appends the same value, the output of the chain without a message stage. *)
Definition no_msg_obs (out : list N) (o : op) : list obs :=
  match o with Write _ => [Wrote 0] | Sum i => [Summed (i ++ out)] | Reset => [] end.
Theorem C117_skn_no_message : forall outLen a ops, args_small a -> a_key a <> Some [] ->
  run skn_impl (skn_New (N.of_nat outLen) a true) ops = flat_map (no_msg_obs (skein_output V512 (skn_chain (8 * N.of_nat outLen) a) outLen)) ops.
Proof.
  intros outLen a ops S K. destruct (New_ok (N.of_nat outLen) a true S) as ((E1 & L1 & E2 & L2 & E3 & E4) & E5 & E6).
  unfold skn_chain. rewrite <- key_eq by exact K. revert E1 L1 E3 E4 E5. generalize (skn_inputs (8 * N.of_nat outLen) a (code_key (a_key a))). intros G E1 L1 E3 E4 E5.
  revert E1 E3 E4 E5. generalize (skn_New (N.of_nat outLen) a true). clear E2 L2 E6. induction ops as [|o ops IH]; intros h E1 E3 E4 E5; [reflexivity|].
  destruct o as [p|i|]; cbn [run flat_map no_msg_obs app].
  - cbn [skn_impl i_write]. unfold skn_write. rewrite E4. cbn [fst snd]. f_equal. apply IH; assumption.
  - cbn [skn_impl i_sum fst snd]. f_equal; [|apply IH; assumption]. f_equal. f_equal. unfold skn_checkSum. cbv zeta. rewrite E4, E1, E3. apply appendOutput_ok. exact L1.
  - cbn [skn_impl i_reset]. apply IH; try assumption.
Qed.

(** ** the reader *)
Definition rd (G : list N) (pos c : nat) (r : skr) : Prop :=
  r_k r = G /\ r_ctr r = w64 (N.of_nat c) /\ length (r_x r) = 64 /\ r_nx r <= 64 /\ pos + (64 - r_nx r) = 64 * c /\ skipn (r_nx r) (r_x r) = skipn pos (obz G 0 c).
Lemma next_ok : forall G r c, length G = 8 -> r_k r = G -> r_ctr r = w64 (N.of_nat c) -> skr_next r = mkskr G (ob G c) 0 (w64 (N.of_nat (S c))).
Proof. intros G r c L E1 E2. unfold skr_next. rewrite E1, E2, ctr_next. destruct (outBlock_ok G c L) as [E _]. rewrite E. reflexivity. Qed.
Lemma blocks_ok : forall G fuel c n, length G = 8 -> n <= fuel ->
  exists q n', n = 64 * q + n' /\ n' < 64 /\ skr_blocks fuel (mkskr G (ob G c) 0 (w64 (N.of_nat (S c)))) n = (mkskr G (ob G (c + q)) 0 (w64 (N.of_nat (S (c + q)))), obz G c q, n').
Proof.
  intros G fuel. induction fuel as [|fuel IH]; intros c n L H.
  - exists 0, n. split; [lia|]. split; [lia|]. rewrite Nat.add_0_r. reflexivity.
  - cbn [skr_blocks]. destruct (Nat.leb_spec 64 n) as [B|B].
    + rewrite (next_ok G _ (S c) L) by reflexivity. destruct (IH (S c) (n - 64) L ltac:(lia)) as (q & n' & E1 & E2 & E3). exists (S q), n'. split; [lia|]. split; [exact E2|].
      rewrite E3. cbn [r_x]. replace (c + S q) with (S c + q) by lia. reflexivity.
    + exists 0, n. split; [lia|]. split; [exact B|]. rewrite Nat.add_0_r. reflexivity.
Qed.
Lemma read_ok : forall G pos c r n, length G = 8 -> rd G pos c r ->
  exists c', rd G (pos + n) c' (fst (skr_read r n)) /\ snd (skr_read r n) = skipn pos (skein_output V512 G (pos + n)).
Proof.
  intros G pos c r n L (E1 & E2 & E3 & E4 & E5 & E6). unfold skr_read. destruct (Nat.ltb_spec n (64 - r_nx r)) as [B|B].
  - exists c. cbn [fst snd]. split.
    + unfold rd. cbn [r_k r_x r_nx r_ctr]. repeat split; try assumption; try lia. rewrite <- !Base.skipn_skipn, E6. reflexivity.
    + rewrite (out_any G (pos + n) c L) by lia. unfold slice. replace (r_nx r + n - r_nx r) with n by lia. rewrite E6.
      rewrite <- (firstn_skipn_comm n pos). reflexivity.
  - rewrite (next_ok G r c L E1 E2). destruct (blocks_ok G n c (n - (64 - r_nx r)) L ltac:(lia)) as (q & n' & F1 & F2 & F3). rewrite F3.
    assert (LO : length (obz G 0 (c + q)) = 64 * (c + q)) by (apply obs_len; exact L). assert (LC : length (obz G 0 c) = 64 * c) by (apply obs_len; exact L).
    assert (LQ : length (obz G c q) = 64 * q) by (apply obs_len; exact L). destruct (outBlock_ok G (c + q) L) as [_ LB].
    assert (PC : pos <= 64 * c) by lia.
    assert (EO : skipn pos (skein_output V512 G (pos + n)) = skipn (r_nx r) (r_x r) ++ obz G c q ++ firstn n' (ob G (c + q))).
    { rewrite (out_any G (pos + n) (c + q + 1) L) by lia. rewrite obs_app, obs_one. cbn [Nat.add]. rewrite firstn_app, LO. rewrite firstn_all2 by lia.
      replace (pos + n - 64 * (c + q)) with n' by lia. rewrite obs_app. cbn [Nat.add]. rewrite <- app_assoc, skipn_app, LC. replace (pos - 64 * c) with 0 by lia. rewrite skipn_O, E6. reflexivity. }
    assert (RD : rd G (pos + n) (S (c + q)) (mkskr G (ob G (c + q)) n' (w64 (N.of_nat (S (c + q)))))).
    { unfold rd. cbn [r_k r_x r_nx r_ctr]. repeat split; try assumption; try lia. replace (S (c + q)) with (c + q + 1) by lia. rewrite obs_app, obs_one. cbn [Nat.add]. rewrite skipn_app, LO.
      rewrite (skipn_all2 (obz G 0 (c + q))) by lia. replace (pos + n - 64 * (c + q)) with n' by lia. reflexivity. }
    exists (S (c + q)). destruct (Nat.ltb_spec 0 n') as [Z|Z]; cbn [fst snd r_k r_x r_nx r_ctr Nat.add].
    + split; [exact RD|symmetry; exact EO].
    + assert (n' = 0) by lia. subst n'. rewrite firstn_O, app_nil_r in EO. split; [exact RD|symmetry; exact EO].
Qed.
(** XORKeyStream is Read followed by xor *)
Lemma xor2_app : forall a b c d, length a = length c -> xor2 (a ++ b) (c ++ d) = xor2 a c ++ xor2 b d.
Proof.
  induction a as [|x a IH]; intros b [|y c] d L; try discriminate; [reflexivity|]. unfold xor2 in *. cbn [app combine map]. f_equal. apply IH. cbn [length] in L. lia.
Qed.
Lemma xor2_firstn : forall a b, xor2 a b = xor2 a (firstn (length a) b).
Proof. induction a as [|x a IH]; intros [|y b]; try reflexivity. unfold xor2 in *. cbn [combine map length firstn]. f_equal. apply IH. Qed.
Lemma xblocks_ok : forall fuel r src, length (r_x r) = 64 -> (forall r', length (r_x (skr_next r')) = 64) ->
  exists s1 s2, src = s1 ++ s2 /\ skr_xblocks fuel r src = (fst (fst (skr_blocks fuel r (length src))), xor2 s1 (snd (fst (skr_blocks fuel r (length src)))), s2)
    /\ length s2 = snd (skr_blocks fuel r (length src)) /\ length s1 = length (snd (fst (skr_blocks fuel r (length src)))).
Proof.
  induction fuel as [|fuel IH]; intros r src L LN.
  - exists [], src. repeat split.
  - cbn [skr_xblocks skr_blocks]. destruct (Nat.leb_spec 64 (length src)) as [B|B]; [|exists [], src; repeat split].
    destruct (IH (skr_next r) (skipn 64 src) (LN r) LN) as (s1 & s2 & E1 & E2 & E3 & E4). rewrite skipn_length in E2, E3, E4. rewrite E2.
    destruct (skr_blocks fuel (skr_next r) (length src - 64)) as [[r' out] n']. cbn [fst snd] in *.
    assert (L64 : length (firstn 64 src) = 64) by (rewrite firstn_length; lia).
    exists (firstn 64 src ++ s1), s2. split; [rewrite <- app_assoc, <- E1; symmetry; apply firstn_skipn|]. split; [rewrite xor2_app by lia; reflexivity|].
    split; [exact E3|]. rewrite !app_length. lia.
Qed.
Lemma xor_read : forall G pos c r src, length G = 8 -> rd G pos c r ->
  skr_xor r src = (fst (skr_read r (length src)), xor2 src (snd (skr_read r (length src)))).
Proof.
  intros G pos c r src L (E1 & E2 & E3 & E4 & E5 & E6). unfold skr_xor, skr_read. destruct (Nat.ltb_spec (length src) (64 - r_nx r)) as [B|B].
  - cbn [fst snd]. f_equal. rewrite xor2_firstn. unfold slice. replace (r_nx r + length src - r_nx r) with (length src) by lia. reflexivity.
  - rewrite (next_ok G r c L E1 E2). set (r1 := mkskr _ _ _ _).
    assert (XB : exists s1 s2 r' out, skipn (64 - r_nx r) src = s1 ++ s2 /\ skr_xblocks (length src) r1 (skipn (64 - r_nx r) src) = (r', xor2 s1 out, s2) /\
      skr_blocks (length src) r1 (length src - (64 - r_nx r)) = (r', out, length s2) /\ length s1 = length out).
    { clear E1 E2 E3 E4 E5 E6. assert (LB : forall c', length (ob G c') = 64) by (intro c'; apply (outBlock_ok G c' L)).
      rewrite <- skipn_length. generalize (skipn (64 - r_nx r) src). subst r1. generalize (length src). intro fuel. revert c. induction fuel as [|fuel IH]; intros c s.
      - exists [], s, (mkskr G (ob G c) 0 (w64 (N.of_nat (S c)))), []. repeat split.
      - cbn [skr_xblocks skr_blocks]. destruct (Nat.leb_spec 64 (length s)) as [H|H].
        + rewrite (next_ok G _ (S c) L) by reflexivity. destruct (IH (S c) (skipn 64 s)) as (s1 & s2 & r' & out & F1 & F2 & F3 & F4).
          rewrite skipn_length in F3. rewrite F2, F3. cbn [r_x]. assert (L64 : length (firstn 64 s) = 64) by (rewrite firstn_length; lia).
          exists (firstn 64 s ++ s1), s2, r', (ob G c ++ out). split; [rewrite <- app_assoc, <- F1; symmetry; apply firstn_skipn|].
          split; [rewrite xor2_app by (rewrite LB; exact L64); reflexivity|]. split; [reflexivity|]. rewrite !app_length, LB. lia.
        + exists [], s, (mkskr G (ob G c) 0 (w64 (N.of_nat (S c)))), []. repeat split. }
    destruct XB as (s1 & s2 & r' & out & F1 & F2 & F3 & F4). rewrite F2, F3.
    assert (LF : length (firstn (64 - r_nx r) src) = length (skipn (r_nx r) (r_x r))) by (rewrite firstn_length, skipn_length; lia).
    assert (ES : src = firstn (64 - r_nx r) src ++ s1 ++ s2) by (rewrite <- F1; symmetry; apply firstn_skipn).
    destruct (Nat.ltb_spec 0 (length s2)) as [Z|Z]; cbn [fst snd]; f_equal.
    + rewrite ES at 2. rewrite !xor2_app by assumption. do 2 f_equal. apply xor2_firstn.
    + assert (E0 : s2 = []) by (destruct s2; [reflexivity|cbn [length] in Z; lia]). rewrite E0, app_nil_r in ES. rewrite ES at 2. rewrite xor2_app by exact LF. reflexivity.
Qed.
Lemma reader_run : forall G ops pos c r, length G = 8 -> rd G pos c r -> skr_run r ops = ideal_reader G pos ops.
Proof.
  intros G. induction ops as [|o ops IH]; intros pos c r L R; [reflexivity|]. cbn [skr_run ideal_reader].
  destruct (read_ok G pos c r (rop_len o) L R) as (c' & R' & E). destruct o as [n|src]; cbn [skr_step rop_len rop_out] in *.
  - destruct (skr_read r n) as [r' out]. cbn [fst snd] in *. rewrite E. f_equal. apply (IH _ c' r' L R').
  - rewrite (xor_read G pos c r src L R). destruct (skr_read r (length src)) as [r' out]. cbn [fst snd] in *. rewrite E. f_equal. apply (IH _ c' r' L R').
Qed.
Lemma reader_start : forall k x, length x = 64 -> rd k 0 0 (mkskr k x 64 0).
Proof. intros k x L. unfold rd. cbn [r_k r_x r_nx r_ctr]. repeat split; try lia; try assumption. rewrite skipn_all2 by lia. reflexivity. Qed.
Lemma ideal_read_all : forall G n, ideal_reader G 0 [RRead n] = [skein_output V512 G n].
Proof. intros. reflexivity. Qed.
Lemma history_total : forall ops m, (N.of_nat (length (history m ops)) <= N.of_nat (length m) + ops_total ops)%N.
Proof.
  induction ops as [|[p|i|] ops IH]; intro m; cbn [history ops_total]; [lia| |apply IH|].
  - specialize (IH (m ++ p)). rewrite app_length in IH. lia.
  - specialize (IH []). cbn [length] in IH. lia.
Qed.
(** C119: after any calls of Write, Sum and Reset, the reader returns the output of the message written since the last Reset, in
    order, whatever the sizes of the reads; XORKeyStream takes its key bytes from the same sequence. *)
Theorem C119_skn_reader : forall outLen a ops rops, args_small a -> a_key a <> Some [] -> (ops_total ops < 2 ^ 64)%N ->
  skr_run (skn_reader (exec skn_impl (skn_New (N.of_nat outLen) a false) ops)) rops =
  ideal_reader (ubi V512 (skn_chain (8 * N.of_nat outLen) a) (history [] ops) 48) 0 rops.
Proof.
  intros outLen a ops rops S K HB. destruct (New_rel (N.of_nat outLen) a S) as [R L]. unfold skn_chain. rewrite <- key_eq by exact K. revert R L.
  generalize (skn_inputs (8 * N.of_nat outLen) a (code_key (a_key a))). intros G R L.
  assert (X : skn_rel G (N.of_nat outLen) (exec skn_impl (skn_New (N.of_nat outLen) a false) ops) (history [] ops)).
  { apply (exec_refines _ skn_impl (skn_rel G (N.of_nat outLen))); [| | |exact R].
    - intros h m p H. apply (write_rel G _ h m p H).
    - intros h m i H. exact H.
    - intros h m H. apply (reset_rel G _ h m H). }
  assert (HL : (N.of_nat (length (history [] ops)) < 2 ^ 64)%N) by (eapply N.le_lt_trans; [apply (history_total ops [])|exact HB]).
  revert X HL. generalize (history [] ops) (exec skn_impl (skn_New (N.of_nat outLen) a false) ops). intros m h (A & B & C & D & E) HL.
  unfold skn_reader. cbv zeta. rewrite C. destruct (last_ok 48 G h m L ltac:(apply in_types) A HL) as (E1 & E2 & E3). rewrite E1.
  apply (reader_run _ rops 0 0 _ E2). apply reader_start. exact E3.
Qed.
(** Sum is the first outLen bytes of the reader. *)
Theorem C119_skn_sum_is_prefix : forall outLen a ops i, args_small a -> a_key a <> Some [] -> (ops_total ops < 2 ^ 64)%N ->
  let h := exec skn_impl (skn_New (N.of_nat outLen) a false) ops in
  snd (i_sum skn_impl h i) = i ++ concat (skr_run (skn_reader h) [RRead outLen]).
Proof.
  intros outLen a ops i S K HB h. unfold h. rewrite C119_skn_reader by assumption. rewrite ideal_read_all. cbn [concat]. rewrite app_nil_r. cbn [skn_impl i_sum snd]. f_equal.
  destruct (New_rel (N.of_nat outLen) a S) as [R L]. unfold skn_chain. rewrite <- key_eq by exact K. revert R L.
  generalize (skn_inputs (8 * N.of_nat outLen) a (code_key (a_key a))). intros G R L.
  apply (sum_rel G outLen _ _ L); [|eapply N.le_lt_trans; [apply (history_total ops [])|exact HB]].
  apply (exec_refines _ skn_impl (skn_rel G (N.of_nat outLen))); [| | |exact R].
  - intros h' m p H. apply (write_rel G _ h' m p H).
  - intros h' m j H. exact H.
  - intros h' m H. apply (reset_rel G _ h' m H).
Qed.

(** C118: an empty key that is not nil is not treated as an absent key. *)
Definition empty_key_args : skn_args := mkargs (Some []) None None None None.
Theorem C118_skn_empty_key_refuted : ~ (forall outLen a ops, args_small a -> Forall op_bytes ops -> (ops_total ops < 2 ^ 64)%N ->
  run skn_impl (skn_New (N.of_nat outLen) a false) ops = ideal_run (skn_hash outLen a) [] ops).
Proof.
  intro H. specialize (H 1 empty_key_args [Sum []]). assert (E : run skn_impl (skn_New (N.of_nat 1) empty_key_args false) [Sum []] <> ideal_run (skn_hash 1 empty_key_args) [] [Sum []]) by (vm_compute; discriminate).
  apply E, H; [repeat split|repeat constructor|reflexivity].
Qed.
(** exactly: the key stage runs on every key that is not nil, the empty one included *)
Theorem C118_skn_key_exact : forall outLen a ops, args_small a -> Forall op_bytes ops -> (ops_total ops < 2 ^ 64)%N ->
  run skn_impl (skn_New (N.of_nat outLen) a false) ops =
  ideal_run (fun m => skein_output V512 (ubi V512 (skn_inputs (8 * N.of_nat outLen) a (match a_key a with None => zeros 8 | Some k => ubi V512 (zeros 8) k 0 end)) m 48) outLen) [] ops.
Proof. intros outLen a ops S HF HB. apply skn_run_ok; assumption. Qed.

(** C120: the stream cipher *)
Lemma stream_ok : forall key nonce rops, small key -> small nonce -> key <> Some [] ->
  skr_run (skn_NewStream key nonce) rops = ideal_reader (skn_chain (2 ^ 64 - 8) (skn_stream_args key nonce)) 0 rops /\ length (skn_chain (2 ^ 64 - 8) (skn_stream_args key nonce)) = 8.
Proof.
  intros key nonce rops SK SN K. unfold skn_NewStream, skn_reader. cbv zeta.
  assert (S : args_small (skn_stream_args key nonce)) by (repeat split; assumption).
  destruct (New_ok ((2 ^ 64 - 1) / 8) (skn_stream_args key nonce) true S) as ((E1 & L1 & E2 & L2 & E3 & E4) & E5 & E6).
  change (8 * ((2 ^ 64 - 1) / 8))%N with (2 ^ 64 - 8)%N in *. unfold skn_chain. rewrite <- (key_eq (a_key _)) by exact K.
  change (mkargs key None None None nonce) with (skn_stream_args key nonce). rewrite E4, E1. split; [|exact L1]. apply (reader_run _ rops 0 0 _ L1). apply reader_start. exact L2.
Qed.
Theorem C120_skn_stream_exact : forall key nonce rops, small key -> small nonce -> key <> Some [] ->
  skr_run (skn_NewStream key nonce) rops = ideal_reader (skn_chain (2 ^ 64 - 8) (skn_stream_args key nonce)) 0 rops.
Proof. intros key nonce rops SK SN K. apply stream_ok; assumption. Qed.
Theorem C120_skn_stream_length_refuted : ~ (forall key nonce rops, small key -> small nonce -> key <> Some [] ->
  skr_run (skn_NewStream key nonce) rops = ideal_reader (skn_stream key nonce) 0 rops).
Proof.
  intro H. specialize (H (Some [1%N]) None [RRead 1] eq_refl I ltac:(discriminate)). revert H. vm_compute. discriminate.
Qed.
Lemma firstn_add : forall A (l : list A) a b, firstn (a + b) l = firstn a l ++ firstn b (skipn a l).
Proof. intros A l a. revert l. induction a as [|a IH]; intros [|x l] b; cbn [Nat.add firstn skipn app]; rewrite ?firstn_nil; try reflexivity. f_equal. apply IH. Qed.
Lemma out_split : forall G pos n1 n2, length G = 8 ->
  skipn pos (skein_output V512 G (pos + (n1 + n2))) = skipn pos (skein_output V512 G (pos + n1)) ++ skipn (pos + n1) (skein_output V512 G (pos + n1 + n2)).
Proof.
  intros G pos n1 n2 L. rewrite !(out_any G _ (pos + n1 + n2) L) by lia. set (F := obz G 0 (pos + n1 + n2)). clearbody F.
  rewrite <- !firstn_skipn_comm. rewrite firstn_add, Base.skipn_skipn. reflexivity.
Qed.
Lemma out_length : forall G n, length G = 8 -> length (skein_output V512 G n) = n.
Proof. intros G n L. rewrite (out_any G n n L) by lia. rewrite firstn_length, obs_len by exact L. lia. Qed.
Lemma reader_concat : forall G ps pos, length G = 8 ->
  concat (ideal_reader G pos (map RXor ps)) = xor2 (concat ps) (skipn pos (skein_output V512 G (pos + length (concat ps)))).
Proof.
  intros G ps. induction ps as [|p ps IH]; intros pos L; [cbn [concat map ideal_reader length]; reflexivity|].
  cbn [map ideal_reader concat rop_len rop_out]. rewrite IH by exact L. rewrite app_length, out_split by exact L.
  rewrite xor2_app; [reflexivity|]. rewrite skipn_length, out_length by exact L. lia.
Qed.
Lemma xor2_len : forall a b, length a <= length b -> length (xor2 a b) = length a.
Proof. intros a b H. unfold xor2. rewrite map_length, combine_length. lia. Qed.
Lemma xor2_twice : forall a b, length a <= length b -> xor2 (xor2 a b) b = a.
Proof.
  induction a as [|x a IH]; intros [|y b] H; try reflexivity; [cbn [length] in H; lia|]. unfold xor2 in *. cbn [combine map fst snd]. f_equal; [|apply IH; cbn [length] in H; lia].
  rewrite N.lxor_assoc, N.lxor_nilpotent. apply N.lxor_0_r.
Qed.
(** Decryption: with the same key and nonce, XORKeyStream over the ciphertext gives the plaintext back, however the two sides
    split the data. *)
Theorem C120_skn_stream_roundtrip : forall key nonce ps qs, small key -> small nonce -> key <> Some [] ->
  concat qs = concat (skr_run (skn_NewStream key nonce) (map RXor ps)) ->
  concat (skr_run (skn_NewStream key nonce) (map RXor qs)) = concat ps.
Proof.
  intros key nonce ps qs SK SN K EQ. destruct (stream_ok key nonce (map RXor ps) SK SN K) as [E1 L]. destruct (stream_ok key nonce (map RXor qs) SK SN K) as [E2 _].
  rewrite E1 in EQ. rewrite E2. clear E1 E2. revert EQ L. generalize (skn_chain (2 ^ 64 - 8) (skn_stream_args key nonce)). intros G EQ L.
  rewrite reader_concat in * by exact L. cbn [Nat.add] in *. rewrite !skipn_O in *. rewrite EQ.
  assert (LX : length (xor2 (concat ps) (skein_output V512 G (length (concat ps)))) = length (concat ps)) by (apply xor2_len; rewrite out_length by exact L; lia).
  rewrite LX. apply xor2_twice. rewrite out_length by exact L. lia.
Qed.

(** Concrete cases: a keyed hash with personalization over a split message (two blocks) meets the hypotheses; the reader crosses
    a block boundary. *)
Definition ex_args : skn_args := mkargs (Some [1; 2; 3]%N) (Some [112]%N) None None (Some []).
Example skn_ex_hyp : args_small ex_args /\ a_key ex_args <> Some [] /\ (ops_total [Write (repeat 7%N 65); Sum []; Reset; Write [1%N]; Sum [9%N]] < 2 ^ 64)%N.
Proof. repeat split. discriminate. Qed.
Example skn_ex_reader : skr_run (skn_reader (skn_New 32 skn_noargs false)) [RRead 2; RXor [0; 0]%N] = [[0x39; 0xcc]; [0xc4; 0x55]]%N.
Proof. vm_compute. reflexivity. Qed.
