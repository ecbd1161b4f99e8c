(** PropKupyna.v -- properties C43, C44: kupyna and its KMAC. *)
From Coq Require Import List NArith Arith Lia Bool.
From Verif Require Import Base Words HashAPI Buf MD Refine KupynaTab SpecKupyna Kupyna.
Import ListNotations.

Lemma len96 : forall len, (N.of_nat len < 2 ^ 61)%N ->
  le_bytes 8 (mul64 (w64 (1 * N.of_nat len)) 8) ++ zeros 4 = le_bytes 12 (8 * N.of_nat len).
Proof.
  intros len H. change 12 with (8 + 4). rewrite le_bytes_app. f_equal.
  - unfold mul64. rewrite w64_mul_l, le_bytes8_w64. f_equal. lia.
  - replace (N.shiftr _ _) with 0%N; [reflexivity|]. symmetry. rewrite N.shiftr_div_pow2. apply N.div_small.
    change (2 ^ (8 * N.of_nat 8))%N with (8 * 2 ^ 61)%N. lia.
Qed.

Section Obj.
Variable p : kup_par.
Notation n := (k_n p). Notation t := (k_t p). Notation s7 := (k_s7 p).
Hypothesis Hp : p = kup_small \/ p = kup_big.
Let Hn : 8 <= n. Proof. destruct Hp as [-> | ->]; simpl; lia. Qed.
Let Hn16 : n <= 16. Proof. destruct Hp as [-> | ->]; simpl; lia. Qed.
Let Hs7 : s7 <= n. Proof. destruct Hp as [-> | ->]; simpl; lia. Qed.
Let Ht : Nat.Even t. Proof. destruct Hp as [-> | ->]; [exists 5|exists 7]; reflexivity. Qed.
Let Ht16 : t <= 16. Proof. destruct Hp as [-> | ->]; simpl; lia. Qed.

Definition kiv : list N := N.of_nat (8 * n) :: zeros (n - 1).
Definition krel (d : dig (list N)) (m : list N) : Prop :=
  dig_rel (8 * n) (kblock n t s7) kiv 1 d m /\ isbytes m.
Lemma kiv_st : kst p kiv.
Proof.
  unfold kiv. split. { cbn [length]. rewrite zeros_length. lia. }
  constructor. { unfold is64. apply N.lt_trans with 256%N; [lia|reflexivity]. }
  unfold zeros. apply Forall_forall. intros x Hx. apply repeat_spec in Hx. subst. reflexivity.
Qed.
Lemma kiv_cols : wcols kiv = kup_iv p.
Proof. unfold kiv. destruct Hp as [-> | ->]; vm_compute; reflexivity. Qed.
Lemma kfold_ok : forall bs s, kst p s -> Forall (fun b => length b = 8 * n /\ isbytes b) bs ->
  fold_left (kup_compress p) bs (wcols s) = wcols (fold_left (kblock n t s7) bs s) /\ kst p (fold_left (kblock n t s7) bs s).
Proof.
  induction bs as [|b bs IH]; intros s Hs HF. { split; [reflexivity|exact Hs]. }
  inversion HF as [|? ? [Lb Hb] HF']; subst. rewrite !fold_left_cons.
  destruct (kblock_ok p Hn Hn16 Hs7 Ht Ht16 s b Hs Lb Hb) as [E S]. rewrite E. now apply IH.
Qed.
Lemma knew_rel : krel (knew n) [].
Proof. split; [|constructor]. apply dig_rel_new; [lia|]. apply zeros_length. Qed.
Lemma kwrite_rel : forall d m q, isbytes q -> krel d m -> krel (fst (kwrite n t s7 d q)) (m ++ q).
Proof.
  intros d m q Hq [H Hm]. split; [|apply isbytes_app; auto]. apply (write_std_rel (8 * n) (kblock n t s7) ltac:(lia)). exact H.
Qed.

Lemma isbytes_md_pad : forall bs lenb m, isbytes lenb -> isbytes m -> isbytes (md_pad bs 0x80 lenb m).
Proof.
  intros. unfold md_pad. apply isbytes_app. split; auto. constructor; [reflexivity|]. apply isbytes_app. split; auto. apply zeros_isbytes.
Qed.

Lemma kcheckSum_finish : forall d m, krel d m ->
  kcheckSum n t s7 d = skipn (4 * n) (kbytes (kout n t s7 (finish_direct (8 * n) (kblock n t s7) 0x80 (le_bytes 8 (mul64 (dlen d) 8) ++ zeros 4) d))).
Proof.
  intros d m [H _]. unfold kcheckSum, finish_direct.
  assert (Lx : length (dx d) = 8 * n) by (destruct H as (_ & (? & _) & _); auto).
  pose proof (dig_nx_lt (8 * n) _ ltac:(lia) _ _ _ _ H) as Hnx.
  rewrite app_length, le_bytes_length, zeros_length. change (8 + 4) with 12.
  set (l8 := le_bytes 8 _). assert (L8 : length l8 = 8) by apply le_bytes_length. clearbody l8.
  assert (K : forall x nx, length x = 8 * n -> nx <= 8 * n - 12 ->
    copy_at (copy_at x nx (zeros (8 * n))) (8 * n - 12) l8 = copy_at (copy_at x nx (zeros (8 * n))) (8 * n - 12) (l8 ++ zeros 4)).
  { intros x nx Lx' Hx. rewrite (copy_at_full _ x nx) by (rewrite ?zeros_length; lia).
    rewrite Lx', firstn_zeros. replace (Nat.min (8 * n - nx) (8 * n)) with (8 * n - nx) by lia.
    replace (8 * n - nx) with ((8 * n - 12 - nx) + 12) by lia. rewrite <- zeros_app, app_assoc.
    set (A := firstn nx x ++ zeros (8 * n - 12 - nx)).
    assert (LA : length A = 8 * n - 12) by (unfold A; rewrite app_length, firstn_length, zeros_length; lia). clearbody A.
    rewrite (copy_at_full _ (A ++ zeros 12) _ (l8 ++ zeros 4)) by (rewrite !app_length, ?zeros_length; lia).
    unfold copy_at. rewrite !firstn_app, !app_length, !zeros_length, LA, L8.
    rewrite (firstn_all2 A) by lia. replace (8 * n - 12 - (8 * n - 12)) with 0 by lia. cbn [firstn]. rewrite app_nil_r.
    replace (8 * n - 12 + 12 - (8 * n - 12)) with 12 by lia. rewrite (firstn_all2 (n := 12) l8) by lia.
    rewrite firstn_zeros. replace (Nat.min (12 - 8) 4) with 4 by lia. f_equal.
    rewrite skipn_app, LA. rewrite (skipn_all2 A) by lia. cbn [app].
    replace (8 * n - 12 + Nat.min 12 8 - (8 * n - 12)) with 8 by lia. rewrite skipn_zeros. reflexivity. }
  destruct (Nat.ltb_spec (8 * n - 12) (dnx d + 1)).
  - rewrite <- K; [reflexivity| |lia]. rewrite copy_at_length; rewrite upd_length; lia.
  - rewrite <- K; [reflexivity| |lia]. now rewrite upd_length.
Qed.

Lemma kcheckSum_ok : forall d m, (N.of_nat (length m) < 2 ^ 61)%N -> krel d m ->
  kcheckSum n t s7 d = kup_hash p (4 * n) m.
Proof.
  intros d m HB HR. rewrite (kcheckSum_finish d m HR). pose proof HR as [H Hm].
  assert (El : le_bytes 8 (mul64 (dlen d) 8) ++ zeros 4 = le_bytes 12 (8 * N.of_nat (length m))).
  { destruct H as (_ & _ & ->). now apply len96. }
  rewrite El. rewrite (finish_direct_ok _ (8 * n) _ kiv 1%N 0x80%N (le_bytes 12 (8 * N.of_nat (length m))) d m ltac:(lia) ltac:(rewrite le_bytes_length; lia) H).
  unfold kup_hash. cbv zeta. fold (kup_bs p). fold (kup_pad p m). rewrite <- kiv_cols.
  assert (HF : Forall (fun b => length b = 8 * n /\ isbytes b) (chunks (kup_bs p) (kup_pad p m))).
  { unfold kup_bs. apply Forall_forall. intros c Hc. split.
    - pose proof (chunks_all_length _ (8 * n) (kup_pad p m) ltac:(lia)) as F. rewrite Forall_forall in F. now apply F.
    - unfold chunks in Hc. apply in_map_iff in Hc. destruct Hc as (i & <- & _). apply isbytes_firstn, isbytes_skipn.
      apply isbytes_md_pad; auto. apply le_bytes_isbytes. }
  destruct (kfold_ok (chunks (kup_bs p) (kup_pad p m)) kiv kiv_st HF) as [E S]. rewrite E.
  rewrite (kout_ok p Hn Hn16 Hs7 Ht Ht16 _ S). f_equal. unfold kup_bs. lia.
Qed.
End Obj.

(** ** C43: the hash.Hash contract, all three sizes. *)
Lemma kup_run : forall p, p = kup_small \/ p = kup_big -> forall ops, Forall op_bytes ops -> (ops_total ops < 2 ^ 61)%N ->
  run (kimpl (k_n p) (k_t p) (k_s7 p)) (knew (k_n p)) ops = ideal_run (kup_hash p (4 * k_n p)) [] ops.
Proof.
  intros p Hp ops HF HB.
  apply (run_refines_total _ (kimpl (k_n p) (k_t p) (k_s7 p)) (kup_hash p (4 * k_n p)) (krel p) (2 ^ 61)%N); auto.
  - intros d m q Hq _ H. now apply kwrite_rel.
  - intros d m q _ _ _. apply write_std_count.
  - intros d m i HL H. cbn [i_sum kimpl ksum snd]. now rewrite (kcheckSum_ok p Hp d m).
  - intros d m _. now apply knew_rel.
  - now apply knew_rel.
Qed.
Theorem C43_kupyna256_contract : forall ops, Forall op_bytes ops -> (ops_total ops < 2 ^ 61)%N ->
  run kup256_impl kup256_new ops = ideal_run kupyna256 [] ops.
Proof. intros ops. exact (kup_run kup_small (or_introl eq_refl) ops). Qed.
Theorem C43_kupyna512_contract : forall ops, Forall op_bytes ops -> (ops_total ops < 2 ^ 61)%N ->
  run kup512_impl kup512_new ops = ideal_run kupyna512 [] ops.
Proof. intros ops. exact (kup_run kup_big (or_intror eq_refl) ops). Qed.
Lemma kup384_512 : forall m, kupyna384 m = skipn 16 (kupyna512 m).
Proof. intros. unfold kupyna384, kupyna512, kup_hash. cbv zeta. rewrite skipn_skipn. reflexivity. Qed.
Lemma big_sum : forall d m, (N.of_nat (length m) < 2 ^ 61)%N -> krel kup_big d m ->
  snd (ksum 16 14 11 d []) = kupyna512 m.
Proof. intros d m HL H. exact (kcheckSum_ok kup_big (or_intror eq_refl) d m HL H). Qed.
Lemma small_sum : forall d m, (N.of_nat (length m) < 2 ^ 61)%N -> krel kup_small d m ->
  snd (ksum 8 10 7 d []) = kupyna256 m.
Proof. intros d m HL H. exact (kcheckSum_ok kup_small (or_introl eq_refl) d m HL H). Qed.
Lemma sum384_eq : forall d i, snd (kup384_sum d i) = i ++ skipn 16 (snd (ksum 16 14 11 d [])).
Proof. reflexivity. Qed.
Lemma mid_sum : forall d m i, (N.of_nat (length m) < 2 ^ 61)%N -> krel kup_big d m ->
  snd (kup384_sum d i) = i ++ kupyna384 m.
Proof. intros d m i HL H. now rewrite sum384_eq, (big_sum d m HL H), kup384_512. Qed.
Theorem C43_kupyna384_contract : forall ops, Forall op_bytes ops -> (ops_total ops < 2 ^ 61)%N ->
  run kup384_impl kup512_new ops = ideal_run kupyna384 [] ops.
Proof.
  intros ops HF HB. assert (Hp : kup_big = kup_small \/ kup_big = kup_big) by now right.
  apply (run_refines_total _ kup384_impl kupyna384 (krel kup_big) (2 ^ 61)%N); auto.
  - intros d m q Hq _ H. exact (kwrite_rel kup_big Hp d m q Hq H).
  - intros d m q _ _ _. apply write_std_count.
  - intros d m i HL H. now apply mid_sum.
  - intros d m _. exact (knew_rel kup_big Hp).
  - exact (knew_rel kup_big Hp).
Qed.
Lemma oneshot_full : forall out size, length out = size -> copy_at (zeros size) 0 out = out.
Proof.
  intros out size L. rewrite copy_at_full by (rewrite zeros_length; lia). cbn [firstn app]. rewrite zeros_length, Nat.sub_0_r. apply firstn_all2. lia.
Qed.
Lemma kup_hash_len : forall p o m, length (kup_hash p o m) = 8 * k_n p - (kup_bs p - o).
Proof.
  intros p o m. unfold kup_hash. cbv zeta. rewrite skipn_length. f_equal. unfold kup_xor.
  set (a := kup_Tx p _). set (b := fold_left _ _ _). clearbody a b.
  assert (G : forall s, length (concat (map (fun j => map (fun r => N.lxor (at_ (nth j a []) r) (at_ (nth j b []) r)) (seq 0 8)) s)) = 8 * length s).
  { induction s as [|j s IH]; [reflexivity|]. cbn [map concat]. rewrite app_length, IH, map_length, seq_length. cbn [length]. lia. }
  rewrite G. now rewrite seq_length.
Qed.
(** The one-shot functions. *)
Theorem C43_kupyna_oneshot : forall m, isbytes m -> (N.of_nat (length m) < 2 ^ 61)%N ->
  kup_Sum256 m = kupyna256 m /\ kup_Sum384 m = kupyna384 m /\ kup_Sum512 m = kupyna512 m.
Proof.
  intros m Hm HL. unfold kup_Sum256, kup_Sum384, kup_Sum512, oneshot. cbn [i_sum i_write kup256_impl kup384_impl kup512_impl kimpl].
  assert (Hb : kup_big = kup_small \/ kup_big = kup_big) by now right. assert (Hs : kup_small = kup_small \/ kup_small = kup_big) by now left.
  pose proof (kwrite_rel kup_small Hs _ [] m Hm (knew_rel kup_small Hs)) as R1. pose proof (kwrite_rel kup_big Hb _ [] m Hm (knew_rel kup_big Hb)) as R2.
  change ([] ++ m) with m in R1, R2. unfold kup256_new, kup512_new.
  change (k_n kup_small) with 8 in R1. change (k_t kup_small) with 10 in R1. change (k_s7 kup_small) with 7 in R1.
  change (k_n kup_big) with 16 in R2. change (k_t kup_big) with 14 in R2. change (k_s7 kup_big) with 11 in R2.
  rewrite (small_sum _ m HL R1), (big_sum _ m HL R2), (mid_sum _ m [] HL R2).
  repeat split; apply oneshot_full; apply kup_hash_len.
Qed.
Example C43_nonvacuous : Forall op_bytes [Write [1; 2]%N; Sum [9]%N; Write (zeros 70); Sum []; Reset; Sum []] /\
  kupyna256 [] <> kupyna256 [0]%N.
Proof. split; [repeat constructor|vm_compute; discriminate]. Qed.

(** ** C44: KMAC.  The first Sum of an object is the standard's KMAC of everything written. *)
Section KmacProof.
Variables (p : kup_par) (I : impl (dig (list N))) (h0 : dig (list N)) (H : list N -> list N) (kl : nat) (kpad : list N).
Variable R : dig (list N) -> list N -> Prop.
Hypothesis R0 : R h0 [].
Hypothesis Rw : forall d m q, isbytes q -> R d m -> R (fst (i_write I d q)) (m ++ q).
Hypothesis Rn : forall d q, snd (i_write I d q) = length q.
Hypothesis Rs : forall d m, (N.of_nat (length m) < 2 ^ 61)%N -> R d m -> snd (i_sum I d []) = H m.
Hypothesis Hbs : kup_bs p = 64 \/ kup_bs p = 128.
Hypothesis Hkl : kl <= 64.
Hypothesis HH : forall key m, length key = kl -> H (kup_pad p key ++ kup_pad p m ++ map (fun b => N.lxor b 255) key) = kup_kmac p key m.
Hypothesis Hkpad : forall key, length key = kl -> kup_pad p key = key ++ kpad.
Hypothesis Hkpb : isbytes kpad.

Definition km_rel (key : list N) (d : kmac) (m : list N) : Prop :=
  R (km_h d) (kup_pad p key ++ m) /\ km_ik d = map (fun b => N.lxor b 255) key /\ km_len d = w64 (N.of_nat (length m)).
Lemma km_init_rel : forall key, isbytes key -> length key = kl -> km_rel key (kmac_init I h0 kpad key) [].
Proof.
  intros key Hk L. unfold kmac_init. split; [|split; reflexivity]. cbn [km_h]. rewrite app_nil_r, Hkpad by assumption.
  apply Rw; auto. change key with ([] ++ key) at 2. apply Rw; auto.
Qed.
Lemma km_write_rel : forall key d m q, isbytes q -> km_rel key d m -> km_rel key (fst (kmac_write I d q)) (m ++ q).
Proof.
  intros key d m q Hq (H1 & H2 & H3). unfold kmac_write. pose proof (Rw _ _ q Hq H1) as HW.
  destruct (i_write I (km_h d) q) as [h c]. cbn [fst] in *. split; [|split]; cbn [km_h km_ik km_len].
  - now rewrite app_assoc.
  - assumption.
  - rewrite H3. unfold add64. rewrite w64_add_l, app_length. f_equal. lia.
Qed.
Lemma km_pad : forall m, (N.of_nat (length m) < 2 ^ 61)%N ->
  kup_pad p m = ((m ++ firstn (kmac_pad_size (kup_bs p) (w64 (N.of_nat (length m))) + 1) kdpad) ++ le_bytes 8 (mul64 (w64 (N.of_nat (length m))) 8)) ++ slice kdpad 16 20.
Proof.
  intros m Hm. rewrite (w64_small (N.of_nat (length m))) by (eapply N.lt_trans; [exact Hm|reflexivity]).
  unfold kup_pad, md_pad. rewrite le_bytes_length. change (slice kdpad 16 20) with (zeros 4).
  rewrite <- len96 by assumption. rewrite N.mul_1_l, (w64_small (N.of_nat (length m))) by (eapply N.lt_trans; [exact Hm|reflexivity]).
  rewrite <- !app_assoc. f_equal. rewrite app_comm_cons. f_equal.
  assert (E : kmac_pad_size (kup_bs p) (N.of_nat (length m)) = (kup_bs p - (length m + 1 + 12) mod kup_bs p) mod kup_bs p).
  { unfold kmac_pad_size. rewrite pad_count by lia. cbv zeta. rewrite rest_length by lia.
    set (b := kup_bs p) in *. set (l := length m). clearbody b l. clear Hkpad HH.
    pose proof (Nat.mod_upper_bound l b ltac:(lia)) as U. pose proof (Nat.div_mod l b ltac:(lia)) as D.
    destruct (N.ltb_spec (N.of_nat l) (N.of_nat (b - 12))) as [Hl|Hl].
    - rewrite (Nat.mod_small l b) by lia. destruct (Nat.ltb_spec (b - 12) (l + 1)); lia.
    - rewrite <- Nat2N.inj_sub, <- Nat2N.inj_mod by lia.
      set (q := l / b) in *. set (r := l mod b) in *. clearbody q r.
      destruct (Nat.ltb_spec (b - 12) (r + 1)) as [Hr|Hr].
      + assert (M : (l - (b - 12)) mod b = r - (b - 12)).
        { symmetry. apply (Nat.mod_unique _ _ q); [lia|]. lia. } rewrite M. lia.
      + assert (M : (l - (b - 12)) mod b = r + 12).
        { symmetry. apply (Nat.mod_unique _ _ (q - 1)); [lia|]. destruct q as [|q]; [lia|]. replace (S q - 1) with q by lia. nia. } rewrite M. lia. }
  rewrite E. set (k := (kup_bs p - (length m + 1 + 12) mod kup_bs p) mod kup_bs p). assert (Hk : k < 128). { unfold k; clear E k. pose proof (Nat.mod_upper_bound (kup_bs p - (length m + 1 + 12) mod kup_bs p) (kup_bs p) ltac:(lia)). lia. } clearbody k.
  rewrite (Nat.add_1_r k). unfold kdpad. rewrite firstn_cons, firstn_zeros. replace (Nat.min k 127) with k by lia. reflexivity.
Qed.
Lemma isbytes_inv : forall key, isbytes key -> isbytes (map (fun b => N.lxor b 255) key).
Proof. intros key Hk. apply Forall_map. eapply Forall_impl; [|exact Hk]. intros b Hb. apply (lxor_lt 8); [exact Hb|reflexivity]. Qed.
Lemma kup_pad_len : forall m, length (kup_pad p m) <= length m + 256.
Proof.
  intros. unfold kup_pad, md_pad. rewrite app_length. cbn [length]. rewrite app_length, zeros_length, le_bytes_length.
  pose proof (Nat.mod_upper_bound (kup_bs p - (length m + 1 + 12) mod kup_bs p) (kup_bs p) ltac:(lia)). lia.
Qed.
Lemma km_sum_ok : forall key d m i, isbytes key -> length key = kl -> (N.of_nat (length m) < 2 ^ 60)%N -> km_rel key d m ->
  snd (kmac_sum I (kup_bs p) d i) = i ++ kup_kmac p key m.
Proof.
  intros key d m i Hk L HL (H1 & H2 & H3). unfold kmac_sum.
  assert (E : snd (kmac_checkSum I (kup_bs p) d) = kup_kmac p key m).
  { unfold kmac_checkSum. rewrite H3, H2. set (pd := firstn _ kdpad). set (l8 := le_bytes 8 _). set (h1 := fst (i_write I (km_h d) pd)).
    assert (HL61 : (N.of_nat (length m) < 2 ^ 61)%N) by lia.
    assert (Q1 : R h1 (kup_pad p key ++ m ++ pd)).
    { rewrite app_assoc. apply Rw; auto. apply isbytes_firstn. unfold kdpad. constructor; [reflexivity|]. apply zeros_isbytes. }
    assert (Q2 : R (fst (i_write I h1 l8)) (kup_pad p key ++ (m ++ pd) ++ l8)).
    { rewrite app_assoc. apply Rw; auto. apply le_bytes_isbytes. }
    set (h2 := fst (i_write I h1 l8)) in *.
    assert (Q3 : R (fst (i_write I h2 (slice kdpad 16 20))) (kup_pad p key ++ ((m ++ pd) ++ l8) ++ slice kdpad 16 20)).
    { rewrite app_assoc. apply Rw; auto. repeat constructor. }
    unfold pd, l8 in Q3. rewrite <- km_pad in Q3 by assumption. set (h3 := fst (i_write I h2 (slice kdpad 16 20))) in *.
    pose proof (Rw h3 _ _ (isbytes_inv key Hk) Q3) as Q4. rewrite <- app_assoc in Q4.
    rewrite (Rs _ (kup_pad p key ++ kup_pad p m ++ map (fun b => N.lxor b 255) key)); [now apply HH| |exact Q4].
    rewrite !app_length, map_length. pose proof (kup_pad_len key). pose proof (kup_pad_len m). lia. }
  destruct (kmac_checkSum I (kup_bs p) d) as [h tag]. cbn [snd] in *. now rewrite E.
Qed.
Lemma km_run : forall key, isbytes key -> length key = kl -> forall ps i, Forall isbytes ps -> (N.of_nat (length (concat ps)) < 2 ^ 60)%N ->
  run (kmac_impl I (kup_bs p)) (kmac_init I h0 kpad key) (map Write ps ++ [Sum i]) = ideal_run (kup_kmac p key) [] (map Write ps ++ [Sum i]).
Proof.
  intros key Hk L ps i.
  assert (G : forall ps d m, Forall isbytes ps -> (N.of_nat (length (m ++ concat ps)) < 2 ^ 60)%N -> km_rel key d m ->
    run (kmac_impl I (kup_bs p)) d (map Write ps ++ [Sum i]) = ideal_run (kup_kmac p key) m (map Write ps ++ [Sum i])).
  { clear ps. induction ps as [|q ps IH]; intros d m HF HL HR.
    - cbn [concat] in HL. rewrite app_nil_r in HL. cbn [map app run ideal_run i_sum kmac_impl].
      pose proof (km_sum_ok key d m i Hk L HL HR) as E. destruct (kmac_sum I (kup_bs p) d i) as [d' o]. cbn [snd] in E. now rewrite E.
    - pose proof (Forall_inv HF) as Hq. pose proof (Forall_inv_tail HF) as HF'. cbn [map app run ideal_run i_write kmac_impl].
      pose proof (km_write_rel key d m q Hq HR) as HW. pose proof (Rn (km_h d) q) as HN.
      unfold kmac_write in *. destruct (i_write I (km_h d) q) as [h c]. cbn [fst snd] in *. subst c. f_equal.
      apply IH; auto. cbn [concat] in HL. rewrite <- app_assoc. exact HL. }
  intros HF HL. apply G; auto. now apply km_init_rel.
Qed.
End KmacProof.

Theorem C44_kmac256_first_sum : forall key, isbytes key -> length key = 32 ->
  exists k, NewKmac key = Some (KM256, k) /\ forall ps i, Forall isbytes ps -> (N.of_nat (length (concat ps)) < 2 ^ 60)%N ->
  run kmac256_impl k (map Write ps ++ [Sum i]) = ideal_run (kupyna_kmac256 key) [] (map Write ps ++ [Sum i]).
Proof.
  intros key Hk L. unfold NewKmac. rewrite L. unfold NewKmac256, NewKmacN. rewrite L. cbn [Nat.eqb option_map].
  eexists. split; [reflexivity|]. intros ps i. unfold kmac256_impl, kupyna_kmac256. assert (Hs : kup_small = kup_small \/ kup_small = kup_big) by now left.
  apply (km_run kup_small kup256_impl kup256_new kupyna256 32 kpad32 (krel kup_small)); auto; try lia.
  - exact (knew_rel kup_small Hs).
  - intros d m q Hq HR. exact (kwrite_rel kup_small Hs d m q Hq HR).
  - intros d q. apply write_std_count.
  - intros d m HL HR. exact (small_sum d m HL HR).
  - intros key' m L'. unfold kup_kmac. now rewrite L'.
  - intros key' L'. unfold kup_pad, md_pad. now rewrite L'.
  - repeat constructor.
Qed.
Theorem C44_kmac384_first_sum : forall key, isbytes key -> length key = 48 ->
  exists k, NewKmac key = Some (KM384, k) /\ forall ps i, Forall isbytes ps -> (N.of_nat (length (concat ps)) < 2 ^ 60)%N ->
  run kmac384_impl k (map Write ps ++ [Sum i]) = ideal_run (kupyna_kmac384 key) [] (map Write ps ++ [Sum i]).
Proof.
  intros key Hk L. unfold NewKmac. rewrite L. unfold NewKmac384, NewKmacN. rewrite L. cbn [Nat.eqb option_map].
  eexists. split; [reflexivity|]. intros ps i. unfold kmac384_impl, kupyna_kmac384. assert (Hb : kup_big = kup_small \/ kup_big = kup_big) by now right.
  apply (km_run kup_big kup384_impl kup512_new kupyna384 48 kpad48 (krel kup_big)); auto; try lia.
  - exact (knew_rel kup_big Hb).
  - intros d m q Hq HR. exact (kwrite_rel kup_big Hb d m q Hq HR).
  - intros d q. apply write_std_count.
  - intros d m HL HR. exact (mid_sum d m [] HL HR).
  - intros key' m L'. unfold kup_kmac. now rewrite L'.
  - intros key' L'. unfold kup_pad, md_pad. now rewrite L'.
  - repeat constructor.
Qed.
Theorem C44_kmac512_first_sum : forall key, isbytes key -> length key = 64 ->
  exists k, NewKmac key = Some (KM512, k) /\ forall ps i, Forall isbytes ps -> (N.of_nat (length (concat ps)) < 2 ^ 60)%N ->
  run kmac512_impl k (map Write ps ++ [Sum i]) = ideal_run (kupyna_kmac512 key) [] (map Write ps ++ [Sum i]).
Proof.
  intros key Hk L. unfold NewKmac. rewrite L. unfold NewKmac512, NewKmacN. rewrite L. cbn [Nat.eqb option_map].
  eexists. split; [reflexivity|]. intros ps i. unfold kmac512_impl, kupyna_kmac512. assert (Hb : kup_big = kup_small \/ kup_big = kup_big) by now right.
  apply (km_run kup_big kup512_impl kup512_new kupyna512 64 kpad64 (krel kup_big)); auto; try lia.
  - exact (knew_rel kup_big Hb).
  - intros d m q Hq HR. exact (kwrite_rel kup_big Hb d m q Hq HR).
  - intros d q. apply write_std_count.
  - intros d m HL HR. exact (big_sum d m HL HR).
  - intros key' m L'. unfold kup_kmac. now rewrite L'.
  - intros key' L'. unfold kup_pad, md_pad. now rewrite L'.
  - repeat constructor.
Qed.
(** Any other key length is rejected. *)
Theorem C44_kmac_key_sizes : forall key, NewKmac key = None <-> ~ In (length key) [32; 48; 64].
Proof.
  intros key. unfold NewKmac, NewKmac256, NewKmac384, NewKmac512, NewKmacN. split.
  - intros E HI. destruct HI as [E1 | [E1 | [E1 | []]]]; rewrite <- E1 in E; cbn [Nat.eqb option_map] in E; discriminate E.
  - intros HN. destruct (Nat.eq_dec (length key) 32) as [E|N1]; [elim HN; rewrite E; simpl; tauto|].
    destruct (Nat.eq_dec (length key) 48) as [E|N2]; [elim HN; rewrite E; simpl; tauto|].
    destruct (Nat.eq_dec (length key) 64) as [E|N3]; [elim HN; rewrite E; simpl; tauto|].
    set (l := length key) in *. clearbody l. clear HN. do 65 (destruct l as [|l]; [try reflexivity; lia|]). reflexivity.
Qed.
(** The three constructors called directly. *)
Theorem C44_kmac_direct_key_sizes : forall key,
  (NewKmac256 key = None <-> length key <> 32) /\ (NewKmac384 key = None <-> length key <> 48) /\ (NewKmac512 key = None <-> length key <> 64).
Proof.
  intros key. unfold NewKmac256, NewKmac384, NewKmac512, NewKmacN.
  destruct (Nat.eqb_spec (length key) 32), (Nat.eqb_spec (length key) 48), (Nat.eqb_spec (length key) 64); repeat split; congruence.
Qed.
(** Sum changes the object: asking twice gives two different tags; and Reset forgets the key. *)
Theorem C44_kmac_sum_refuted : exists key k, NewKmac key = Some (KM256, k) /\
  run kmac256_impl k [Write [1]%N; Sum []; Sum []] <> ideal_run (kupyna_kmac256 key) [] [Write [1]%N; Sum []; Sum []].
Proof. exists (zeros 32), (kmac_init kup256_impl kup256_new kpad32 (zeros 32)). split; [reflexivity|]. vm_compute. discriminate. Qed.
Theorem C44_kmac_reset_refuted : exists key k, NewKmac key = Some (KM256, k) /\
  run kmac256_impl k [Reset; Write [1]%N; Sum []] <> ideal_run (kupyna_kmac256 key) [] [Reset; Write [1]%N; Sum []].
Proof. exists (zeros 32), (kmac_init kup256_impl kup256_new kpad32 (zeros 32)). split; [reflexivity|]. vm_compute. discriminate. Qed.
Example C44_nonvacuous : isbytes (repeat 255%N 48) /\ Forall isbytes [[1; 2]%N; []; zeros 200].
Proof. split; [repeat constructor|]. repeat constructor. Qed.
