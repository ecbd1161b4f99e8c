(** PropVmac.v -- C95, C96: the vmac package against SpecVmac.v. *)
From Coq Require Import List NArith ZArith Arith Lia Bool.
From Verif Require Import Base HashAPI Bytes Refine SpecVmac Vmac.
Import ListNotations.

(** *** Generic lemmas *)
Lemma fm_length : forall A (g : A -> list N) w l, (forall x, length (g x) = w) -> length (flat_map g l) = w * length l.
Proof. intros A g w l H. induction l as [|x l IH]; [cbn; lia|]. cbn [flat_map length]. rewrite app_length, IH, H. lia. Qed.
Lemma fm_skipn : forall A (g : A -> list N) w n l, (forall x, length (g x) = w) -> skipn (w * n) (flat_map g l) = flat_map g (skipn n l).
Proof.
  intros A g w n. induction n as [|n IH]; intros l H; [rewrite Nat.mul_0_r; reflexivity|]. destruct l as [|x l]; [now rewrite !skipn_nil|].
  cbn [flat_map skipn]. rewrite skipn_app, H. rewrite skipn_all2 by (rewrite H; lia). replace (w * S n - w) with (w * n) by lia. now apply IH.
Qed.
Lemma fm_firstn : forall A (g : A -> list N) w n l, (forall x, length (g x) = w) -> firstn (w * n) (flat_map g l) = flat_map g (firstn n l).
Proof.
  intros A g w n. induction n as [|n IH]; intros l H; [rewrite Nat.mul_0_r; reflexivity|]. destruct l as [|x l]; [now rewrite !firstn_nil|].
  cbn [flat_map firstn]. rewrite firstn_app, H. rewrite firstn_all2 by (rewrite H; lia). replace (w * S n - w) with (w * n) by lia. f_equal. now apply IH.
Qed.
Lemma seq_skip : forall n a k, skipn k (seq a n) = seq (a + k) (n - k).
Proof.
  induction n as [|n IH]; intros a [|k]; cbn [seq skipn]; rewrite ?Nat.add_0_r; try reflexivity. rewrite IH. f_equal; lia.
Qed.
Lemma seq_first : forall n a k, firstn k (seq a n) = seq a (Nat.min k n).
Proof. induction n as [|n IH]; intros a [|k]; cbn [seq firstn Nat.min]; try reflexivity. now rewrite IH. Qed.
Lemma fm_slice : forall A (g : A -> list N) w l i d, (forall x, length (g x) = w) -> i < length l -> slice (flat_map g l) (w * i) (w * (i + 1)) = g (nth i l d).
Proof.
  intros A g w l i d H Hi. unfold slice. rewrite (fm_skipn A g w i l H). replace (w * (i + 1) - w * i) with (w * 1) by lia. rewrite (fm_firstn A g w 1 _ H).
  destruct (skipn i l) as [|x t] eqn:Es; [apply (f_equal (@length A)) in Es; rewrite skipn_length in Es; cbn in Es; lia|].
  cbn [firstn flat_map]. rewrite app_nil_r. f_equal. rewrite <- (firstn_skipn i l), app_nth2 by (rewrite firstn_length; lia).
  rewrite firstn_length, Es. replace (i - Nat.min i (length l)) with 0 by lia. reflexivity.
Qed.
Lemma fold_seq_nth : forall A B (f : B -> A -> B) d l a, fold_left (fun y i => f y (nth i l d)) (seq 0 (length l)) a = fold_left f l a.
Proof.
  intros A B f d l. induction l as [|x l IH]; intro a; [reflexivity|]. cbn [length seq fold_left nth]. rewrite <- seq_shift.
  rewrite <- (IH (f a x)). generalize (f a x). generalize (seq 0 (length l)). induction l0 as [|n l0 IH0]; intro b; [reflexivity|]. cbn [map fold_left nth]. apply IH0.
Qed.
Lemma fold_mod : forall M f l a, M <> 0%N -> fold_left (fun y (i : nat) => ((y + f i mod M) mod M)%N) l (a mod M)%N = (fold_left (fun y i => y + f i)%N l a mod M)%N.
Proof.
  intros M f l. induction l as [|x l IH]; intros a HM; [reflexivity|]. cbn [fold_left]. rewrite <- IH by exact HM. f_equal. symmetry. now apply N.add_mod.
Qed.
(** *** NH *)
Definition nhterm (k m : list N) (i : nat) : N := (((at_ m i + at_ k i) mod 2 ^ 64) * ((at_ m (i + 1) + at_ k (i + 1)) mod 2 ^ 64))%N.
Lemma fold_add : forall (f : nat -> N) l a, fold_left (fun y i => y + f i)%N l a = (a + fold_left (fun y i => y + f i)%N l 0)%N.
Proof. intros f l. induction l as [|x l IH]; intro a; cbn [fold_left]; [lia|]. rewrite IH, (IH (0 + f x)%N). lia. Qed.
Lemma nh_fold : forall n k m, length m = 2 * n -> 2 * n <= length k -> nh_sum k m = fold_left (fun y j => y + nhterm k m (2 * j))%N (seq 0 n) 0%N.
Proof.
  induction n as [|n IH]; intros k m Lm Lk.
  - destruct m; [|discriminate Lm]. destruct k as [|? [|]]; reflexivity.
  - destruct m as [|m1 [|m2 m]]; cbn [length] in Lm; try lia. destruct k as [|k1 [|k2 k]]; cbn [length] in Lk; try lia.
    cbn [nh_sum seq fold_left]. rewrite fold_add. rewrite (IH k m) by lia. unfold nhterm at 2. change (at_ (m1 :: m2 :: m) (2 * 0)) with m1. change (at_ (k1 :: k2 :: k) (2 * 0)) with k1.
    change (at_ (m1 :: m2 :: m) (2 * 0 + 1)) with m2. change (at_ (k1 :: k2 :: k) (2 * 0 + 1)) with k2. f_equal. rewrite <- seq_shift. generalize 0%N. generalize (seq 0 n).
    intro l. induction l as [|x l IHl]; intro a; [reflexivity|]. cbn [map fold_left]. rewrite IHl. f_equal. f_equal. unfold nhterm. replace (2 * S x) with (S (S (2 * x))) by lia.
    replace (S (S (2 * x)) + 1) with (S (S (2 * x + 1))) by lia. reflexivity.
Qed.
Lemma at_chunks : forall (f : list N -> N) w b i, i < length b / w -> at_ (map f (chunks w b)) i = f (firstn w (skipn (i * w) b)).
Proof.
  intros f w b i H. unfold at_, chunks. rewrite map_map. rewrite (nth_indep _ 0%N ((fun x => f (firstn w (skipn (x * w) b))) 0)) by (rewrite map_length, seq_length; exact H).
  rewrite (map_nth (fun x => f (firstn w (skipn (x * w) b)))). rewrite seq_nth by exact H. reflexivity.
Qed.
Lemma swap_slice : forall b i, 8 * i + 8 <= length b -> slice (vm_endianSwap b) (i * 8) ((i + 1) * 8) = rev (firstn 8 (skipn (i * 8) b)).
Proof.
  intros b i H. unfold slice, vm_endianSwap. rewrite skipn_map, seq_skip, firstn_map, seq_first. cbn [Nat.add]. replace (Nat.min ((i + 1) * 8 - i * 8) (length b - i * 8)) with 8 by lia.
  assert (D : forall c, c < 8 -> (i * 8 + c) / 8 = i /\ (i * 8 + c) mod 8 = c).
  { intros c Hc. split; [rewrite Nat.div_add_l by lia; rewrite Nat.div_small by lia; lia|]. rewrite Nat.add_comm, Nat.mod_add by lia. now apply Nat.mod_small. }
  assert (EQ : map (fun j : nat => at_ b (j / 8 * 8 + (7 - j mod 8))) (seq (i * 8) 8) = map (fun c => at_ b (i * 8 + (7 - c))) (seq 0 8)).
  { replace (seq (i * 8) 8) with (map (fun c => i * 8 + c) (seq 0 8)). - rewrite map_map. apply map_ext_in. intros c Hc. apply in_seq in Hc. destruct (D c) as [D1 D2]; [lia|]. now rewrite D1, D2.
    - apply (nth_ext _ _ 0 0); [now rewrite map_length, !seq_length|]. intros k Hk. rewrite map_length, seq_length in Hk. rewrite (nth_indep _ 0 ((fun c => i * 8 + c) 0)) by (rewrite map_length, seq_length; exact Hk).
      rewrite (map_nth (fun c => i * 8 + c)), !seq_nth by exact Hk. reflexivity. }
  rewrite EQ. assert (L8 : length (firstn 8 (skipn (i * 8) b)) = 8) by (rewrite firstn_length, skipn_length; lia).
  assert (A : forall c, c < 8 -> at_ b (i * 8 + c) = at_ (firstn 8 (skipn (i * 8) b)) c).
  { intros c Hc. unfold at_. rewrite <- (firstn_skipn (i * 8) b) at 1. rewrite app_nth2 by (rewrite firstn_length; lia). rewrite firstn_length. replace (i * 8 + c - Nat.min (i * 8) (length b)) with c by lia.
    rewrite <- (firstn_skipn 8 (skipn (i * 8) b)) at 1. now rewrite app_nth1 by (rewrite L8; exact Hc). }
  rewrite (map_ext_in _ (fun c => at_ (firstn 8 (skipn (i * 8) b)) (7 - c))) by (intros c Hc; apply in_seq in Hc; apply A; lia).
  revert L8. generalize (firstn 8 (skipn (i * 8) b)). intros l L8. do 8 (destruct l as [|? l]; [discriminate L8|]). destruct l; [reflexivity|discriminate L8].
Qed.
Lemma nh_ok : forall kb b n, length b = 16 * n -> 16 * n <= length kb ->
  vm_nh kb (vm_endianSwap b) = be_bytes 16 (NH (map be_val (chunks 8 kb)) (map le_val (chunks 8 b))).
Proof.
  intros kb b n Lb Lk. unfold vm_nh. assert (LE : length (vm_endianSwap b) = length b) by (unfold vm_endianSwap; now rewrite map_length, seq_length). rewrite LE.
  assert (T : length b / 8 = 2 * n) by (rewrite Lb; replace (16 * n) with (2 * n * 8) by lia; apply Nat.div_mul; lia). rewrite T.
  assert (T2 : (2 * n + 1) / 2 = n) by (rewrite Nat.mul_comm, Nat.div_add_l by lia; cbn; lia). rewrite T2.
  assert (TK : 2 * n <= length kb / 8) by (apply Nat.div_le_lower_bound; lia).
  set (mw := map le_val (chunks 8 b)). set (kw := map be_val (chunks 8 kb)). unfold NH.
  rewrite (nh_fold n kw mw); [|unfold mw; rewrite map_length, chunks_length; lia|unfold kw; rewrite map_length, chunks_length; lia].
  apply f_equal. rewrite <- (N.mod_small 0 m128) at 1 by reflexivity.
  match goal with |- (fold_left ?F _ _ mod _)%N = _ => set (FF := F) end.
  assert (EQ : fold_left FF (map (fun j => 2 * j) (seq 0 n)) (0 mod m128)%N = (fold_left (fun y j => y + nhterm kw mw (2 * j))%N (seq 0 n) 0%N mod m128)%N).
  { rewrite <- (fold_mod m128 (fun j => nhterm kw mw (2 * j))) by discriminate. generalize (0 mod m128)%N.
    assert (G : forall l a, (forall j, In j l -> j < n) -> fold_left FF (map (fun j => 2 * j) l) a = fold_left (fun y i => ((y + nhterm kw mw (2 * i) mod m128) mod m128)%N) l a).
    { induction l as [|j l IH]; intros a Hl; [reflexivity|]. cbn [map fold_left]. rewrite IH by (intros; apply Hl; now right). f_equal. unfold FF, nhterm. cbv zeta.
      pose proof (Hl j (or_introl eq_refl)) as Hj.
      assert (W : forall i, i < 2 * n -> be_val (slice (vm_endianSwap b) (i * 8) ((i + 1) * 8)) = at_ mw i /\ be_val (slice kb (i * 8) ((i + 1) * 8)) = at_ kw i).
      { intros i Hi. split. - rewrite swap_slice by lia. unfold be_val. rewrite rev_involutive. unfold mw. symmetry. apply at_chunks. lia.
        - unfold kw. rewrite at_chunks by lia. unfold slice. now replace ((i + 1) * 8 - i * 8) with 8 by lia. }
      destruct (W (2 * j)) as [A1 A2]; [lia|]. destruct (W (2 * j + 1)) as [B1 B2]; [lia|]. replace (2 * j + 1 + 1) with (2 * j + 2) in B1, B2 by lia. rewrite A1, A2, B1, B2. reflexivity. }
    intro a. apply G. intros j Hj. apply in_seq in Hj. lia. }
  rewrite EQ. set (X := fold_left _ _ _). change m126 with (2 ^ 126)%N. replace m128 with (2 ^ 126 * 4)%N by reflexivity. rewrite N.mod_mul_r by discriminate.
  rewrite N.mul_comm, N.mod_add by discriminate. now rewrite N.mod_mod.
Qed.
(** *** Masking bytes *)
Lemma land_cons : forall a b x y, (a < 256)%N -> (b < 256)%N -> N.land (a + 256 * x) (b + 256 * y) = (N.land a b + 256 * N.land x y)%N.
Proof.
  intros a b x y Ha Hb.
  assert (S : forall u v, (u < 256)%N -> forall i, N.testbit (u + 256 * v) i = if (i <? 8)%N then N.testbit u i else N.testbit v (i - 8)).
  { intros u v Hu i. destruct (N.ltb_spec i 8) as [H|H].
    - rewrite <- (N.mod_pow2_bits_low (u + 256 * v) 8 i H). change (2 ^ 8)%N with 256%N. rewrite (N.mul_comm 256), N.mod_add, N.mod_small by (discriminate || exact Hu). reflexivity.
    - replace i with (i - 8 + 8)%N at 1 by lia. rewrite <- N.shiftr_spec by lia. rewrite N.shiftr_div_pow2. change (2 ^ 8)%N with 256%N. rewrite (N.mul_comm 256), N.div_add, N.div_small by (discriminate || exact Hu). reflexivity. }
  assert (HL : (N.land a b < 256)%N).
  { destruct (N.eq_dec (N.land a b) 0) as [->|Z]; [reflexivity|]. apply N.log2_lt_cancel. change (N.log2 256) with 8%N. apply N.le_lt_trans with (Nat2N.id 0 + N.log2 a)%N || apply N.le_lt_trans with (N.min (N.log2 a) (N.log2 b)); [apply N.log2_land|].
    apply N.le_lt_trans with (N.log2 a); [apply N.le_min_l|]. destruct (N.eq_dec a 0) as [->|Za]; [reflexivity|]. apply N.log2_lt_pow2; [lia|exact Ha]. }
  apply N.bits_inj. intro i. rewrite N.land_spec, !S by assumption. destruct (i <? 8)%N; rewrite N.land_spec; reflexivity.
Qed.
Definition map2l (a b : list N) : list N := map (fun p => N.land (fst p) (snd p)) (combine a b).
Lemma le_val_land : forall a b, isbytes a -> isbytes b -> length a = length b -> le_val (map2l a b) = N.land (le_val a) (le_val b).
Proof.
  induction a as [|x a IH]; intros [|y b] Ha Hb L; cbn [length] in L; try discriminate L; [reflexivity|]. inversion Ha; inversion Hb; subst. unfold map2l. cbn [combine map fst snd le_val].
  rewrite land_cons by assumption. f_equal. f_equal. apply IH; [assumption|assumption|lia].
Qed.
Lemma mask_ok : forall t, isbytes t -> length t = 16 ->
  be_val (fold_left (fun t i => upd t i (N.land (at_ t i) 31)) [0; 4; 8; 12] t) = N.land (be_val t) 0x1fffffff1fffffff1fffffff1fffffff.
Proof.
  intros t Ht L. change 0x1fffffff1fffffff1fffffff1fffffff%N with (be_val [31; 255; 255; 255; 31; 255; 255; 255; 31; 255; 255; 255; 31; 255; 255; 255]%N). unfold be_val.
  rewrite <- le_val_land; [|apply Forall_rev; exact Ht|repeat constructor|now rewrite rev_length, L].
  apply f_equal. do 16 (destruct t as [|? t]; [discriminate L|]). destruct t; [|discriminate L]. unfold isbytes in Ht. repeat match goal with H : Forall isbyte (_ :: _) |- _ => apply Forall_cons_iff in H; destruct H end.
  cbn [fold_left upd at_ nth rev app map2l combine map fst snd].
  assert (B : forall v, isbyte v -> N.land v 255 = v) by (intros v Hv; change (w8 v = v); rewrite w8_mod; apply N.mod_small; exact Hv).
  unfold map2l. cbn [combine map fst snd]. rewrite !B by assumption. reflexivity.
Qed.
Lemma be8_lt : forall n x, (x < 256 ^ N.of_nat n)%N -> be_val (be_bytes n x) = x.
Proof. intros n x H. rewrite be_val_be_bytes. now apply N.mod_small. Qed.
Section P.
Variable E : list N -> list N.
Hypothesis HE : forall b, length b = 16 -> length (E b) = 16 /\ isbytes (E b).
Definition mkb (idx : N) (i : nat) : list N := E (upd (upd (zeros 16) 0 (w8 idx)) 15 (w8 (N.of_nat i))).
Lemma mkb_len : forall idx i, length (mkb idx i) = 16.
Proof. intros. apply HE. rewrite !upd_length. reflexivity. Qed.
Lemma mkb_ok : forall idx i, (idx < 256)%N -> i < 256 -> mkb idx i = kdf_block E idx i.
Proof.
  intros idx i H Hi. unfold mkb, kdf_block. rewrite !w8_mod, !N.mod_small by lia. reflexivity.
Qed.
Lemma kdf_all : forall idx n, vm_kdf E idx (128 * n) = flat_map (mkb idx) (seq 0 n).
Proof.
  intros idx n. unfold vm_kdf. assert (A : (128 * n + 128 - 1) / 128 = n) by (replace (128 * n + 128 - 1) with (n * 128 + 127) by lia; rewrite Nat.div_add_l by lia; rewrite Nat.div_small by lia; lia).
  assert (B : 128 * n / 8 = 16 * n) by (replace (128 * n) with (16 * n * 8) by lia; apply Nat.div_mul; lia). rewrite A, B.
  change (fun i : nat => E (upd (upd (zeros 16) 0 (w8 idx)) 15 (w8 (N.of_nat i)))) with (mkb idx). apply firstn_all2. rewrite (fm_length _ _ 16) by apply mkb_len. rewrite seq_length. lia.
Qed.
Lemma kdf_one : forall idx i, (idx < 256)%N -> i < 256 -> slice (vm_kdf E idx (128 * (i + 1))) (16 * i) (16 * (i + 1)) = kdf_block E idx i.
Proof.
  intros idx i H Hi. rewrite kdf_all. rewrite (fm_slice _ _ 16 _ i 0); [|apply mkb_len|rewrite seq_length; lia]. rewrite seq_nth by lia. now apply mkb_ok.
Qed.
Lemma l1key_ok : forall it, it < 100 -> let kb := slice (vm_kdf E 128 (1024 + 128 * it)) (16 * it) (128 + 16 * it) in length kb = 128 /\ map be_val (chunks 8 kb) = l1_key E it.
Proof.
  intros it Hi kb. assert (EK : kb = flat_map (kdf_block E 128) (seq it 8)).
  { unfold kb. replace (1024 + 128 * it) with (128 * (8 + it)) by lia. rewrite kdf_all. unfold slice. rewrite (fm_skipn _ _ 16) by apply mkb_len. replace (128 + 16 * it - 16 * it) with (16 * 8) by lia.
    rewrite (fm_firstn _ _ 16) by apply mkb_len. rewrite seq_skip, seq_first. replace (Nat.min 8 (8 + it - it)) with 8 by lia. change (0 + it) with it. rewrite !flat_map_concat_map. f_equal. apply map_ext_in.
    intros j Hj. apply in_seq in Hj. apply mkb_ok; [reflexivity|lia]. }
  rewrite EK. assert (KL : forall i, length (kdf_block E 128 i) = 16) by (intro; apply HE; reflexivity). split; [rewrite (fm_length _ _ 16) by exact KL; rewrite seq_length; reflexivity|].
  unfold l1_key. generalize (seq it 8). induction l as [|x l IH]; [reflexivity|]. cbn [flat_map]. rewrite chunks_app by lia.
  assert (R : rest 8 (kdf_block E 128 x) = []) by (pose proof (rest_length N 8 (kdf_block E 128 x) ltac:(lia)) as Q; rewrite KL in Q; destruct (rest 8 (kdf_block E 128 x)); [reflexivity|discriminate Q]).
  rewrite R, map_app. cbn [app]. rewrite IH. reflexivity.
Qed.
Lemma pad16_ok : forall s, vm_zeroPad s = pad16 s.
Proof.
  intro s. unfold vm_zeroPad, pad16. pose proof (Nat.mod_upper_bound (length s) 16 ltac:(lia)). destruct (Nat.eqb_spec (length s mod 16) 0) as [Z|Z]; cbn [negb].
  - rewrite Z. change ((16 - 0) mod 16) with 0. now rewrite app_nil_r.
  - rewrite (Nat.mod_small (16 - _)) by lia. rewrite copy_at_over by (rewrite zeros_length; lia). f_equal. rewrite skipn_zeros. f_equal. lia.
Qed.
Lemma pad16_len : forall s, exists n, length (pad16 s) = 16 * n /\ (length s <= 128 -> 16 * n <= 128).
Proof.
  intro s. unfold pad16. pose proof (Nat.div_mod (length s) 16 ltac:(lia)) as D. pose proof (Nat.mod_upper_bound (length s) 16 ltac:(lia)) as U. rewrite app_length, zeros_length.
  destruct (Nat.eq_dec (length s mod 16) 0) as [Z|Z].
  - rewrite Z in *. change ((16 - 0) mod 16) with 0. exists (length s / 16). lia.
  - rewrite (Nat.mod_small (16 - _)) by lia. exists (length s / 16 + 1). lia.
Qed.
Lemma l1_blocks : forall m, map (fun i => vm_zeroPad (if length m <? (i + 1) * 128 then skipn (i * 128) m else slice m (i * 128) ((i + 1) * 128))) (seq 0 ((length m + 128 - 1) / 128)) = vblocks m.
Proof.
  intro m. unfold vblocks. pose proof (Nat.div_mod (length m) 128 ltac:(lia)) as D. pose proof (Nat.mod_upper_bound (length m) 128 ltac:(lia)) as U. set (q := length m / 128) in *.
  set (f := fun i => vm_zeroPad (if length m <? (i + 1) * 128 then skipn (i * 128) m else slice m (i * 128) ((i + 1) * 128))).
  assert (F : map f (seq 0 q) = chunks 128 m).
  { unfold chunks. fold q. apply map_ext_in. intros i Hi. apply in_seq in Hi. unfold f. destruct (Nat.ltb_spec (length m) ((i + 1) * 128)) as [H|H]; [nia|]. rewrite pad16_ok. unfold pad16, slice.
    replace ((i + 1) * 128 - i * 128) with 128 by lia. rewrite firstn_length, skipn_length. replace (Nat.min 128 (length m - i * 128)) with 128 by nia. change ((16 - 128 mod 16) mod 16) with 0. apply app_nil_r. }
  destruct (Nat.eqb_spec (length m mod 128) 0) as [Z|Z].
  - rewrite app_nil_r. replace ((length m + 128 - 1) / 128) with q; [exact F|]. apply (Nat.div_unique _ _ _ 127); lia.
  - replace ((length m + 128 - 1) / 128) with (S q) by (apply (Nat.div_unique _ _ _ (length m mod 128 - 1)); lia). rewrite seq_S, map_app, F. cbn [map Nat.add]. do 2 f_equal. unfold f.
    destruct (Nat.ltb_spec (length m) ((q + 1) * 128)) as [H|H]; [|lia]. rewrite pad16_ok. reflexivity.
Qed.
Lemma vblocks_ok : forall m b, In b (vblocks m) -> exists n, length b = 16 * n /\ 16 * n <= 128.
Proof.
  intros m b H. unfold vblocks in H. apply in_app_or in H. destruct H as [H|H].
  - pose proof (chunks_all_length N 128 m ltac:(lia)) as A. rewrite Forall_forall in A. apply A in H. exists 8. lia.
  - destruct (length m mod 128 =? 0); [contradiction|]. destruct H as [<-|[]]. destruct (pad16_len (rest 128 m)) as (n & L & B). exists n. split; [exact L|]. apply B. pose proof (rest_length_lt N 128 m ltac:(lia)). lia.
Qed.
Lemma l1_ok : forall m it, it < 100 -> vm_l1 E m it = flat_map (be_bytes 16) (L1 E it m).
Proof.
  intros m it Hi. unfold vm_l1. cbv zeta. destruct (l1key_ok it Hi) as [LK EK]. cbv zeta in LK, EK. revert LK EK. generalize (slice (vm_kdf E 128 (1024 + 128 * it)) (16 * it) (128 + 16 * it)). intros kb LK EK.
  unfold L1. rewrite <- EK. rewrite <- (l1_blocks m).
  assert (G : forall b, In b (vblocks m) -> vm_nh kb (vm_endianSwap b) = be_bytes 16 (NH (map be_val (chunks 8 kb)) (map le_val (chunks 8 b)))).
  { intros b Hb. destruct (vblocks_ok m b Hb) as (n & A & B). apply (nh_ok kb b n); [exact A|lia]. }
  rewrite <- (l1_blocks m) in G. revert G. generalize (seq 0 ((length m + 128 - 1) / 128)). induction l as [|x l IH]; intro G; [reflexivity|]. cbn [map flat_map] in *. rewrite IH by (intros; apply G; now right). f_equal. apply G. now left.
Qed.
Lemma l2_ok : forall it bits a, it < 100 -> Forall (fun x => (x < 2 ^ 128)%N) a -> vm_l2 E (flat_map (be_bytes 16) a) bits it = be_bytes 16 (L2 E it bits a).
Proof.
  intros it bits a Hi Ha. unfold vm_l2, L2. cbv zeta. rewrite kdf_one by (reflexivity || lia). destruct (HE (192 :: zeros 14 ++ [N.of_nat it])%N eq_refl) as [L B]. rewrite mask_ok; [|exact B|exact L].
  change (N.land (be_val (kdf_block E 192 it)) 42535295829212121221276283763159367679) with (l2_key E it). set (k := l2_key E it). change p127_ with p127. rewrite N.shiftl_mul_pow2.
  assert (LB : forall x, length (be_bytes 16 x) = 16) by (intro; apply be_bytes_length).
  assert (LN : length (flat_map (be_bytes 16) a) / 16 = length a) by (rewrite (fm_length _ _ 16) by exact LB; rewrite Nat.mul_comm; apply Nat.div_mul; lia). rewrite LN.
  do 3 f_equal. destruct a as [|x a']; [reflexivity|]. set (a := x :: a') in *. change (negb (length a =? 0)) with true. cbv iota.
  rewrite <- (fold_seq_nth N N (fun y x => ((y * k + x) mod p127)%N) 0%N a 1%N).
  assert (G : forall l y, (forall i, In i l -> i < length a) -> fold_left (fun y i => ((y * k + be_val (slice (flat_map (be_bytes 16) a) (16 * i) (16 * (i + 1)))) mod p127)%N) l y = fold_left (fun y i => ((y * k + nth i a 0) mod p127)%N) l y).
  { induction l as [|i l IH]; intros y Hl; [reflexivity|]. cbn [fold_left]. rewrite IH by (intros; apply Hl; now right). rewrite (fm_slice _ _ 16 a i 0%N); [|exact LB|apply Hl; now left].
    rewrite be8_lt; [reflexivity|]. change (256 ^ N.of_nat 16)%N with (2 ^ 128)%N. rewrite Forall_forall in Ha. apply Ha. apply nth_In. apply Hl. now left. }
  apply G. intros i Hin. apply in_seq in Hin. lia.
Qed.
Lemma l3key_ok : forall fuel i need k1 k2, i + fuel = 256 ->
  let P := filter (fun k => (fst k <? p64)%N && (snd k <? p64)%N) (map (fun i => let b := kdf_block E 224 i in (be_val (firstn 8 b), be_val (skipn 8 b))) (seq i fuel)) in
  need <= length P -> vm_l3key E fuel i need k1 k2 = Some (match need with O => (k1, k2) | S n => nth n P (0, 0)%N end).
Proof.
  induction fuel as [|f IH]; intros i need k1 k2 Hi P HN.
  - cbn in HN. destruct need; [reflexivity|lia].
  - destruct need as [|n]; [reflexivity|]. cbn [vm_l3key]. rewrite kdf_one by (reflexivity || lia). change p64_ with p64.
    set (b := kdf_block E 224 i) in *. set (Q := filter (fun k => (fst k <? p64)%N && (snd k <? p64)%N) (map (fun i => let b := kdf_block E 224 i in (be_val (firstn 8 b), be_val (skipn 8 b))) (seq (S i) f))).
    assert (EP : P = if (be_val (firstn 8 b) <? p64)%N && (be_val (skipn 8 b) <? p64)%N then (be_val (firstn 8 b), be_val (skipn 8 b)) :: Q else Q) by reflexivity.
    clearbody P. subst P. replace (i + 1) with (S i) by lia. destruct ((be_val (firstn 8 b) <? p64)%N && (be_val (skipn 8 b) <? p64)%N).
    + cbn [length] in HN. rewrite (IH (S i) n); [|lia|fold Q; lia]. fold Q. destruct n; reflexivity.
    + rewrite (IH (S i) (S n)); [|lia|fold Q; exact HN]. reflexivity.
Qed.
Lemma l3key_top : forall it, S it <= length (l3_pairs E) -> vm_l3key E 256 0 (S it) 0%N 0%N = Some (l3_key E it).
Proof. intros it. unfold l3_key, l3_pairs. generalize (eq_refl : 0 + 256 = 256). generalize 256 at 1 3 4 5. intros n Hn H. exact (l3key_ok n 0 (S it) 0%N 0%N Hn H). Qed.
Lemma l3_ok : forall it x, it < length (l3_pairs E) -> (x < 2 ^ 128)%N -> vm_l3 E (be_bytes 16 x) it = Some (be_bytes 8 (L3 E it x)).
Proof.
  intros it x Hi Hx. unfold vm_l3. replace (it + 1) with (S it) by lia. rewrite l3key_top by exact Hi.
  unfold L3. destruct (l3_key E it) as [k1 k2]. cbv zeta. rewrite be8_lt by exact Hx. reflexivity.
Qed.
Lemma L1_lt : forall it m, Forall (fun x => (x < 2 ^ 128)%N) (L1 E it m).
Proof.
  intros it m. unfold L1. apply Forall_map, Forall_forall. intros b _. unfold NH. pose proof (N.mod_upper_bound (nh_sum (l1_key E it) (map le_val (chunks 8 b))) (2 ^ 126) ltac:(discriminate)) as H.
  eapply N.lt_trans; [exact H|reflexivity].
Qed.
Lemma L2_lt : forall it b a, (L2 E it b a < 2 ^ 128)%N.
Proof. intros. unfold L2. cbv zeta. eapply N.lt_trans; [apply N.mod_upper_bound; discriminate|reflexivity]. Qed.
Lemma VHASH_lt : forall it m, (VHASH E it m < 2 ^ 64)%N.
Proof. intros. unfold VHASH, L3. cbv zeta. destruct (l3_key E it). eapply N.lt_trans; [apply N.mod_upper_bound; discriminate|reflexivity]. Qed.
Lemma vhash_ok : forall h s, v_size h = Z.of_nat s -> s / 8 <= length (l3_pairs E) -> s / 8 < 100 ->
  vm_vhash E h = Some (flat_map (fun it => be_bytes 8 (VHASH E it (v_msg h))) (seq 0 (s / 8))).
Proof.
  intros h s Es HP H100. unfold vm_vhash. rewrite Es. destruct (Z.ltb_spec (Z.of_nat s) 0) as [H|_]; [lia|]. rewrite Nat2Z.id.
  match goal with |- fold_left ?F _ _ = _ => set (FF := F) end.
  assert (G : forall n, n <= s / 8 -> fold_left FF (seq 0 n) (Some []) = Some (flat_map (fun it => be_bytes 8 (VHASH E it (v_msg h))) (seq 0 n))).
  { induction n as [|n IH]; intro Hn; [reflexivity|]. rewrite seq_S, fold_left_app, IH by lia. cbn [fold_left Nat.add]. unfold FF. rewrite l1_ok by lia. rewrite l2_ok by (lia || apply L1_lt).
    rewrite l3_ok; [|lia|apply L2_lt]. rewrite flat_map_app. cbn [flat_map]. rewrite app_nil_r. unfold VHASH. now rewrite (N.mul_comm 8). }
  now apply G.
Qed.
Lemma pdf_ok : forall h s, (s = 8 \/ s = 16) -> v_size h = Z.of_nat s -> isbytes (v_nonce h) -> 0 < length (v_nonce h) -> length (v_nonce h) < 16 -> vm_pdf E h = Some (PDF E s (v_nonce h)).
Proof.
  intros h s Hs Es Hb H0 H16. unfold vm_pdf. rewrite Es. replace (Z.of_nat s =? 0)%Z with false by (symmetry; apply Z.eqb_neq; lia).
  replace (length (v_nonce h) =? 0) with false by (symmetry; apply Nat.eqb_neq; lia). cbv zeta.
  set (nn := v_nonce h) in *. assert (NE : nn <> []) by (intro Z; rewrite Z in H0; cbn in H0; lia).
  assert (EN : nn = removelast nn ++ [last nn 0%N]) by (now apply app_removelast_last).
  set (r := removelast nn) in *. set (x := last nn 0%N) in *. assert (LR : length nn = length r + 1) by (rewrite EN at 1; rewrite app_length; reflexivity).
  assert (AX : at_ nn (length nn - 1) = x) by (rewrite LR; replace (length r + 1 - 1) with (length r) by lia; rewrite EN; unfold at_; rewrite app_nth2, Nat.sub_diag by lia; reflexivity).
  assert (BX : (x < 256)%N) by (rewrite EN in Hb; apply Forall_app in Hb; destruct Hb as [_ Hb]; inversion Hb; assumption).
  rewrite AX. assert (PD : copy_at (zeros 16) (16 - length nn) nn = zeros (16 - length nn) ++ r ++ [x]).
  { rewrite copy_at_full by (rewrite zeros_length; lia). rewrite firstn_zeros. f_equal; [f_equal; lia|]. rewrite firstn_all2 by (rewrite zeros_length; lia). exact EN. }
  rewrite PD. unfold PDF. fold r x. fold nn.
  assert (IX : N.land x (Z.to_N ((16 ÷ Z.of_nat s - 1) mod 256)) = (x mod (16 / N.of_nat s))%N).
  { destruct Hs as [->| ->].
    - change (Z.to_N ((16 ÷ Z.of_nat 8 - 1) mod 256)) with (N.ones 1). rewrite N.land_ones. reflexivity.
    - change (Z.to_N ((16 ÷ Z.of_nat 16 - 1) mod 256)) with 0%N. rewrite N.land_0_r. change (16 / N.of_nat 16)%N with 1%N. now rewrite N.mod_1_r. }
  rewrite IX. set (ix := (x mod (16 / N.of_nat s))%N).
  assert (IB : (ix <= x)%N) by (unfold ix; apply N.mod_le; destruct Hs as [->| ->]; discriminate).
  assert (IS : (ix * N.of_nat s + N.of_nat s <= 16)%N).
  { unfold ix. destruct Hs as [->| ->].
    - change (16 / N.of_nat 8)%N with 2%N. pose proof (N.mod_upper_bound x 2 ltac:(discriminate)). lia.
    - change (16 / N.of_nat 16)%N with 1%N. rewrite N.mod_1_r. reflexivity. }
  assert (L15 : length (zeros (16 - length nn) ++ r) = 15) by (rewrite app_length, zeros_length; lia).
  rewrite app_assoc. assert (A15 : at_ ((zeros (16 - length nn) ++ r) ++ [x]) 15 = x) by (unfold at_; rewrite app_nth2, L15 by lia; reflexivity). rewrite A15.
  assert (U15 : forall v, upd ((zeros (16 - length nn) ++ r) ++ [x]) 15 v = (zeros (16 - length nn) ++ r) ++ [v]) by (intro v; revert L15; generalize (zeros (16 - length nn) ++ r); intros q L15; rewrite <- L15; apply upd_app_at). rewrite U15.
  assert (WX : w8 (x + 256 - ix) = (x - ix)%N).
  { rewrite w8_mod. replace (x + 256 - ix)%N with (x - ix + 1 * 256)%N by lia. rewrite N.mod_add by discriminate. apply N.mod_small. lia. }
  rewrite WX. rewrite <- app_assoc.
  replace ((0 <=? Z.of_N ix * Z.of_nat s) && (Z.of_N ix * Z.of_nat s <=? Z.of_N ix * Z.of_nat s + Z.of_nat s) && (Z.of_N ix * Z.of_nat s + Z.of_nat s <=? 16))%Z with true
    by (symmetry; rewrite !andb_true_iff, !Z.leb_le; lia).
  replace (Z.to_nat (Z.of_N ix * Z.of_nat s)) with (N.to_nat ix * s) by lia. replace (Z.to_nat (Z.of_N ix * Z.of_nat s + Z.of_nat s)) with (N.to_nat ix * s + s) by lia. reflexivity.
Qed.
Lemma checkSum_ok : forall h s, (s = 8 \/ s = 16) -> v_size h = Z.of_nat s -> s / 8 <= length (l3_pairs E) -> isbytes (v_nonce h) -> 0 < length (v_nonce h) -> length (v_nonce h) < 16 ->
  vm_checkSum E h = Some (vmac E s (v_nonce h) (v_msg h)).
Proof.
  intros h s Hs Es HP Hb H0 H16. unfold vm_checkSum. rewrite (vhash_ok h s Es HP) by (destruct Hs as [->| ->]; cbn; lia). rewrite (pdf_ok h s Hs Es Hb H0 H16).
  apply f_equal. unfold vmac. rewrite Es, Nat2Z.id. rewrite !flat_map_concat_map. f_equal. apply map_ext_in. intros it Hi. apply in_seq in Hi. rewrite <- flat_map_concat_map.
  rewrite (fm_slice _ _ 8 _ it 0); [|intro; apply be_bytes_length|rewrite seq_length; lia]. rewrite seq_nth by lia. cbn [Nat.add]. rewrite be8_lt by (apply VHASH_lt).
  replace (8 * (it + 1)) with (8 * it + 8) by lia. reflexivity.
Qed.
End P.

(** *** The calls a client can make: the hash.Hash methods and SetNonce *)
Inductive vcall := VWrite (p : list N) | VSum (inp : list N) | VReset | VSetNonce (n : list N).
Inductive vobs := VWrote (n : nat) | VSummed (out : list N) | VNonce (accepted : bool) | VPanic.
Fixpoint vm_run (E : list N -> list N) (h : vm) (cs : list vcall) : list vobs :=
  match cs with
  | [] => []
  | VWrite p :: t => let '(h', n) := vm_write h p in VWrote n :: vm_run E h' t
  | VSum i :: t => match vm_sum E h i with Some o => VSummed o :: vm_run E h t | None => [VPanic] end
  | VReset :: t => vm_run E (vm_reset h) t
  | VSetNonce n :: t => let '(h', b) := vm_setNonce h n in VNonce b :: vm_run E h' t
  end.
(** What is expected: [tag nonce m] is the tag (None: the program panics); a nonce of 16 bytes or more is refused and changes nothing. *)
Fixpoint vm_ideal (tag : list N -> list N -> option (list N)) (nonce m : list N) (cs : list vcall) : list vobs :=
  match cs with
  | [] => []
  | VWrite p :: t => VWrote (length p) :: vm_ideal tag nonce (m ++ p) t
  | VSum i :: t => match tag nonce m with Some o => VSummed (i ++ o) :: vm_ideal tag nonce m t | None => [VPanic] end
  | VReset :: t => vm_ideal tag nonce [] t
  | VSetNonce n :: t => if length n <? 16 then VNonce true :: vm_ideal tag n m t else VNonce false :: vm_ideal tag nonce m t
  end.
Definition call_bytes (c : vcall) : Prop := match c with VSetNonce n => isbytes n | _ => True end.
Lemma run_tag : forall E tag size (P : list N -> Prop),
  (forall h, P (v_nonce h) -> length (v_nonce h) < 16 -> v_size h = size -> vm_checkSum E h = tag (v_nonce h) (v_msg h)) ->
  forall cs h, Forall (fun c => match c with VSetNonce n => P n | _ => True end) cs -> P (v_nonce h) -> length (v_nonce h) < 16 -> v_size h = size -> vm_run E h cs = vm_ideal tag (v_nonce h) (v_msg h) cs.
Proof.
  intros E tag size P HT. induction cs as [|c cs IH]; intros h HF HP HL HS; [reflexivity|]. apply Forall_cons_iff in HF. destruct HF as [Hc HF]. destruct c as [p|i| |n]; cbn [vm_run vm_ideal].
  - unfold vm_write. cbv iota. f_equal. now rewrite IH.
  - unfold vm_sum. rewrite (HT h HP HL HS). destruct (tag (v_nonce h) (v_msg h)); [|reflexivity]. f_equal. now apply IH.
  - unfold vm_reset. now rewrite IH.
  - unfold vm_setNonce. destruct (Nat.leb_spec 16 (length n)) as [H|H]; destruct (Nat.ltb_spec (length n) 16) as [H'|H']; try lia; f_equal; rewrite IH; auto.
Qed.
(** C95: for every key and nonce New accepts and both tag sizes of the standard, every sequence of Write, Sum, Reset and SetNonce calls
    returns VMAC tags; the cipher is any function on 16-byte blocks giving enough usable L3 keys among its 256 candidates.  With an
    empty nonce Sum panics. *)
Theorem C95_vmac_histories : forall E size key nonce h cs, (forall b, length b = 16 -> length (E b) = 16 /\ isbytes (E b)) -> (size = 8 \/ size = 16) -> size / 8 <= length (l3_pairs E) ->
  isbytes nonce -> Forall call_bytes cs -> vm_New key nonce (Z.of_nat size) = Some h ->
  vm_run E h cs = vm_ideal (fun n m => match n with [] => None | _ => Some (vmac E size n m) end) nonce [] cs.
Proof.
  intros E size key nonce h cs HE Hs HP Hn Hc HN. unfold vm_New in HN. destruct (negb _); [discriminate HN|]. destruct (Nat.leb_spec 16 (length nonce)) as [L|L]; [discriminate HN|].
  destruct (negb _); [discriminate HN|]. injection HN as <-. apply (run_tag E _ (Z.of_nat size) isbytes); [|exact Hc|exact Hn|exact L|reflexivity].
  intros h HB HL HS. destruct (v_nonce h) as [|x t] eqn:EN.
  - unfold vm_checkSum, vm_pdf. rewrite HS. replace (Z.of_nat size =? 0)%Z with false by (symmetry; apply Z.eqb_neq; lia). rewrite EN. cbn [length Nat.eqb]. destruct (vm_vhash E h); reflexivity.
  - rewrite <- EN. rewrite <- EN in HB, HL. apply checkSum_ok; try assumption. rewrite EN. cbn [length]. lia.
Qed.
(** C96: New accepts every size that is a multiple of 8, but unless it is 8 or 16 every Sum panics, whatever the key, nonce and message. *)
Theorem C96_vmac_other_sizes_refuted : forall E (size : Z) key nonce h cs, size <> 8%Z -> size <> 16%Z -> vm_New key nonce size = Some h ->
  vm_run E h cs = vm_ideal (fun _ _ => None) nonce [] cs.
Proof.
  intros E size key nonce h cs N8 N16 HN. unfold vm_New in HN. destruct (negb _); [discriminate HN|]. destruct (Nat.leb_spec 16 (length nonce)) as [L|L]; [discriminate HN|].
  destruct (Z.eqb_spec (Z.rem size 8) 0) as [R|R]; cbn [negb] in HN; [|discriminate HN]. injection HN as <-. apply (run_tag E _ size (fun _ => True)); [|apply Forall_forall; intros [] _; exact I|exact I|exact L|reflexivity].
  intros h _ HL HS. unfold vm_checkSum. destruct (vm_vhash E h) as [v|] eqn:EV; [|reflexivity]. unfold vm_vhash in EV. rewrite HS in EV. destruct (Z.ltb_spec size 0) as [S0|S0]; [discriminate EV|].
  unfold vm_pdf. rewrite HS. destruct (Z.eqb_spec size 0) as [Z|Z]; [reflexivity|]. assert (24 <= size)%Z.
  { apply Z.rem_divide in R; [|lia]. destruct R as [k Hk]. lia. }
  destruct (length (v_nonce h) =? 0); [reflexivity|]. cbv zeta. match goal with |- context [N.land ?a ?b] => generalize (N.land a b) end. intro ix.
  replace (Z.of_N ix * size + size <=? 16)%Z with false; [now rewrite andb_false_r|]. symmetry. apply Z.leb_gt. nia.
Qed.
(** New accepts exactly the AES key lengths, nonces below 16 bytes and multiples of 8; the unusable cases are reachable. *)
Theorem C96_vmac_New_accepts : forall key nonce size, (exists h, vm_New key nonce size = Some h) <-> (length key = 16 \/ length key = 24 \/ length key = 32) /\ length nonce < 16 /\ (8 | size)%Z.
Proof.
  intros key nonce size. unfold vm_New. rewrite <- Z.rem_divide by lia.
  destruct (Nat.eqb_spec (length key) 16); destruct (Nat.eqb_spec (length key) 24); destruct (Nat.eqb_spec (length key) 32); cbn [orb negb]; destruct (Nat.leb_spec 16 (length nonce));
    destruct (Z.eqb_spec (Z.rem size 8) 0); cbn [negb]; (split; [intros [h Hh]; try discriminate Hh; repeat split; lia|intros (A & B & C)]); try lia; eexists; reflexivity.
Qed.
(** *** A concrete cipher meeting the hypotheses: AES-128 (FIPS 197), and the published test vectors (key "abcdefghijklmnop", nonce "bcdefghi"). *)
From Verif Require Import SpecAes.
Definition kx (k : list N) (rc : N) : list N :=
  let t := [N.lxor (aes_sbox (at_ k 13)) rc; aes_sbox (at_ k 14); aes_sbox (at_ k 15); aes_sbox (at_ k 12)] in
  let x4 a b := map (fun i => N.lxor (at_ a i) (at_ b i)) (seq 0 4) in
  let w0 := x4 (slice k 0 4) t in let w1 := x4 (slice k 4 8) w0 in let w2 := x4 (slice k 8 12) w1 in let w3 := x4 (slice k 12 16) w2 in w0 ++ w1 ++ w2 ++ w3.
Definition x16 (a b : list N) : list N := map (fun i => N.lxor (at_ a i) (at_ b i)) (seq 0 16).
Definition aes128 (key b : list N) : list N :=
  let '(k, s) := fold_left (fun '(k, s) rc => let k := kx k rc in (k, x16 (aes_round s) k)) [1; 2; 4; 8; 16; 32; 64; 128; 27]%N (key, x16 b key) in
  map w8 (x16 (shift_rows (sub_bytes s)) (kx k 54%N)).
Example aes128_fips197 : aes128 (be_bytes 16 0x2b7e151628aed2a6abf7158809cf4f3c) (be_bytes 16 0x3243f6a8885a308d313198a2e0370734) = be_bytes 16 0x3925841d02dc09fbdc118597196a0b32.
Proof. vm_compute. reflexivity. Qed.
Example C95_vectors : exists h, vm_New (map N.of_nat (seq 97 16)) (map N.of_nat (seq 98 8)) 16 = Some h /\
  vm_run (aes128 (map N.of_nat (seq 97 16))) h [VWrite [97]%N; VWrite [98; 99]%N; VSum [1]%N] = [VWrote 1; VWrote 2; VSummed (1%N :: be_bytes 16 0x4EE815A06A1D71EDD36FC75D51188A42)].
Proof. eexists. split; [reflexivity|]. vm_compute. reflexivity. Qed.
Example C95_hyps : let E := aes128 (map N.of_nat (seq 97 16)) in (forall b, length b = 16 -> length (E b) = 16 /\ isbytes (E b)).
Proof.
  intros E b _. unfold E, aes128. destruct (fold_left _ _ _) as [k s]. split; [rewrite map_length; reflexivity|]. apply Forall_map, Forall_forall. intros x _. unfold isbyte. rewrite w8_mod. apply N.mod_upper_bound. discriminate.
Qed.
Lemma filter_pre : forall A (f : A -> bool) l n, length (filter f (firstn n l)) <= length (filter f l).
Proof. intros A f l. induction l as [|x l IH]; intros [|n]; cbn [firstn filter]; try (cbn; lia). destruct (f x); cbn [length]; specialize (IH n); lia. Qed.
Example C95_hyps2 : 16 / 8 <= length (l3_pairs (aes128 (map N.of_nat (seq 97 16)))).
Proof. unfold l3_pairs. etransitivity; [|apply (filter_pre _ _ _ 2)]. rewrite firstn_map, seq_first. vm_compute. lia. Qed.
