(** PropCube.v -- package cubehash (C88 .. C91). *)
From Coq Require Import List NArith Arith Lia Bool.
From Verif Require Import Base Words HashAPI Buf MD Refine Bytes Ascon Kupyna Gost3411P ShaviteP SpecCube Cube LshP.
Import ListNotations.

Ltac list32 x H := do 32 (destruct x as [|? x]; [discriminate H|]); destruct x as [|? x]; [|discriminate H].
Lemma round_ok : forall x, length x = 32 -> ch_round x = cube_round x.
Proof.
  intros x H.
  assert (A1 : forall n y, length y = 32 -> fold_left (ch_addrot n) (seq 0 16) y = cube_rot n (cube_add y)) by (intros n y Hy; list32 y Hy; reflexivity).
  assert (A2 : forall y, length y = 32 -> fold_left ch_xor (seq 0 16) y = cube_xor y) by (intros y Hy; list32 y Hy; reflexivity).
  assert (S1 : forall y, length y = 32 -> fold_left ch_swap [(0, 8); (1, 9); (2, 10); (3, 11); (4, 12); (5, 13); (6, 14); (7, 15)] y = cube_swap0 8 y) by (intros y Hy; list32 y Hy; reflexivity).
  assert (S2 : forall y, length y = 32 -> fold_left ch_swap [(16, 18); (17, 19); (20, 22); (21, 23); (24, 26); (25, 27); (28, 30); (29, 31)] y = cube_swap1 2 y) by (intros y Hy; list32 y Hy; reflexivity).
  assert (S3 : forall y, length y = 32 -> fold_left ch_swap [(0, 4); (1, 5); (2, 6); (3, 7); (8, 12); (9, 13); (10, 14); (11, 15)] y = cube_swap0 4 y) by (intros y Hy; list32 y Hy; reflexivity).
  assert (S4 : forall y, length y = 32 -> fold_left ch_swap [(16, 17); (18, 19); (20, 21); (22, 23); (24, 25); (26, 27); (28, 29); (30, 31)] y = cube_swap1 1 y) by (intros y Hy; list32 y Hy; reflexivity).
  assert (L : forall f, length (cube_map f) = 32) by (intro; unfold cube_map; now rewrite map_length, seq_length).
  unfold ch_round, cube_round. cbv zeta. rewrite (A1 7%N x H). rewrite S1 by apply L. rewrite (A2 (cube_swap0 8 _)) by apply L. rewrite S2 by apply L. rewrite (A1 11%N) by apply L. rewrite S3 by apply L.
  rewrite A2 by apply L. apply S4. apply L.
Qed.
Lemma cube_map_length : forall f, length (cube_map f) = 32.
Proof. intro; unfold cube_map; now rewrite map_length, seq_length. Qed.
Lemma rounds_ok : forall n x, length x = 32 -> Nat.iter n ch_round x = cube_rounds n x /\ length (cube_rounds n x) = 32.
Proof.
  intros n x H. unfold cube_rounds. induction n as [|n [IH IL]]; [split; [reflexivity|exact H]|]. cbn [Nat.iter nat_rect]. 
  change (nat_rect _ x (fun _ => ch_round) n) with (Nat.iter n ch_round x). change (nat_rect _ x (fun _ => cube_round) n) with (Nat.iter n cube_round x).
  rewrite IH. split; [now apply round_ok|apply cube_map_length].
Qed.
(** xoring the words of a block *)
Lemma xor_block : forall q x p, length x = 32 -> q <= 32 -> length p = 4 * q ->
  fold_left (fun x n => upd x n (N.lxor (at_ x n) (le_val (slice p (n * 4) (n * 4 + 4))))) (seq 0 q) x =
  cube_map (fun i => N.lxor (at_ x i) (le_val (slice (p ++ zeros (128 - length p)) (4 * i) (4 * i + 4)))).
Proof.
  intros q x p Lx Hq Lp.
  assert (G : forall k, k <= q -> let y := fold_left (fun x n => upd x n (N.lxor (at_ x n) (le_val (slice p (n * 4) (n * 4 + 4))))) (seq 0 k) x in
     length y = 32 /\ (forall i, i < k -> at_ y i = N.lxor (at_ x i) (le_val (slice p (i * 4) (i * 4 + 4)))) /\ (forall i, k <= i -> at_ y i = at_ x i)).
  { induction k as [|k IH]; intros Hk y; unfold y; [cbn [seq fold_left]; split; [exact Lx|split; intros; (lia || reflexivity)]|].
    rewrite seq_S, fold_left_app. cbn [fold_left Nat.add]. destruct (IH ltac:(lia)) as (A & B & C). set (z := fold_left _ (seq 0 k) x) in *. clearbody z.
    rewrite upd_length. split; [exact A|]. split; intros i Hi; unfold at_.
    - destruct (Nat.eq_dec i k) as [->|Hne]; [rewrite nth_upd_same by lia; f_equal; apply C; lia|rewrite nth_upd_other by lia; apply B; lia].
    - rewrite nth_upd_other by lia. apply C. lia. }
  destruct (G q (le_n _)) as (A & B & C). set (y := fold_left _ (seq 0 q) x) in *. clearbody y.
  apply list_eq_at; [now rewrite A, cube_map_length|]. intros i Hi. rewrite A in Hi. unfold cube_map. rewrite at_map_seq by exact Hi.
  destruct (Nat.lt_ge_cases i q) as [Hl|Hl].
  - rewrite B by exact Hl. do 2 f_equal. rewrite (Nat.mul_comm 4 i). unfold slice. replace (i * 4 + 4 - i * 4) with 4 by lia.
    rewrite skipn_app, firstn_app. rewrite skipn_length. replace (4 - (length p - i * 4)) with 0 by lia. now rewrite firstn_O, app_nil_r.
  - rewrite C by exact Hl. unfold slice. rewrite skipn_app. rewrite (skipn_all2 p) by lia. cbn [app].
    replace (le_val _) with 0%N; [now rewrite N.lxor_0_r|]. symmetry.
    assert (Z : forall a b n, le_val (firstn a (skipn b (zeros n))) = 0%N).
    { intros a b n. unfold zeros. revert a b. induction n as [|n IHn]; intros a b; [destruct a, b; reflexivity|]. destruct b as [|b]; [|cbn [repeat]; rewrite skipn_cons; apply IHn].
      rewrite skipn_O. destruct a as [|a]; [reflexivity|]. cbn [repeat firstn le_val]. specialize (IHn a 0). rewrite skipn_O in IHn. rewrite IHn. reflexivity. }
    apply Z.
Qed.

(** Parameters for which the code reads all bytes of a block and returns Size() bytes. *)
Definition ch_good (c : ch_cfg) : Prop :=
  (exists q, c_bs c = 4 * q /\ 0 < q <= 32) /\ (exists w, c_hs c = 32 * w /\ w <= 32) /\ (N.of_nat (c_r c) < 2 ^ 32)%N.
(** The specified function for a parameter set. *)
Definition ch_spec (c : ch_cfg) : list N -> list N := cubehash (c_ir c) (c_r c) (c_bs c) (c_fr c) (c_hs c).

Lemma w32_small' : forall n, (N.of_nat n < 2 ^ 32)%N -> w32 (N.of_nat n) = N.of_nat n.
Proof. intros n H. rewrite w32_mod. apply N.mod_small. exact H. Qed.
Lemma init_ok : forall c, ch_good c -> ch_init c = cube_iv (c_hs c) (c_bs c) (c_r c) (c_ir c) /\ length (ch_init c) = 32.
Proof.
  intros c ((q & Eb & Hq) & (w & Eh & Hw) & Hr). unfold ch_init, cube_iv.
  assert (E8 : c_hs c / 8 = 4 * w) by (rewrite Eh; replace (32 * w) with (4 * w * 8) by lia; apply Nat.div_mul; lia).
  rewrite !w32_small'; [| exact Hr | rewrite Eb; lia | rewrite E8; lia].
  destruct (rounds_ok (c_ir c) (N.of_nat (c_hs c / 8) :: N.of_nat (c_bs c) :: N.of_nat (c_r c) :: zeros 29) eq_refl) as [A B]. split; [exact A|]. rewrite A. exact B.
Qed.
Lemma ingest_ok : forall c x p, ch_good c -> length x = 32 -> length p = c_bs c -> ch_ingest c x p = cube_block (c_r c) x p /\ length (ch_ingest c x p) = 32.
Proof.
  intros c x p ((q & Eb & Hq) & _) Lx Lp. unfold ch_ingest. replace (c_bs c / 4) with q by (rewrite Eb, Nat.mul_comm, Nat.div_mul; lia).
  rewrite xor_block by (lia || assumption). unfold cube_block. match goal with |- context [cube_rounds _ ?y] => destruct (rounds_ok (c_r c) y (cube_map_length _)) as [A B] end.
  split; [exact A|]. rewrite A. exact B.
Qed.
Lemma blocks_ok' : forall c bl x, ch_good c -> length x = 32 -> Forall (fun b => length b = c_bs c) bl ->
  fold_left (ch_ingest c) bl x = fold_left (cube_block (c_r c)) bl x /\ length (fold_left (ch_ingest c) bl x) = 32.
Proof.
  intros c bl. induction bl as [|b bl IH]; intros x HG Lx Hb; [split; [reflexivity|exact Lx]|]. inversion Hb; subst. rewrite !fold_left_cons.
  destruct (ingest_ok c x b HG Lx) as [A B]; [assumption|]. rewrite <- A. apply IH; auto.
Qed.
Definition ch_rel (c : ch_cfg) (d : dig (list N)) (m : list N) : Prop := dig_rel (c_bs c) (ch_ingest c) (ch_init c) 0 d m.
Lemma good_bs : forall c, ch_good c -> 0 < c_bs c.
Proof. intros c ((q & E & H) & _). lia. Qed.
(** the padding block built by checkSum is the last block of the padded message *)
Lemma pad_block : forall bs x nx m, 0 < bs -> buf_ok bs bs x nx m ->
  let pad := upd (copy_at (zeros bs) 0 (firstn nx x)) nx 0x80%N in
  chunks bs (m ++ 0x80%N :: zeros (bs - 1 - length m mod bs)) = chunks bs m ++ [pad] /\ length pad = bs.
Proof.
  intros bs x nx m Hb HB pad. destruct (last_block bs x nx m Hb HB) as (A & B & C). destruct HB as (Lx & En & Ef).
  assert (E : pad = rest bs m ++ 0x80%N :: zeros (bs - 1 - length m mod bs)).
  { pose proof (rest_length N bs m ltac:(lia)) as LR. pose proof (Nat.mod_upper_bound (length m) bs ltac:(lia)).
    unfold pad. rewrite Ef, copy_at_over by (unfold zeros; rewrite repeat_length; lia). rewrite upd_split by (rewrite app_length, skipn_length; unfold zeros; rewrite repeat_length; lia).
    rewrite En at 1. rewrite firstn_app, firstn_all2, Nat.sub_diag, firstn_O, app_nil_r by lia. f_equal. f_equal.
    rewrite skipn_app. rewrite skipn_all2 by lia. cbn [app]. rewrite skipn_skipn. unfold zeros. rewrite En, LR. clear.
    assert (Z : forall a n, skipn a (repeat 0%N n) = repeat 0%N (n - a)) by (intros a n; revert n; induction a as [|a IH]; intros [|n]; cbn; auto).
    rewrite Z. f_equal. lia. }
  split; [|rewrite E, <- C; exact B]. rewrite A, C, E. reflexivity.
Qed.
Lemma ch_checkSum_ok : forall c d m, ch_good c -> ch_rel c d m -> ch_checkSum c d = ch_spec c m.
Proof.
  intros c d m HG (Hs & Hb & _). unfold ch_checkSum. pose proof (good_bs c HG) as Hbs. destruct (pad_block (c_bs c) (dx d) (dnx d) m Hbs Hb) as (A & B). cbv zeta in A, B |- *.
  set (pad := upd _ _ _) in *. clearbody pad. destruct (init_ok c HG) as [I L].
  destruct (blocks_ok' c (chunks (c_bs c) m ++ [pad]) (ch_init c) HG L) as [P Q].
  { apply Forall_app. split; [apply chunks_all_length; lia|]. constructor; [exact B|constructor]. }
  assert (E : ch_ingest c (ds d) pad = fold_left (ch_ingest c) (chunks (c_bs c) m ++ [pad]) (ch_init c)) by (rewrite fold_left_app, Hs; reflexivity).
  rewrite E, P. unfold ch_spec, cubehash. unfold cube_pad. rewrite A, <- I. rewrite P in Q. set (x := fold_left (cube_block (c_r c)) _ _) in *. clearbody x.
  assert (EU : upd x 31 (N.lxor (at_ x 31) 1) = cube_map (fun k => if k =? 31 then N.lxor (at_ x k) 1 else at_ x k)) by (clear -Q; list32 x Q; reflexivity).
  rewrite EU. destruct (rounds_ok (c_fr c) (cube_map (fun k => if k =? 31 then N.lxor (at_ x k) 1 else at_ x k)) (cube_map_length _)) as [R1 R2]. rewrite R1.
  destruct HG as (_ & (w & Eh & Hw) & _). replace (c_hs c / 8) with (4 * w) by (rewrite Eh; replace (32 * w) with (4 * w * 8) by lia; symmetry; apply Nat.div_mul; lia).
  replace (c_hs c / 32) with w by (rewrite Eh, Nat.mul_comm, Nat.div_mul; lia). symmetry. apply firstn_concat_fields; [intro; apply le_bytes_length|lia].
Qed.
Lemma ch_new_rel : forall c, ch_good c -> ch_rel c (ch_new c) [].
Proof. intros c HG. apply (dig_rel_new (c_bs c) (ch_ingest c) (good_bs c HG)). apply repeat_length. Qed.
Lemma ch_run : forall c, ch_good c -> forall ops d m, ch_rel c d m -> run (ch_impl c) d ops = ideal_run (ch_spec c) m ops.
Proof.
  intros c HG ops d m HR. apply (run_refines _ (ch_impl c) (ch_spec c) (ch_rel c)); cbn [i_write i_sum i_reset ch_impl]; auto.
  - intros d' m' p H. apply (write_nolen_rel (c_bs c) (ch_ingest c) (good_bs c HG)). exact H.
  - intros. apply (write_nolen_count (c_bs c) (ch_ingest c)).
  - intros d' m' i H. unfold ch_sum. cbn [snd]. f_equal. now apply ch_checkSum_ok.
  - intros. now apply ch_new_rel.
Qed.

(** C88: every history, for all parameters with a block size that is a multiple of 4 up to 128 and a digest size that is a multiple of 32 bits up to 1024. *)
Theorem C88_cubehash_histories : forall c, ch_good c -> forall ops, run (ch_impl c) (ch_new c) ops = ideal_run (ch_spec c) [] ops.
Proof. intros c HG ops. apply ch_run; [exact HG|now apply ch_new_rel]. Qed.
(** All constructors except NewHS512x are such parameter sets. *)
Theorem C88_cubehash_constructors : Forall ch_good [HS512; HS384; HS256; HS224; HS192; HS160; HS128; SH512; SH256; SH224; SH192].
Proof.
  repeat constructor; cbn [c_bs c_hs c_r HS512 HS384 HS256 HS224 HS192 HS160 HS128 SH512 SH256 SH224 SH192 NewCubehash];
  first [exists 8; split; [reflexivity|lia] | exists 16; split; [reflexivity|lia] | exists 12; split; [reflexivity|lia] | exists 7; split; [reflexivity|lia]
        | exists 6; split; [reflexivity|lia] | exists 5; split; [reflexivity|lia] | exists 4; split; [reflexivity|lia]].
Qed.
Lemma ch_spec_length : forall c m, ch_good c -> length (ch_spec c m) = ch_Size c.
Proof.
  intros c m HG. assert (E : ch_spec c m = ch_checkSum c (fst (ch_write c (ch_new c) m))).
  { symmetry. apply ch_checkSum_ok; [exact HG|]. apply (write_nolen_rel (c_bs c) (ch_ingest c) (good_bs c HG) _ (ch_new c) []). now apply ch_new_rel. }
  unfold ch_spec, cubehash. rewrite firstn_length, concat_le_length. destruct HG as (_ & (w & Eh & Hw) & _). unfold ch_Size.
  assert (E8 : c_hs c / 8 = 4 * w) by (rewrite Eh; replace (32 * w) with (4 * w * 8) by lia; apply Nat.div_mul; lia).
  destruct (rounds_ok (c_fr c) (cube_map (fun k => if k =? 31 then N.lxor (at_ (fold_left (cube_block (c_r c)) (chunks (c_bs c) (cube_pad (c_bs c) m)) (cube_iv (c_hs c) (c_bs c) (c_r c) (c_ir c))) k) 1 else at_ (fold_left (cube_block (c_r c)) (chunks (c_bs c) (cube_pad (c_bs c) m)) (cube_iv (c_hs c) (c_bs c) (c_r c) (c_ir c))) k)) (cube_map_length _)) as [_ R2].
  rewrite R2. lia.
Qed.
(** The one-shot functions. *)
Theorem C88_cubehash_oneshots : forall c size m, In (c, size) ch_oneshots -> ch_oneshot c size m = ch_spec c m.
Proof.
  intros c size m H. assert (HG : ch_good c /\ size = ch_Size c).
  { pose proof C88_cubehash_constructors as HC. rewrite Forall_forall in HC. split.
    - apply HC. unfold ch_oneshots in H. cbn [In] in H |- *. repeat (destruct H as [H|H]; [injection H as <- _; tauto|]). destruct H.
    - unfold ch_oneshots in H. cbn [In] in H. repeat (destruct H as [H|H]; [injection H as <- <-; reflexivity|]). destruct H. }
  destruct HG as [HG ->]. unfold ch_oneshot, ch_sum. cbn [snd app]. rewrite (ch_checkSum_ok c _ m HG).
  2:{ apply (write_nolen_rel (c_bs c) (ch_ingest c) (good_bs c HG) _ (ch_new c) []). now apply ch_new_rel. }
  pose proof (ch_spec_length c m HG) as L. rewrite (firstn_all2 (ch_spec c m)) by lia. rewrite copy_at_over by (unfold zeros; rewrite repeat_length; lia).
  rewrite skipn_all2 by (unfold zeros; rewrite repeat_length; lia). apply app_nil_r.
Qed.

(** C89: with a block size below 4 (NewHS512x has 1) no byte of the message is ever read: any two messages of the same length have the same digest. *)
Lemma ingest_blind : forall c x p q, c_bs c / 4 = 0 -> ch_ingest c x p = ch_ingest c x q.
Proof. intros c x p q H. unfold ch_ingest. rewrite H. reflexivity. Qed.
Lemma blind_fold : forall c bl bl' x, c_bs c / 4 = 0 -> length bl = length bl' -> fold_left (ch_ingest c) bl x = fold_left (ch_ingest c) bl' x.
Proof.
  intros c bl. induction bl as [|b bl IH]; intros [|b' bl'] x H L; cbn [length] in L; try lia; [reflexivity|]. rewrite !fold_left_cons. rewrite (ingest_blind c x b b' H). apply IH; [exact H|lia].
Qed.
Theorem C89_cubehash_small_blocks_ignore_message : forall c, 0 < c_bs c < 4 -> forall m1 m2, length m1 = length m2 ->
  ch_checkSum c (fst (ch_write c (ch_new c) m1)) = ch_checkSum c (fst (ch_write c (ch_new c) m2)).
Proof.
  intros c Hb m1 m2 L. assert (Z : c_bs c / 4 = 0) by (apply Nat.div_small; lia).
  assert (R : forall m, ch_rel c (fst (ch_write c (ch_new c) m)) m).
  { intro m. apply (write_nolen_rel (c_bs c) (ch_ingest c) ltac:(lia) _ (ch_new c) []). apply (dig_rel_new (c_bs c) (ch_ingest c) ltac:(lia)). apply repeat_length. }
  destruct (R m1) as (A1 & _ & _). destruct (R m2) as (A2 & _ & _). unfold ch_checkSum. cbv zeta.
  assert (E : ds (fst (ch_write c (ch_new c) m1)) = ds (fst (ch_write c (ch_new c) m2))) by (rewrite A1, A2; apply blind_fold; [exact Z|now rewrite !chunks_length, L]).
  rewrite E. rewrite (ingest_blind c _ (upd (copy_at (zeros (c_bs c)) 0 (firstn (dnx (fst (ch_write c (ch_new c) m1))) (dx (fst (ch_write c (ch_new c) m1))))) (dnx (fst (ch_write c (ch_new c) m1))) 128%N)
    (upd (copy_at (zeros (c_bs c)) 0 (firstn (dnx (fst (ch_write c (ch_new c) m2))) (dx (fst (ch_write c (ch_new c) m2))))) (dnx (fst (ch_write c (ch_new c) m2))) 128%N) Z). reflexivity.
Qed.
(** ... so NewHS512x is not CubeHash16+16/1+32-512: that function separates the two one-byte messages 00 and 01. *)
Theorem C89_cubehash_hs512x_refuted :
  ch_checkSum HS512x (fst (ch_write HS512x (ch_new HS512x) [0%N])) = ch_checkSum HS512x (fst (ch_write HS512x (ch_new HS512x) [1%N])) /\
  ch_spec HS512x [0%N] <> ch_spec HS512x [1%N].
Proof.
  split; [apply C89_cubehash_small_blocks_ignore_message; [cbn; lia|reflexivity]|]. vm_compute. discriminate.
Qed.

(** C90: MarshalBinary / UnmarshalBinary. *)
Lemma round_is32 : forall x, length x = 32 -> Forall is32 x -> Forall is32 (cube_round x).
Proof.
  intros x L Hx.
  assert (G : forall f, (forall i, is32 (f i)) -> Forall is32 (cube_map f)) by (intros f Hf; unfold cube_map; apply Forall_map; apply Forall_forall; intros; apply Hf).
  assert (A : forall y, Forall is32 y -> Forall is32 (cube_add y)) by (intros y Hy; apply G; intro i; destruct (upper i); [apply add32_is32|now apply at_is32]).
  assert (R : forall n y, Forall is32 y -> Forall is32 (cube_rot n y)) by (intros n y Hy; apply G; intro i; destruct (upper i); [now apply at_is32|apply rotl32_is32; now apply at_is32]).
  assert (S0 : forall n y, Forall is32 y -> Forall is32 (cube_swap0 n y)) by (intros n y Hy; apply G; intro i; destruct (upper i); now apply at_is32).
  assert (S1 : forall n y, Forall is32 y -> Forall is32 (cube_swap1 n y)) by (intros n y Hy; apply G; intro i; destruct (upper i); now apply at_is32).
  assert (X : forall y, Forall is32 y -> Forall is32 (cube_xor y)) by (intros y Hy; apply G; intro i; destruct (upper i); [now apply at_is32|apply lxor_is32; now apply at_is32]).
  unfold cube_round. cbv zeta. apply S1, X, S0, R, A, S1, X, S0, R, A, Hx.
Qed.
Lemma rounds_is32 : forall n x, length x = 32 -> Forall is32 x -> Forall is32 (cube_rounds n x).
Proof.
  intros n x L Hx. destruct (rounds_ok n x L) as [_ _]. induction n as [|n IH]; [exact Hx|]. change (cube_rounds (S n) x) with (cube_round (cube_rounds n x)).
  apply round_is32; [apply (rounds_ok n x L)|exact IH].
Qed.
Lemma le4_is32 : forall l, isbytes l -> length l <= 4 -> is32 (le_val l).
Proof. intros l H L. unfold is32. eapply N.lt_le_trans; [apply le_val_lt; exact H|]. apply N.pow_le_mono_r; lia. Qed.
Lemma slice_isbytes : forall l a b, isbytes l -> isbytes (slice l a b).
Proof. intros. unfold slice. apply isbytes_firstn. now apply isbytes_skipn. Qed.
Lemma block_is32 : forall r x p, length x = 32 -> Forall is32 x -> isbytes p -> Forall is32 (cube_block r x p).
Proof.
  intros r x p L Hx Hp. unfold cube_block. apply rounds_is32; [apply cube_map_length|]. unfold cube_map. apply Forall_map. apply Forall_forall. intros i _.
  apply lxor_is32; [now apply at_is32|]. apply le4_is32.
  - apply slice_isbytes. apply Forall_app. split; [exact Hp|apply zeros_isbytes].
  - unfold slice. rewrite firstn_length. lia.
Qed.
Lemma state_is32 : forall c d m, ch_good c -> isbytes m -> ch_rel c d m -> length (ds d) = 32 /\ Forall is32 (ds d).
Proof.
  intros c d m HG Hm (Hs & _). rewrite Hs. destruct (init_ok c HG) as [I L].
  assert (H0 : Forall is32 (ch_init c)).
  { unfold ch_init. match goal with |- context [Nat.iter _ _ ?y] => destruct (rounds_ok (c_ir c) y eq_refl) as [A _] end. rewrite A. apply rounds_is32; [reflexivity|].
    do 3 (constructor; [apply w32_is32|]). unfold zeros. apply Forall_forall. intros z Hz. apply repeat_spec in Hz. subst z. reflexivity. }
  pose proof (chunks_blk_ok (c_bs c) m (good_bs c HG) Hm) as HB. revert L H0. generalize (ch_init c). clear - HG HB.
  induction HB as [|b bl [Lb Bb] HB IH]; intros x L H0; [split; assumption|]. rewrite fold_left_cons. destruct (ingest_ok c x b HG L Lb) as [A B]. apply IH; [exact B|]. rewrite A. now apply block_is32.
Qed.
Lemma words_back : forall h k t, k < length h -> Forall is32 h -> le_val (slice (concat (map (le_bytes 4) h) ++ t) (k * 4) (k * 4 + 4)) = at_ h k.
Proof.
  intros h k t. revert k. induction h as [|a h IH]; intros k Hk HF; [cbn in Hk; lia|]. inversion HF as [|? ? Ha HF']; subst. cbn [map concat]. rewrite <- app_assoc. unfold slice. replace (k * 4 + 4 - k * 4) with 4 by lia.
  destruct k as [|k].
  - rewrite Nat.mul_0_l, skipn_O, firstn_app, le_bytes_length, Nat.sub_diag, firstn_O, app_nil_r, firstn_all2 by (rewrite le_bytes_length; lia).
    rewrite le_val_le_bytes. apply N.mod_small. exact Ha.
  - rewrite skipn_app, le_bytes_length. rewrite skipn_all2 by (rewrite le_bytes_length; lia). replace (S k * 4 - 4) with (k * 4) by lia. cbn [app length] in Hk |- *.
    specialize (IH k ltac:(lia) HF'). unfold slice in IH. replace (k * 4 + 4 - k * 4) with 4 in IH by lia. exact IH.
Qed.
Lemma marshal_back : forall c d m d2 extra, ch_good c -> isbytes m -> ch_rel c d m -> length (dx d2) = c_bs c ->
  exists d', ch_unmarshal c d2 (ch_marshal d ++ extra) = Some d' /\ ch_rel c d' m.
Proof.
  intros c d m d2 extra HG Hm HR L2. destruct (state_is32 c d m HG Hm HR) as [LS HS]. destruct HR as (Hs & (Lx & En & Ef) & Hl).
  pose proof (good_bs c HG) as Hb. pose proof (rest_length_lt N (c_bs c) m Hb) as LR. assert (Hb' : c_bs c <= 128) by (destruct HG as ((q & E & Hq) & _); lia).
  unfold ch_unmarshal, ch_marshal. rewrite Ef.
  set (H := concat (map (le_bytes 4) (ds d))). assert (LH : length H = 128) by (unfold H; rewrite concat_le_length, LS; reflexivity).
  assert (W : w8 (N.of_nat (dnx d)) = N.of_nat (dnx d)) by (rewrite w8_mod; apply N.mod_small; lia). rewrite W. rewrite <- !app_assoc.
  assert (A : at_ (H ++ [N.of_nat (dnx d)] ++ rest (c_bs c) m ++ extra) 128 = N.of_nat (dnx d)) by (unfold at_; rewrite app_nth2 by lia; rewrite LH; reflexivity).
  assert (LL : length (H ++ [N.of_nat (dnx d)] ++ rest (c_bs c) m ++ extra) = 129 + dnx d + length extra) by (rewrite !app_length, LH; cbn [length]; lia).
  cbv zeta. rewrite A, LL, Nnat.Nat2N.id.
  replace (129 + dnx d + length extra <? 129) with false by (symmetry; apply Nat.ltb_ge; lia). replace (c_bs c <=? dnx d) with false by (symmetry; apply Nat.leb_gt; lia).
  replace (129 + dnx d + length extra <? 129 + dnx d) with false by (symmetry; apply Nat.ltb_ge; lia). cbn [orb].
  assert (E1 : map (fun k => le_val (slice (H ++ [N.of_nat (dnx d)] ++ rest (c_bs c) m ++ extra) (k * 4) (k * 4 + 4))) (seq 0 32) = ds d).
  { apply list_eq_at; [now rewrite map_length, seq_length|]. intros i Hi. rewrite map_length, seq_length in Hi. rewrite at_map_seq by exact Hi. unfold H. apply words_back; [lia|exact HS]. }
  assert (E2 : firstn (dnx d) (skipn 129 (H ++ [N.of_nat (dnx d)] ++ rest (c_bs c) m ++ extra)) = rest (c_bs c) m).
  { rewrite (app_assoc H). rewrite skipn_app, skipn_all2 by (rewrite app_length, LH; cbn [length]; lia). rewrite app_length, LH. cbn [length app Nat.add Nat.sub]. rewrite skipn_O, En, firstn_app, Nat.sub_diag, firstn_O, app_nil_r. apply firstn_all. }
  rewrite E1, E2. eexists. split; [reflexivity|]. split; [exact Hs|]. split; [|cbn [dlen]; now rewrite N.mul_0_l].
  cbn [dx dnx]. rewrite copy_at_over by lia. split; [rewrite app_length, skipn_length; lia|]. split; [exact En|]. rewrite En. rewrite firstn_app, Nat.sub_diag, firstn_O, app_nil_r. apply firstn_all.
Qed.
Lemma ch_exec : forall c ops, ch_good c -> ch_rel c (exec (ch_impl c) (ch_new c) ops) (history [] ops).
Proof.
  intros c ops HG. apply (exec_refines _ (ch_impl c) (ch_rel c)); cbn [i_write i_sum i_reset ch_impl]; auto.
  - intros d' m' p H. apply (write_nolen_rel (c_bs c) (ch_ingest c) (good_bs c HG)). exact H.
  - intros. now apply ch_new_rel.
  - now apply ch_new_rel.
Qed.
Lemma history_bytes : forall ops m, isbytes m -> Forall op_bytes ops -> isbytes (history m ops).
Proof.
  induction ops as [|[p|i|] ops IH]; intros m Hm HF; inversion HF as [|? ? Ho HF']; subst; cbn [history]; [exact Hm| | |].
  - apply IH; [|exact HF']. apply Forall_app. split; [exact Hm|exact Ho].
  - apply IH; [exact Hm|exact HF'].
  - apply IH; [constructor|exact HF'].
Qed.
(** The saved state restored into a digest with any past behaves like the digest that was saved; bytes after the saved state are ignored. *)
Theorem C90_cubehash_marshal_roundtrip : forall c before1 before2 extra after, ch_good c -> Forall op_bytes before1 ->
  exists d', ch_unmarshal c (exec (ch_impl c) (ch_new c) before2) (ch_marshal (exec (ch_impl c) (ch_new c) before1) ++ extra) = Some d' /\
  run (ch_impl c) d' after = run (ch_impl c) (exec (ch_impl c) (ch_new c) before1) after.
Proof.
  intros c b1 b2 extra after HG H1. pose proof (ch_exec c b1 HG) as R1. destruct (ch_exec c b2 HG) as (_ & (L2 & _) & _).
  destruct (marshal_back c _ _ _ extra HG (history_bytes b1 [] (Forall_nil _) H1) R1 L2) as (d' & E & R'). exists d'. split; [exact E|]. rewrite (ch_run c HG after _ _ R'). symmetry. exact (ch_run c HG after _ _ R1).
Qed.
(** Exactly the byte strings that hold 128 state bytes, a count below the block size and that many buffered bytes are accepted. *)
Theorem C90_cubehash_unmarshal_accepts_iff : forall c d data,
  (exists d', ch_unmarshal c d data = Some d') <-> 128 < length data /\ N.to_nat (at_ data 128) < c_bs c /\ 129 + N.to_nat (at_ data 128) <= length data.
Proof.
  intros c d data. unfold ch_unmarshal. destruct (length data <? 129) eqn:E1; [apply Nat.ltb_lt in E1; split; [intros [? H]; discriminate H|lia]|]. apply Nat.ltb_ge in E1. cbv zeta.
  destruct (c_bs c <=? N.to_nat (at_ data 128)) eqn:E2; cbn [orb]; [apply Nat.leb_le in E2; split; [intros [? H]; discriminate H|lia]|]. apply Nat.leb_gt in E2.
  destruct (length data <? 129 + N.to_nat (at_ data 128)) eqn:E3; [apply Nat.ltb_lt in E3; split; [intros [? H]; discriminate H|lia]|]. apply Nat.ltb_ge in E3.
  split; [intros _; lia|intros _; eexists; reflexivity].
Qed.
(** C91: Sum appends 4*(hs/32) bytes, whatever Size() says; the two agree exactly when hs mod 32 < 8. *)
Lemma ch_len : forall c d, length (ds d) = 32 -> c_hs c / 32 <= 32 -> length (ch_checkSum c d) = 4 * (c_hs c / 32).
Proof.
  intros c d L H. unfold ch_checkSum. cbv zeta. rewrite concat_le_length, firstn_length.
  assert (G : forall n x, length x = 32 -> length (Nat.iter n ch_round x) = 32) by (intros n x Hx; destruct (rounds_ok n x Hx) as [A B]; now rewrite A).
  assert (GI : forall p, length (ch_ingest c (ds d) p) = 32).
  { intro p. unfold ch_ingest. apply G. revert L. generalize (ds d). generalize (seq 0 (c_bs c / 4)). induction l as [|a l IH]; intros x Lx; [exact Lx|]. rewrite fold_left_cons. apply IH. now rewrite upd_length. }
  rewrite G; [lia|]. rewrite upd_length. apply GI.
Qed.
Theorem C91_cubehash_sum_length : forall c ops inp, 0 < c_bs c -> c_hs c < 1056 ->
  length (snd (ch_sum c (exec (ch_impl c) (ch_new c) ops) inp)) = length inp + 4 * (c_hs c / 32) /\
  (4 * (c_hs c / 32) = ch_Size c <-> c_hs c mod 32 < 8).
Proof.
  intros c ops inp Hb Hh. split.
  - unfold ch_sum. cbn [snd]. rewrite app_length, ch_len; [reflexivity| |enough (c_hs c / 32 < 33) by lia; apply Nat.div_lt_upper_bound; lia].
    assert (G : forall n x, length x = 32 -> length (Nat.iter n ch_round x) = 32) by (intros n x Hx; destruct (rounds_ok n x Hx) as [A B]; now rewrite A).
    assert (GI : forall x p, length x = 32 -> length (ch_ingest c x p) = 32).
    { intros x p. unfold ch_ingest. intro L. apply G. revert L. revert x. generalize (seq 0 (c_bs c / 4)). induction l as [|a l IH]; intros x Lx; [exact Lx|]. rewrite fold_left_cons. apply IH. now rewrite upd_length. }
    assert (R : ch_rel c (exec (ch_impl c) (ch_new c) ops) (history [] ops)).
    { apply (exec_refines _ (ch_impl c) (ch_rel c)); cbn [i_write i_sum i_reset ch_impl]; auto.
      - intros d' m' p H. apply (write_nolen_rel (c_bs c) (ch_ingest c) Hb). exact H.
      - intros. apply (dig_rel_new (c_bs c) (ch_ingest c) Hb). apply repeat_length.
      - apply (dig_rel_new (c_bs c) (ch_ingest c) Hb). apply repeat_length. }
    destruct R as (Hs & _). rewrite Hs. assert (L0 : length (ch_init c) = 32) by (apply G; reflexivity). revert L0. generalize (ch_init c). generalize (chunks (c_bs c) (history [] ops)).
    induction l as [|a l IH]; intros x Lx; [exact Lx|]. rewrite fold_left_cons. apply IH. now apply GI.
  - unfold ch_Size. pose proof (Nat.div_mod (c_hs c) 32 ltac:(lia)) as D. pose proof (Nat.mod_upper_bound (c_hs c) 32 ltac:(lia)). pose proof (Nat.div_mod (c_hs c) 8 ltac:(lia)). pose proof (Nat.mod_upper_bound (c_hs c) 8 ltac:(lia)). lia.
Qed.
Theorem C91_cubehash_size_refuted : exists c, length (snd (ch_sum c (ch_new c) [])) <> ch_Size c /\ 0 < c_bs c <= 128 /\ c_hs c <= 1024.
Proof.
  exists (NewCubehash 40 32 1 1 1). destruct (C91_cubehash_sum_length (NewCubehash 40 32 1 1 1) [] []) as [A _]; [cbn; lia|cbn [c_hs NewCubehash]; lia|]. cbn [exec] in A. rewrite A. cbn [length]. split; [|cbn; lia].
  vm_compute. discriminate.
Qed.

(** Known answers (cubehash_test.go): the specification computes them, and a concrete history meets the hypotheses above. *)
Example cube_empty : ch_spec HS512 [] = be_bytes 64 0x37045cca405ee6fbdf815ed8b57c971bb78dafb58f3ef676c977a716f66dbd8f376fef59d2e0687cf5608c5dad53ba42c8456269f3f3bcfb27d9b75caaa26e11.
Proof. vm_compute. reflexivity. Qed.
Example cube_hello : ch_spec HS512 [0x48; 0x65; 0x6c; 0x6c; 0x6f]%N = be_bytes 64 0xa3c2b3d38c940b46b51c286b0159bceb34fa7ae4d307234f48a2ca4662a21ddc5875fda2c2a5994bb4d45dbbb3218381174d5dd5f0aae87db87d086dff46e3ae.
Proof. vm_compute. reflexivity. Qed.
Example cube_marshal_case : exists d', ch_unmarshal HS512 (exec (ch_impl HS512) (ch_new HS512) [Write (zeros 5)]) (ch_marshal (exec (ch_impl HS512) (ch_new HS512) [Write [0x48; 0x65]%N])) = Some d' /\
  run (ch_impl HS512) d' [Write [0x6c; 0x6c; 0x6f]%N; Sum []] = [Wrote 3; Summed (ch_spec HS512 [0x48; 0x65; 0x6c; 0x6c; 0x6f]%N)].
Proof.
  pose proof C88_cubehash_constructors as HC. inversion HC as [|? ? HG _]; subst.
  destruct (C90_cubehash_marshal_roundtrip HS512 [Write [0x48; 0x65]%N] [Write (zeros 5)] [] [Write [0x6c; 0x6c; 0x6f]%N; Sum []] HG) as (d' & E & R).
  - repeat constructor.
  - rewrite app_nil_r in E. exists d'. split; [exact E|]. rewrite R. rewrite (ch_run HS512 HG _ _ _ (ch_exec HS512 [Write [0x48; 0x65]%N] HG)). reflexivity.
Qed.
