(** Skein.v -- model of /repo/skein (skein512.go, skein.go, constants.go) and of its copies skein256/, skein1024/,
    which differ only in the block size, and proofs. *)
From Coq Require Import List NArith Arith Lia Bool.
From Verif Require Import Base Words HashAPI Buf Buf3 Refine SpecCmac SpecSkein ThreefishTab Threefish.
Import ListNotations.

(** skein/skein512.go:5-12 hashFunc; skh is hVal without the scratch word, skc is hValCpy, skt is tweak[0], tweak[1]
    (tweak[2] is recomputed by UBI before it is read). *)
Record sk := mksk { sks : nat; skh : list N; skc : list N; skt : N * N; skx : list N; sko : nat; skm : bool }.
(** skein/constants.go *)
Definition FirstBlock : N := 2 ^ 62.
Definition FinalBlock : N := 2 ^ 63.
Definition CfgKey : N := 0. Definition CfgConfig : N := 4. Definition CfgPersonal : N := 8. Definition CfgPublicKey : N := 12.
Definition CfgKeyID : N := 16. Definition CfgNonce : N := 20. Definition CfgMessage : N := 48. Definition CfgOutput : N := 63.
Definition SchemaID : N := 0x133414853.
(** tweak[0] = 0; tweak[1] = typ<<56 | FirstBlock *)
Definition tw_start (typ : N) : N * N := (0%N, N.lor (shl64 typ 56) FirstBlock).
(** skein512.go:14-25 Reset *)
Definition sk_reset (v : variant) (s : sk) : sk :=
  mksk (sks s) (skc s) (skc s) (tw_start CfgMessage) (zeros (nb v)) 0 false.
(** skein512.go:95-101 update, on (hVal, tweak); the argument is the 64 bytes given to bytesToBlock *)
Definition sk_update (v : variant) (ht : list N * (N * N)) (b : list N) : list N * (N * N) :=
  let '(h, t) := ht in
  let t := IncrementTweak t (N.of_nat (nb v)) in
  (snd (UBI v (bytesToBlock v b) h t), (fst t, N.ldiff (snd t) FirstBlock)).
(** skein512.go:35-69 Write *)
Definition sk_write (v : variant) (s : sk) (p : list N) : sk * nat :=
  let '(ht, x, o) := writeL (nb v) (sk_update v) (skh s, skt s) (skx s) (sko s) p in
  (mksk (sks s) (fst ht) (skc s) (snd ht) x o true, length p).
(** skein512.go:199-213 finalizeHash *)
Definition sk_finalize (v : variant) (s : sk) : sk :=
  let t := IncrementTweak (skt s) (N.of_nat (sko s)) in
  let t := (fst t, N.lor (snd t) FinalBlock) in
  let x := copy_at (skx s) (sko s) (zeros (nb v)) in
  mksk (sks s) (snd (UBI v (bytesToBlock v x) (skh s) t)) (skc s) t x 0 (skm s).
(** skein512.go:103-114 output *)
Definition sk_output (v : variant) (h : list N) (ctr : N) : list N :=
  let block := upd (zeros (nw v)) 0 ctr in
  let outTweak := (8%N, N.lor (N.lor (shl64 CfgOutput 56) FirstBlock) FinalBlock) in
  let block := fst (UBI v block h outTweak) in
  let block := upd block 0 (N.lxor (at_ block 0) ctr) in
  blockToBytes block.
(** skein512.go:78-93 checkSum on a copy.  The loop runs ceil(hashsize/BlockSize) times with ctr = 0, 1, ... *)
Definition sk_checkSum (v : variant) (s : sk) : list N :=
  let s := if skm s then sk_finalize v s else s in
  firstn (sks s) (flat_map (fun i => sk_output v (skh s) (w64 (N.of_nat i))) (seq 0 ((sks s + nb v - 1) / nb v))).
Definition sk_impl (v : variant) : impl sk := mkimpl (sk_write v) (fun s i => (s, i ++ sk_checkSum v s)) (sk_reset v).
(** skein512.go:133-138 etc.: one parameter of the configuration *)
Definition sk_with_tweak (s : sk) (t : N * N) : sk := mksk (sks s) (skh s) (skc s) t (skx s) (sko s) (skm s).
Definition sk_param (v : variant) (typ : N) (arg : list N) (s : sk) : sk :=
  if 0 <? length arg then sk_finalize v (fst (sk_write v (sk_with_tweak s (tw_start typ)) arg)) else s.
(** skein512.go:116-197 initialize; None when it panics *)
Definition sk_cfg (hashsize : nat) : list N :=
  le_bytes 8 SchemaID ++ le_bytes 8 (w64 (N.of_nat (hashsize * 8))) ++ zeros 16.
Definition sk_new (v : variant) (hashsize : nat) : sk := mksk hashsize (zeros (nw v)) (zeros (nw v)) (0, 0)%N (zeros (nb v)) 0 false.
Definition sk_initialize (v : variant) (hashsize : nat) (c : config) : option sk :=
  if hashsize <? 1 then None else
  let s := sk_new v hashsize in
  let s := sk_param v CfgKey (cKey c) s in
  let s := sk_finalize v (fst (sk_write v (sk_with_tweak s (tw_start CfgConfig)) (sk_cfg hashsize))) in
  let s := sk_param v CfgPersonal (cPersonal c) s in
  let s := sk_param v CfgPublicKey (cPublicKey c) s in
  let s := sk_param v CfgKeyID (cKeyID c) s in
  let s := sk_param v CfgNonce (cNonce c) s in
  Some (sk_reset v (mksk (sks s) (skh s) (skh s) (skt s) (skx s) (sko s) (skm s))).
(** skein/constants.go:46-70 *)
Definition iv160 : list N := [0x28B81A2AE013BD91; 0xC2F11668B5BDF78F; 0x1760D8F3F6A56F12; 0x4FB747588239904F;
    0x21EDE07F7EAF5056; 0xD908922E63ED70B8; 0xB8EC76FFECCB52FA; 0x01A47BB8A3F27A6E]%N.
Definition iv256 : list N := [0xCCD044A12FDB3E13; 0xE83590301A79A9EB; 0x55AEA0614F816E6F; 0x2A2767A4AE9B94DB;
    0xEC06025E74DD7683; 0xE7A436CDC4746251; 0xC36FBAF9393AD185; 0x3EEDBA1833EDFC13]%N.
Definition iv384 : list N := [0xA3F6C6BF3A75EF5F; 0xB0FEF9CCFD84FAA4; 0x9D77DD663D770CFE; 0xD798CBF3B468FDDA;
    0x1BC4A6668A0E4465; 0x7ED7D434E5807407; 0x548FC1ACD4EC44D6; 0x266E17546AA18FF8]%N.
Definition iv512 : list N := [0x4903ADFF749C51CE; 0x0D95DE399746DF03; 0x8FD1934127C79BCE; 0x9A255629FF352CB1;
    0x5DB62599DF6CA7B0; 0xEABE394CA9D5C3F4; 0x991112C71A75B523; 0xAE18A40B660FCC33]%N.
Definition key_config (key : list N) : config := mkconfig key [] [] [] [].
(** skein/skein.go:51-60, 153-188: the object used by Sum512/384/256/160 and returned by New512, New256 *)
Definition sk_keyed (hashsize : nat) (iv key : list N) : option sk :=
  if 0 <? length key then sk_initialize V512 hashsize (key_config key)
  else Some (mksk hashsize iv iv (tw_start CfgMessage) (zeros 64) 0 false).
Definition New512 (key : list N) : option sk := sk_keyed 64 iv512 key.
Definition New256 (key : list N) : option sk := sk_keyed 32 iv256 key.
(** skein/skein.go:62-70: Write(msg); finalizeHash(); output(0); the first n bytes (n at most one block) *)
Definition sk_sum1 (v : variant) (n : nat) (s : sk) (msg : list N) : list N :=
  firstn n (sk_output v (skh (sk_finalize v (fst (sk_write v s msg)))) 0).
(** skein256/skein.go:18-27: the same with two output blocks *)
Definition sk_sum2 (v : variant) (n : nat) (s : sk) (msg : list N) : list N :=
  let h := skh (sk_finalize v (fst (sk_write v s msg))) in
  sk_output v h 0 ++ firstn (n - nb v) (sk_output v h 1).
Definition Sum512 (msg key : list N) := option_map (fun s => sk_sum1 V512 64 s msg) (sk_keyed 64 iv512 key).
Definition Sum384 (msg key : list N) := option_map (fun s => sk_sum1 V512 48 s msg) (sk_keyed 48 iv384 key).
Definition Sum256 (msg key : list N) := option_map (fun s => sk_sum1 V512 32 s msg) (sk_keyed 32 iv256 key).
Definition Sum160 (msg key : list N) := option_map (fun s => sk_sum1 V512 20 s msg) (sk_keyed 20 iv160 key).
(** skein256/skein.go Sum512, Sum384, Sum256, Sum160 and skein1024/skein.go *)
Definition skein256_Sum512 (msg key : list N) := option_map (fun s => sk_sum2 V256 64 s msg) (sk_initialize V256 64 (key_config key)).
Definition skein256_Sum384 (msg key : list N) := option_map (fun s => sk_sum2 V256 48 s msg) (sk_initialize V256 48 (key_config key)).
Definition skein256_Sum256 (msg key : list N) := option_map (fun s => sk_sum1 V256 32 s msg) (sk_initialize V256 32 (key_config key)).
Definition skein256_Sum160 (msg key : list N) := option_map (fun s => sk_sum1 V256 20 s msg) (sk_initialize V256 20 (key_config key)).
Definition skein1024_Sum (n : nat) (msg key : list N) := option_map (fun s => sk_sum1 V1024 n s msg) (sk_initialize V1024 n (key_config key)).
(** skein.go:143-147 Sum(msg, hashsize, conf) (also skein256, skein1024) *)
Definition skein_Sum (v : variant) (msg : list N) (hashsize : nat) (c : config) : option (list N) :=
  option_map (fun s => snd (i_sum (sk_impl v) (fst (sk_write v s msg)) [])) (sk_initialize v hashsize c).

(** * Proofs *)
Definition types : list N := [0; 4; 8; 12; 16; 20; 48; 63]%N.
Definition tw1 (typ : N) (first final : bool) : N :=
  (typ * 2 ^ 56 + (if first then 2 ^ 62 else 0) + (if final then 2 ^ 63 else 0))%N.
Lemma tw_words_ok : forall pos typ a b, (pos < 2 ^ 64)%N -> tw_words (tweak_of pos typ a b) = (pos, tw1 typ a b).
Proof.
  intros pos typ a b Hp. unfold tw_words, tweak_of. rewrite (N.mod_small pos) by (apply N.lt_trans with (2 ^ 64)%N; [auto|reflexivity]).
  assert (E : (pos + typ * 2 ^ 120 + (if a then 2 ^ 126 else 0) + (if b then 2 ^ 127 else 0) = pos + tw1 typ a b * 2 ^ 64)%N).
  { unfold tw1. change (2 ^ 120)%N with (2 ^ 56 * 2 ^ 64)%N. change (2 ^ 126)%N with (2 ^ 62 * 2 ^ 64)%N. change (2 ^ 127)%N with (2 ^ 63 * 2 ^ 64)%N.
    generalize (2 ^ 64)%N (2 ^ 56)%N (2 ^ 62)%N (2 ^ 63)%N. intros. destruct a, b; lia. }
  rewrite E. rewrite N.mod_add, N.div_add by discriminate. rewrite N.mod_small, N.div_small by auto. reflexivity.
Qed.
Lemma tw_start_ok : forall typ, In typ types -> tw_start typ = (0%N, tw1 typ true false).
Proof. intros typ H. repeat (destruct H as [<-|H]; [reflexivity|]). destruct H. Qed.
Lemma tw_ldiff : forall typ f, In typ types -> N.ldiff (tw1 typ f false) FirstBlock = tw1 typ false false.
Proof. intros typ f H. destruct f; repeat (destruct H as [<-|H]; [reflexivity|]); destruct H. Qed.
Lemma tw_final : forall typ f, In typ types -> N.lor (tw1 typ f false) FinalBlock = tw1 typ f true.
Proof. intros typ f H. destruct f; repeat (destruct H as [<-|H]; [reflexivity|]); destruct H. Qed.
Lemma incr_ok : forall t0 t1 c, (t0 + c < 2 ^ 64)%N -> IncrementTweak (t0, t1) c = ((t0 + c)%N, t1).
Proof.
  intros t0 t1 c H. unfold IncrementTweak, add64. rewrite w64_small by exact H. destruct (N.ltb_spec (t0 + c) t0); [lia|reflexivity].
Qed.
Lemma nb_pos : forall v, 0 < nb v. Proof. destruct v; cbn; lia. Qed.
Lemma nb_8 : forall v, 8 <= nb v. Proof. destruct v; cbn; lia. Qed.
Lemma threefish_len : forall v k t p, length (threefish v k t p) = nw v.
Proof. intros. unfold threefish, tf_addkey. now rewrite map_length, seq_length. Qed.
Lemma xorblk_len' : forall a b, length (xorblk a b) = Nat.min (length a) (length b).
Proof. intros. unfold xorblk. now rewrite map_length, combine_length. Qed.
Lemma to_words_len : forall s, length (to_words s) = length s / 8.
Proof. intros. unfold to_words. now rewrite map_length, chunks_length. Qed.
Lemma ubi_block_len : forall v G t b, length b = nb v -> length (ubi_block v G t b) = nw v.
Proof.
  intros v G t b L. unfold ubi_block. rewrite xorblk_len', threefish_len, to_words_len, L. unfold nb. rewrite Nat.mul_comm, Nat.div_mul by lia. apply Nat.min_id.
Qed.
Definition chain (v : variant) (G : list N) (typ : N) (bl : list (list N)) : list N :=
  fold_left (fun G i => ubi_block v G (tweak_of (N.of_nat ((i + 1) * nb v)) typ (i =? 0) false) (nth i bl [])) (seq 0 (length bl)) G.
Lemma chain_snoc : forall v G typ bl b,
  chain v G typ (bl ++ [b]) = ubi_block v (chain v G typ bl) (tweak_of (N.of_nat ((length bl + 1) * nb v)) typ (length bl =? 0) false) b.
Proof.
  intros v G typ bl b. unfold chain. rewrite app_length. cbn [length]. rewrite Nat.add_1_r, seq_S, fold_left_app. cbn [plus fold_left].
  rewrite nth_middle. rewrite Nat.add_1_r. f_equal. apply fold_left_ext_in. intros g i Hi. apply in_seq in Hi. rewrite app_nth1 by lia. reflexivity.
Qed.
Lemma UBI_block : forall v b h t0 t1 t, length h = nw v -> length b = nb v -> tw_words t = (t0, t1) ->
  snd (UBI v (bytesToBlock v b) h (t0, t1)) = ubi_block v h t b.
Proof. intros v b h t0 t1 t Lh Lb E. rewrite UBI_ok by auto. cbn [snd]. unfold ubi_block. now rewrite bytesToBlock_ok, E by auto. Qed.
Lemma sk_fold : forall v G typ bl, length G = nw v -> In typ types -> Forall (fun b => length b = nb v) bl -> (N.of_nat (length bl * nb v) < 2 ^ 64)%N ->
  fold_left (sk_update v) bl (G, tw_start typ) = (chain v G typ bl, (N.of_nat (length bl * nb v), tw1 typ (length bl =? 0) false)) /\ length (chain v G typ bl) = nw v.
Proof.
  intros v G typ bl LG Ht. induction bl as [|b bl IH] using rev_ind; intros F HB.
  - cbn [fold_left length]. rewrite tw_start_ok by auto. auto.
  - apply Forall_app in F. destruct F as [F Fb]. inversion Fb as [|? ? Lb _]; subst. rewrite app_length in HB |- *. cbn [length] in HB |- *.
    destruct IH as [E L]; [auto|lia|]. rewrite fold_left_app, E. cbn [fold_left]. rewrite chain_snoc. split; [|now apply ubi_block_len].
    unfold sk_update. rewrite incr_ok by (rewrite <- Nat2N.inj_add; replace (length bl * nb v + nb v) with ((length bl + 1) * nb v) by lia; exact HB). cbn [fst snd].
    rewrite <- Nat2N.inj_add. replace (length bl * nb v + nb v) with ((length bl + 1) * nb v) by lia.
    rewrite (UBI_block v b _ _ _ (tweak_of (N.of_nat ((length bl + 1) * nb v)) typ (length bl =? 0) false)); auto.
    2:{ now rewrite tw_words_ok. }
    rewrite tw_ldiff by auto. destruct (Nat.eqb_spec (length bl + 1) 0); [lia|]. reflexivity.
Qed.
Lemma ubi_split : forall v G typ a r, length a mod nb v = 0 -> length r <= nb v -> (r = [] -> a = []) ->
  ubi v G (a ++ r) typ = ubi_block v (chain v G typ (chunks (nb v) a))
    (tweak_of (N.of_nat (length a + length r)) typ (length (chunks (nb v) a) =? 0) true) (r ++ zeros (nb v - length r)).
Proof.
  intros v G typ a r Ma Lr Hr. pose proof (nb_pos v) as Hb. unfold ubi.
  assert (EP : ubi_pad v (a ++ r) = a ++ (r ++ zeros (nb v - length r))).
  { unfold ubi_pad. rewrite <- app_assoc. do 2 f_equal. destruct r as [|r0 r].
    - rewrite (Hr eq_refl). cbn [app length]. f_equal. lia.
    - f_equal. destruct (a ++ r0 :: r) as [|z l] eqn:EA; [destruct a; discriminate|]. rewrite <- EA. rewrite app_length.
      rewrite Nat.add_mod, Ma by lia. cbn [plus]. rewrite Nat.mod_mod by lia. destruct (Nat.eq_dec (length (r0 :: r)) (nb v)) as [E|E].
      + rewrite E, Nat.mod_same, Nat.sub_0_r, Nat.mod_same, Nat.sub_diag by lia. reflexivity.
      + rewrite (Nat.mod_small (length (r0 :: r))) by lia. rewrite Nat.mod_small by (cbn [length] in *; lia). reflexivity. }
  rewrite EP. assert (LB : length (r ++ zeros (nb v - length r)) = nb v) by (rewrite app_length, zeros_length; lia).
  set (b := r ++ zeros (nb v - length r)) in *. clearbody b.
  assert (EC : chunks (nb v) (a ++ b) = chunks (nb v) a ++ [b]).
  { rewrite chunks_app by auto. assert (R : rest (nb v) a = []) by (apply length_zero_iff_nil; rewrite rest_length; lia). rewrite R. now rewrite (chunks_one N (nb v) ([] ++ b)). }
  rewrite EC. pose proof (chunks_length N (nb v) a) as LC. set (bl := chunks (nb v) a) in *. 
  assert (LA : length a = length bl * nb v) by (rewrite LC; pose proof (Nat.div_mod (length a) (nb v) ltac:(lia)); lia). clearbody bl.
  rewrite (app_length bl [b]). cbn [length]. rewrite Nat.add_sub. rewrite Nat.add_1_r, seq_S, fold_left_app. cbn [plus fold_left]. rewrite nth_middle, Nat.eqb_refl.
  rewrite (app_length a r). rewrite Nat.min_l by lia. f_equal. unfold chain. apply fold_left_ext_in. intros g i Hi. apply in_seq in Hi.
  rewrite app_nth1 by lia. assert (Q : (i + 1) * nb v <= length bl * nb v) by (apply Nat.mul_le_mono_r; lia). rewrite Nat.min_r by lia.
  destruct (Nat.eqb_spec i (length bl)); [lia|]. reflexivity.
Qed.
Definition sk_lazy (v : variant) (typ : N) (G : list N) (s : sk) (m : list N) : Prop :=
  lazy_rel (nb v) (sk_update v) (G, tw_start typ) (skh s, skt s) (skx s) (sko s) m.
Lemma sk_finalize_ok : forall v typ G s m, length G = nw v -> In typ types -> sk_lazy v typ G s m -> (N.of_nat (length m) < 2 ^ 64)%N ->
  skh (sk_finalize v s) = ubi v G m typ /\ length (ubi v G m typ) = nw v.
Proof.
  intros v typ G s m LG Ht (a & Ma & Es & Em & Lx & Lo & Ho) HB. pose proof (nb_pos v) as Hb.
  pose proof (chunks_length N (nb v) a) as LC. pose proof (chunks_all_length N (nb v) a Hb) as FC.
  assert (LA : length a = length (chunks (nb v) a) * nb v) by (rewrite LC; pose proof (Nat.div_mod (length a) (nb v) ltac:(lia)); lia).
  set (r := firstn (sko s) (skx s)) in *. assert (Lr : length r = sko s) by (unfold r; rewrite firstn_length; lia).
  assert (HM : length m = length a + sko s) by (rewrite Em, app_length; lia).
  destruct (sk_fold v G typ (chunks (nb v) a) LG Ht FC) as [EF LF]; [lia|]. rewrite EF in Es. inversion Es as [[E1 E2]]. clear Es EF.
  rewrite Em, (ubi_split v G typ a r Ma) by (try lia; intros R0; apply Ho; rewrite <- Lr, R0; reflexivity).
  assert (LB : length (r ++ zeros (nb v - length r)) = nb v) by (rewrite app_length, zeros_length; lia).
  split; [|now apply ubi_block_len]. unfold sk_finalize. cbn [skh]. rewrite E1, E2, incr_ok by (rewrite <- Nat2N.inj_add, <- LA; lia). cbn [fst snd].
  rewrite tw_final by auto. rewrite <- Nat2N.inj_add, <- LA, <- Lr.
  assert (EX : copy_at (skx s) (length r) (zeros (nb v)) = r ++ zeros (nb v - length r)).
  { rewrite Lr, copy_at_full by (rewrite ?zeros_length; lia). unfold r. rewrite firstn_zeros, Lx. f_equal. f_equal. lia. }
  rewrite EX. apply UBI_block; auto. apply tw_words_ok. lia.
Qed.
Lemma sk_write_lazy : forall v typ G s m p, sk_lazy v typ G s m -> sk_lazy v typ G (fst (sk_write v s p)) (m ++ p).
Proof.
  intros v typ G s m p H. unfold sk_write. pose proof (writeL_rel (nb v) (sk_update v) (nb_pos v) _ _ _ _ m p H) as W.
  destruct (writeL _ _ _ _ _ _) as [[ht x] o]. unfold sk_lazy. cbn [fst skh skt skx sko]. destruct ht. exact W.
Qed.
Lemma lazy_new : forall v typ s, length (skx s) = nb v -> sko s = 0 -> sk_lazy v typ (skh s) (sk_with_tweak s (tw_start typ)) [].
Proof.
  intros v typ s Lx Lo. exists []. unfold sk_with_tweak. cbn [skh skt skx sko]. rewrite Lo. split; [apply Nat.mod_0_l; pose proof (nb_pos v); lia|].
  split; [rewrite chunks_short by exact (nb_pos v); reflexivity|]. split; [reflexivity|]. split; [auto|]. split; [lia|auto].
Qed.

Definition sk_good (v : variant) (s : sk) : Prop := length (skh s) = nw v /\ length (skx s) = nb v /\ sko s = 0.
Lemma stage_ok : forall v typ s arg, sk_good v s -> In typ types -> (N.of_nat (length arg) < 2 ^ 64)%N ->
  let s' := sk_finalize v (fst (sk_write v (sk_with_tweak s (tw_start typ)) arg)) in
  sk_good v s' /\ skh s' = ubi v (skh s) arg typ /\ sks s' = sks s.
Proof.
  intros v typ s arg (Lh & Lx & Lo) Ht HB s'.
  pose proof (sk_write_lazy v typ (skh s) (sk_with_tweak s (tw_start typ)) [] arg (lazy_new v typ s Lx Lo)) as W. cbn [app] in W.
  assert (ES : sks (fst (sk_write v (sk_with_tweak s (tw_start typ)) arg)) = sks s).
  { unfold sk_write. destruct (writeL _ _ _ _ _ _) as [[ht x] o]. reflexivity. }
  unfold s'. clear s'. set (s1 := fst (sk_write v (sk_with_tweak s (tw_start typ)) arg)) in *. clearbody s1.
  destruct (sk_finalize_ok v typ (skh s) s1 arg Lh Ht W HB) as [E L]. destruct W as (a & _ & _ & _ & LX & LO & _).
  split; [|split; [exact E|exact ES]]. split; [rewrite E; exact L|]. split; [|reflexivity]. unfold sk_finalize. cbn [skx]. rewrite copy_at_length; auto. lia.
Qed.
Lemma param_ok : forall v typ s arg, sk_good v s -> In typ types -> (N.of_nat (length arg) < 2 ^ 64)%N ->
  sk_good v (sk_param v typ arg s) /\ skh (sk_param v typ arg s) = opt_ubi v typ arg (skh s) /\ sks (sk_param v typ arg s) = sks s.
Proof.
  intros v typ s arg G Ht HB. unfold sk_param, opt_ubi. destruct arg as [|x arg]; [auto|]. cbn [length]. change (0 <? Datatypes.S (length arg)) with true. cbv iota.
  exact (stage_ok v typ s (x :: arg) G Ht HB).
Qed.
Lemma cfg_ok : forall hs, sk_cfg hs = cfg_string hs.
Proof.
  intros hs. unfold sk_cfg, cfg_string. f_equal. f_equal. rewrite w64_mod. replace (N.of_nat (hs * 8)) with (8 * N.of_nat hs)%N by lia.
  change 18446744073709551616%N with (256 ^ N.of_nat 8)%N. apply le_bytes_mod.
Qed.
Lemma cfg_len : forall hs, length (cfg_string hs) = 32.
Proof. intros. unfold cfg_string. rewrite !app_length, le_bytes_length, zeros_length. reflexivity. Qed.
Definition config_small (c : config) : Prop :=
  Forall (fun a => (N.of_nat (length a) < 2 ^ 64)%N) [cKey c; cPersonal c; cPublicKey c; cKeyID c; cNonce c].
Definition sk_fresh (v : variant) (hs : nat) (G : list N) : sk := mksk hs G G (tw_start CfgMessage) (zeros (nb v)) 0 false.
Ltac tyin := unfold types; cbn; tauto.
Lemma skein_chain_ok : forall v hs c, config_small c -> 
  sk_initialize v hs c = (if hs <? 1 then None else Some (sk_fresh v hs (skein_chain v hs c))) /\ length (skein_chain v hs c) = nw v.
Proof.
  intros v hs c HC. inversion HC as [|? ? H1 HC1]; subst. inversion HC1 as [|? ? H2 HC2]; subst. inversion HC2 as [|? ? H3 HC3]; subst.
  inversion HC3 as [|? ? H4 HC4]; subst. inversion HC4 as [|? ? H5 _]; subst.
  unfold sk_initialize, skein_chain.
  assert (G0 : sk_good v (sk_new v hs)). { split; [apply zeros_length|]. split; [apply zeros_length|reflexivity]. }
  destruct (param_ok v CfgKey (sk_new v hs) (cKey c) G0 ltac:(tyin) H1) as (G1 & E1 & S1).
  set (s1 := sk_param v CfgKey (cKey c) (sk_new v hs)) in *. clearbody s1.
  rewrite cfg_ok. destruct (stage_ok v CfgConfig s1 (cfg_string hs) G1 ltac:(tyin)) as (G2 & E2 & S2); [rewrite cfg_len; reflexivity|].
  set (s2 := sk_finalize v _) in *. clearbody s2.
  destruct (param_ok v CfgPersonal s2 (cPersonal c) G2 ltac:(tyin) H2) as (G3 & E3 & S3). set (s3 := sk_param v CfgPersonal _ _) in *. clearbody s3.
  destruct (param_ok v CfgPublicKey s3 (cPublicKey c) G3 ltac:(tyin) H3) as (G4 & E4 & S4). set (s4 := sk_param v CfgPublicKey _ _) in *. clearbody s4.
  destruct (param_ok v CfgKeyID s4 (cKeyID c) G4 ltac:(tyin) H4) as (G5 & E5 & S5). set (s5 := sk_param v CfgKeyID _ _) in *. clearbody s5.
  destruct (param_ok v CfgNonce s5 (cNonce c) G5 ltac:(tyin) H5) as (G6 & E6 & S6). set (s6 := sk_param v CfgNonce _ _) in *. clearbody s6.
  cbv zeta. unfold sk_reset, sk_fresh. cbn [sks skc].
  assert (EH : skh s6 = opt_ubi v 20 (cNonce c) (opt_ubi v 16 (cKeyID c) (opt_ubi v 12 (cPublicKey c) (opt_ubi v 8 (cPersonal c)
    (ubi v (opt_ubi v 0 (cKey c) (zeros (nw v))) (cfg_string hs) 4))))).
  { rewrite E6, E5, E4, E3, E2, E1. reflexivity. }
  rewrite <- EH. assert (ES : sks s6 = hs) by (rewrite S6, S5, S4, S3, S2, S1; reflexivity). rewrite ES. split; [reflexivity|apply G6].
Qed.
(** output *)
Lemma to_words_ctr : forall v ctr, is64 ctr -> to_words (le_bytes 8 ctr ++ zeros (nb v - 8)) = upd (zeros (nw v)) 0 ctr.
Proof.
  intros v ctr H. unfold to_words. rewrite chunks_app, rest_one, chunks_one by (rewrite ?le_bytes_length; lia). cbn [app map].
  rewrite le_val_le_bytes, N.mod_small by exact H. destruct v; reflexivity.
Qed.
Lemma upd_xor0 : forall e c n, length e = Datatypes.S n -> upd e 0 (N.lxor (at_ e 0) c) = xorblk e (c :: zeros n).
Proof.
  intros [|x e] c n L; [discriminate|]. cbn [upd]. unfold at_. cbn [nth]. unfold xorblk. cbn [combine map fst snd]. f_equal.
  injection L as L. rewrite <- L. clear L n. induction e as [|y e IH]; [reflexivity|]. cbn [length]. change (zeros (Datatypes.S (length e))) with (0%N :: zeros (length e)).
  cbn [combine map fst snd]. rewrite N.lxor_0_r. f_equal. exact IH.
Qed.
Lemma sk_output_ok : forall v h ctr, length h = nw v -> is64 ctr -> sk_output v h ctr = to_bytes (ubi v h (le_bytes 8 ctr) 63).
Proof.
  intros v h ctr Lh Hc. pose proof (ubi_split v h 63 [] (le_bytes 8 ctr)) as U. cbn [app] in U. rewrite chunks_short in U by exact (nb_pos v).
  rewrite U; [|apply Nat.mod_0_l; pose proof (nb_pos v); lia|rewrite le_bytes_length; apply nb_8|reflexivity]. clear U.
  change (chain v h 63 []) with h. change (length (@nil (list N)) =? 0) with true. change (length (@nil N)) with 0. rewrite le_bytes_length. unfold ubi_block.
  rewrite tw_words_ok by reflexivity. rewrite to_words_ctr by auto. unfold sk_output. rewrite UBI_ok by auto. cbn [fst].
  change (N.lor (N.lor (shl64 CfgOutput 56) FirstBlock) FinalBlock) with (tw1 63 true true). change (N.of_nat (0 + 8)) with 8%N.
  set (e := threefish _ _ _ _). assert (Le : length e = nw v) by apply threefish_len. clearbody e.
  rewrite (upd_xor0 e ctr (nw v - 1)) by (rewrite Le; pose proof (nw_pos v); lia). change blockToBytes with to_bytes. f_equal. f_equal. destruct v; reflexivity.
Qed.
Lemma flat_outputs : forall v h l, length h = nw v ->
  flat_map (fun i => sk_output v h (w64 (N.of_nat i))) l = flat_map (fun i => to_bytes (ubi v h (le_bytes 8 (N.of_nat i)) 63)) l.
Proof.
  intros v h l Lh. apply flat_map_ext. intros i. rewrite sk_output_ok by (auto; apply w64_is64). rewrite w64_mod.
  do 2 f_equal. change 18446744073709551616%N with (256 ^ N.of_nat 8)%N. apply le_bytes_mod.
Qed.
Definition sk_rel (v : variant) (hs : nat) (G : list N) (w : bool) (s : sk) (m : list N) : Prop :=
  sks s = hs /\ skc s = G /\ skm s = w /\ sk_lazy v 48 G s m /\ (w = false -> skh s = G).
Lemma sk_check_ok : forall v hs G w s m, length G = nw v -> sk_rel v hs G w s m -> (N.of_nat (length m) < 2 ^ 64)%N ->
  sk_checkSum v s = skein_output v (if w then ubi v G m 48 else G) hs.
Proof.
  intros v hs G w s m LG (E1 & E2 & E3 & E4 & E5) HB. unfold sk_checkSum, skein_output. rewrite E3. destruct w.
  - destruct (sk_finalize_ok v 48 G s m LG ltac:(tyin) E4 HB) as [EF LF]. rewrite EF. rewrite flat_outputs by auto.
    change (sks (sk_finalize v s)) with (sks s). now rewrite E1.
  - rewrite E5 by auto. rewrite flat_outputs by auto. now rewrite E1.
Qed.
Lemma fresh_sk : forall v hs G, sk_rel v hs G false (sk_fresh v hs G) [].
Proof.
  intros v hs G. split; [reflexivity|]. split; [reflexivity|]. split; [reflexivity|]. split; [|reflexivity].
  exists []. cbn [sk_fresh skh skt skx sko]. split; [apply Nat.mod_0_l; pose proof (nb_pos v); lia|].
  split; [rewrite chunks_short by exact (nb_pos v); reflexivity|]. split; [reflexivity|]. split; [apply zeros_length|]. split; [lia|auto].
Qed.
Lemma write_sk : forall v hs G w s m p, sk_rel v hs G w s m -> sk_rel v hs G true (fst (sk_write v s p)) (m ++ p) /\ snd (sk_write v s p) = length p.
Proof.
  intros v hs G w s m p (E1 & E2 & E3 & E4 & E5). pose proof (sk_write_lazy v 48 G s m p E4) as W. unfold sk_write in *.
  destruct (writeL _ _ _ _ _ _) as [[ht x] o]. cbn [fst snd] in *. split; [|reflexivity]. repeat split; auto. discriminate.
Qed.
(** Sum is preceded by a Write since the creation or the last Reset. *)
Lemma sk_run_ok : forall v hs G ops w s m, length G = nw v -> sk_rel v hs G w s m -> written_first w ops = true ->
  (N.of_nat (length m) + ops_total ops < 2 ^ 64)%N ->
  run (sk_impl v) s ops = ideal_run (fun m => skein_output v (ubi v G m 48) hs) m ops.
Proof.
  intros v hs G. induction ops as [|o ops IH]; intros w s m LG R WF HB; [reflexivity|]. destruct o as [p|i|]; cbn [run ideal_run ops_total written_first] in *.
  - destruct (write_sk v hs G w s m p R) as [R' N']. change (i_write (sk_impl v) s p) with (sk_write v s p). destruct (sk_write v s p) as [s' n]. cbn [fst snd] in *.
    subst n. f_equal. apply (IH true); auto. rewrite app_length. lia.
  - apply Bool.andb_true_iff in WF. destruct WF as [-> WF]. cbn [i_sum sk_impl]. rewrite (sk_check_ok v hs G true s m LG R) by lia. cbv iota. f_equal. apply (IH true); auto.
  - cbn [i_reset sk_impl]. apply (IH false); auto; [|cbn [length]; lia].
    destruct R as (E1 & E2 & _). unfold sk_reset. rewrite E1, E2. exact (fresh_sk v hs G).
Qed.
