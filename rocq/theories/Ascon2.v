(** Ascon2.v -- proofs about the AEAD and MAC parts of the model in Ascon.v (no model definitions here). *)
From Coq Require Import List NArith Arith Lia Bool.
From Verif Require Import Base Words HashAPI Buf Buf2 Refine Stream SpecAscon Ascon.
Import ListNotations.

(** ** Bytes of words *)
Lemma be8 : forall v, be_bytes 8 v = map (fun i => w8 (N.shiftr v (56 - N.of_nat i * 8))) (seq 0 8).
Proof.
  intros v. unfold be_bytes. cbn [le_bytes rev app map seq]. rewrite !N.shiftr_shiftr. cbn [N.of_nat Pos.of_succ_nat Pos.succ]. 
  repeat f_equal.
Qed.
Lemma be8_firstn : forall v k, k <= 8 -> firstn k (be_bytes 8 v) = map (fun i => w8 (N.shiftr v (56 - N.of_nat i * 8))) (seq 0 k).
Proof.
  intros v k Hk. rewrite be8, firstn_map. f_equal. replace 8 with (k + (8 - k)) by lia. rewrite seq_app, firstn_app, seq_length, Nat.sub_diag.
  cbn [firstn]. rewrite app_nil_r. apply firstn_all2. rewrite seq_length. lia.
Qed.
Lemma w8_lxor : forall a b j, w8 (N.shiftr (N.lxor a b) j) = N.lxor (w8 (N.shiftr a j)) (w8 (N.shiftr b j)).
Proof.
  intros a b j. unfold w8. apply N.bits_inj. intros i. repeat (rewrite ?N.lxor_spec, ?N.land_spec, ?N.shiftr_spec').
  destruct (N.testbit a (i + j)), (N.testbit b (i + j)), (N.testbit 255 i); reflexivity.
Qed.
Lemma be_val_byte : forall l i, isbytes l -> length l = 8 -> i < 8 -> w8 (N.shiftr (be_val l) (56 - N.of_nat i * 8)) = at_ l i.
Proof.
  intros l i Hl L Hi. pose proof (be_bytes_be_val l Hl) as E. rewrite L, be8 in E. unfold at_. rewrite <- E at 2.
  rewrite (nth_indep _ 0%N (w8 (N.shiftr (be_val l) (56 - N.of_nat 0 * 8)))) by (rewrite map_length, seq_length; lia).
  rewrite (map_nth (fun i => w8 (N.shiftr (be_val l) (56 - N.of_nat i * 8)))). now rewrite seq_nth by lia.
Qed.
Lemma at_app_l : forall (a b : list N) i, i < length a -> at_ (a ++ b) i = at_ a i.
Proof. intros. unfold at_. now rewrite app_nth1. Qed.
Lemma map_at : forall (l : list N), map (at_ l) (seq 0 (length l)) = l.
Proof. intros. apply map_nth_seq. Qed.
Lemma at_map_seq : forall (f : nat -> N) k i, i < k -> at_ (map f (seq 0 k)) i = f i.
Proof.
  intros f k i Hi. unfold at_. rewrite (nth_indep _ 0%N (f 0)) by (rewrite map_length, seq_length; lia).
  rewrite (map_nth f). now rewrite seq_nth by lia.
Qed.
Lemma isbyte_at : forall l i, isbytes l -> isbyte (at_ l i).
Proof.
  intros l i H. unfold at_. destruct (Nat.lt_ge_cases i (length l)) as [L|L].
  - apply (proj1 (Forall_forall _ _) H). now apply nth_In.
  - rewrite nth_overflow by lia. reflexivity.
Qed.
Lemma lxor_byte : forall a b, isbyte a -> isbyte b -> isbyte (N.lxor a b).
Proof. intros a b Ha Hb. unfold isbyte in *. change 256%N with (2 ^ 8)%N in *. now apply lxor_lt. Qed.
Lemma lxor_cancel : forall a b, N.lxor (N.lxor a b) b = a.
Proof. intros. now rewrite N.lxor_assoc, N.lxor_nilpotent, N.lxor_0_r. Qed.
Lemma be_val_app_lor : forall a b, isbytes b -> be_val (a ++ b) = N.lor (be_val b) (N.shiftl (be_val a) (N.of_nat (8 * length b))).
Proof. intros a b Hb. unfold be_val. rewrite rev_app_distr, le_val_app_lor by now apply isbytes_rev. now rewrite rev_length. Qed.
Lemma be_val_zeros : forall n, be_val (zeros n) = 0%N.
Proof.
  intros n. unfold be_val. assert (rev (zeros n) = zeros n) as ->; [|apply le_val_zeros].
  unfold zeros. apply nth_ext with (d := 0%N) (d' := 0%N); [now rewrite rev_length|]. intros i Hi.
  rewrite rev_length, repeat_length in Hi. rewrite rev_nth by (now rewrite repeat_length). rewrite !nth_repeat. reflexivity.
Qed.
Lemma be_val_one : forall x j, be_val (x :: zeros j) = N.shiftl x (N.of_nat (8 * j)).
Proof.
  intros x j. change (x :: zeros j) with ([x] ++ zeros j). rewrite be_val_app_lor by apply zeros_isbytes. rewrite be_val_zeros, N.lor_0_l, zeros_length.
  f_equal. unfold be_val. cbn [rev app le_val]. lia.
Qed.
Lemma be_val_mid : forall u x j, isbyte x -> be_val (u ++ x :: zeros j) = N.lor (be_val (u ++ zeros (S j))) (N.shiftl x (N.of_nat (8 * j))).
Proof.
  intros u x j Hx. rewrite (be_val_app_lor u (x :: zeros j)) by (constructor; [exact Hx|apply zeros_isbytes]).
  rewrite (be_val_app_lor u (zeros (S j))) by apply zeros_isbytes.
  rewrite (be_val_zeros (S j)), be_val_one, N.lor_0_l. cbn [length]. rewrite !zeros_length. apply N.lor_comm.
Qed.
Lemma dec_x_ok : forall p, isbytes p -> length p < 8 ->
  N.lor (fold_left (fun x i => N.lor x (shl64 (at_ p i) (56 - N.of_nat i * 8))) (seq 0 (length p)) 0%N)
        (N.shiftl 0x80 (56 - N.of_nat (length p) * 8)) = be_val (p ++ 0x80%N :: zeros (7 - length p)).
Proof.
  intros p Hp L.
  assert (K : forall n, n <= length p -> fold_left (fun x i => N.lor x (shl64 (at_ p i) (56 - N.of_nat i * 8))) (seq 0 n) 0%N = be_val (firstn n p ++ zeros (8 - n))).
  { induction n as [|n IH]; intros Hn; [symmetry; apply (be_val_zeros 8)|].
    rewrite seq_S, fold_left_app, IH by lia. cbn [fold_left plus]. rewrite firstn_S_at by lia. rewrite <- app_assoc.
    change ([at_ p n] ++ zeros (8 - S n)) with (at_ p n :: zeros (8 - S n)). rewrite be_val_mid by now apply isbyte_at.
    replace (S (8 - S n)) with (8 - n) by lia. f_equal. unfold shl64.
    replace (56 - N.of_nat n * 8)%N with (N.of_nat (8 * (8 - S n))) by lia. apply w64_small.
    rewrite N.shiftl_mul_pow2. pose proof (isbyte_at p n Hp) as B. unfold isbyte in B.
    apply N.lt_le_trans with (256 * 2 ^ N.of_nat (8 * (8 - S n)))%N.
    - apply N.mul_lt_mono_pos_r; auto. apply N.neq_0_lt_0. now apply N.pow_nonzero.
    - change 256%N with (2 ^ 8)%N. rewrite <- N.pow_add_r. change 18446744073709551616%N with (2 ^ 64)%N. apply N.pow_le_mono_r; lia. }
  rewrite K by lia. rewrite firstn_all. rewrite be_val_mid by reflexivity. replace (S (7 - length p)) with (8 - length p) by lia. f_equal. f_equal. lia.
Qed.

(** ** Encryption *)
Definition enc_spec (s : ast) (pt : list N) : list N * ast :=
  let '(s, c) := fold_left ascon128_enc_step (chunks 8 pt) (s, []) in
  let s' := axor0 s (be_val (apad 8 pt)) in
  (c ++ firstn (length (rest 8 pt)) (be_bytes 8 (ax0 s')), s').
Lemma ascon128_enc : forall key nonce ad pt,
  ascon128 key nonce ad pt = let '(c, s) := enc_spec (ascon128_ad (ascon128_init key nonce) ad) pt in (c, ascon128_final s key).
Proof. intros. unfold ascon128, enc_spec. destruct (fold_left _ _ _) as [s c]. reflexivity. Qed.
Lemma enc_step_prefix : forall bl s c, fold_left ascon128_enc_step bl (s, c) =
  let '(s', c') := fold_left ascon128_enc_step bl (s, []) in (s', c ++ c').
Proof.
  induction bl as [|b bl IH]; intros s c; cbn [fold_left]; [now rewrite app_nil_r|].
  cbn [ascon128_enc_step]. rewrite IH. rewrite (IH _ ([] ++ _)). destruct (fold_left _ bl _) as [s' c']. cbn [app]. now rewrite app_assoc.
Qed.
Lemma apad_cons : forall m, 8 <= length m -> apad 8 m = apad 8 (skipn 8 m).
Proof. intros m H. unfold apad. now rewrite (rest_cons N 8 m) by lia. Qed.
Lemma enc_spec_cons : forall s pt, 8 <= length pt ->
  enc_spec s pt = let s1 := axor0 s (be_val (firstn 8 pt)) in
                  let '(c, s') := enc_spec (ascon_p 6 s1) (skipn 8 pt) in (be_bytes 8 (ax0 s1) ++ c, s').
Proof.
  intros s pt H. unfold enc_spec. rewrite chunks_cons by lia. cbn [fold_left ascon128_enc_step]. rewrite enc_step_prefix.
  rewrite apad_cons, (rest_cons N 8 pt) by lia. destruct (fold_left _ _ _) as [s' c']. cbv zeta. cbn [app]. now rewrite app_assoc.
Qed.
Lemma enc_spec_short : forall s pt, length pt < 8 ->
  enc_spec s pt = let s' := axor0 s (be_val (pt ++ 0x80%N :: zeros (7 - length pt))) in (firstn (length pt) (be_bytes 8 (ax0 s')), s').
Proof. intros s pt H. unfold enc_spec, apad. rewrite chunks_short, rest_short by lia. cbn [fold_left app]. reflexivity. Qed.
Lemma ax0_axor0 : forall s v, ax0 (axor0 s v) = N.lxor (ax0 s) v.
Proof. intros [[[[? ?] ?] ?] ?] v. reflexivity. Qed.
Lemma short_ok : forall s pt, length pt < 8 -> isbytes pt ->
  firstn (length pt) (be_bytes 8 (ax0 (axor0 s (be_val (pt ++ 0x80%N :: zeros (7 - length pt)))))) =
  map (fun i => N.lxor (at_ pt i) (w8 (N.shiftr (ax0 s) (56 - N.of_nat i * 8)))) (seq 0 (length pt)).
Proof.
  intros s pt L B. rewrite be8_firstn by lia. apply map_ext_in. intros i Hi. apply in_seq in Hi. rewrite ax0_axor0, w8_lxor, N.lxor_comm.
  f_equal. rewrite be_val_byte; [apply at_app_l; lia| |rewrite app_length; cbn [length]; rewrite zeros_length; lia|lia].
  apply isbytes_app. split; auto. constructor; [reflexivity|apply zeros_isbytes].
Qed.
Lemma padblk : forall pt, length pt < 8 -> isbytes pt -> is64 (be_val (pt ++ 0x80%N :: zeros (7 - length pt))).
Proof.
  intros pt L B. apply be_val_is64.
  - apply isbytes_app. split; auto. constructor; [reflexivity|apply zeros_isbytes].
  - rewrite app_length. cbn [length]. rewrite zeros_length. lia.
Qed.
Lemma chunk8_ind : forall (P : list N -> Prop), (forall l, length l < 8 -> P l) ->
  (forall l, 8 <= length l -> P (skipn 8 l) -> P l) -> forall l, P l.
Proof.
  intros P H0 H1 l. remember (length l) as n eqn:E. revert l E. induction n as [n IH] using lt_wf_ind. intros l E.
  destruct (Nat.lt_ge_cases (length l) 8); [auto|]. apply H1; auto. apply (IH (length (skipn 8 l))); [rewrite skipn_length; lia|reflexivity].
Qed.
Lemma enc_spec_wf : forall pt s, awf s -> isbytes pt ->
  length (fst (enc_spec s pt)) = length pt /\ isbytes (fst (enc_spec s pt)) /\ awf (snd (enc_spec s pt)).
Proof.
  induction pt as [pt H|pt H IH] using chunk8_ind; intros s Hs Hp.
  - rewrite enc_spec_short by auto. cbv zeta. cbn [fst snd]. rewrite firstn_length, be_bytes_length. split; [lia|]. split.
    + apply isbytes_firstn, be_bytes_isbytes.
    + apply axor0_wf; auto. now apply padblk.
  - rewrite enc_spec_cons by auto. cbv zeta. set (s1 := axor0 s (be_val (firstn 8 pt))).
    assert (W1 : awf s1) by (apply axor0_wf; auto; apply be_val_is64; [now apply isbytes_firstn|rewrite firstn_length; lia]).
    assert (W : awf (ascon_p 6 s1)) by (destruct (roundGeneric_ok 6 s1 W1 ltac:(lia)); auto).
    destruct (IH (ascon_p 6 s1) W (isbytes_skipn 8 pt Hp)) as (L & B & W'). destruct (enc_spec _ _) as [c s']. cbn [fst snd] in *.
    rewrite app_length, be_bytes_length, L, skipn_length. split; [lia|]. split; auto. apply isbytes_app. split; auto. apply be_bytes_isbytes.
Qed.
Lemma enc_loop_ok : forall fuel s pt, awf s -> isbytes pt -> length pt < fuel ->
  exists s1 c1, enc_loop fuel s pt = (s1, c1, rest 8 pt) /\ fold_left ascon128_enc_step (chunks 8 pt) (s, []) = (s1, c1) /\ awf s1 /\ length c1 + length (rest 8 pt) = length pt.
Proof.
  induction fuel as [|f IH]; intros s pt Hs Hp HF; [lia|]. cbn [enc_loop]. destruct (Nat.leb_spec 8 (length pt)) as [G|G].
  - rewrite xor_s0_ok, s0of_ok. set (s1 := axor0 s (be_val (firstn 8 pt))).
    assert (W1 : awf s1) by (apply axor0_wf; auto; apply be_val_is64; [now apply isbytes_firstn|rewrite firstn_length; lia]).
    destruct (roundGeneric_ok 6 s1 W1 ltac:(lia)) as [-> W].
    destruct (IH (ascon_p 6 s1) (skipn 8 pt) W (isbytes_skipn 8 pt Hp) ltac:(rewrite skipn_length; lia)) as (s2 & c2 & E & EF & W2 & L2).
    rewrite E. exists s2, (be_bytes 8 (ax0 s1) ++ c2). rewrite (rest_cons N 8 pt) by lia. split; [reflexivity|].
    rewrite chunks_cons by lia. cbn [fold_left ascon128_enc_step]. fold s1. rewrite enc_step_prefix, EF. split; [reflexivity|]. split; auto.
    rewrite app_length, be_bytes_length. rewrite skipn_length in L2. lia.
  - exists s, []. rewrite chunks_short, rest_short by lia. cbn [fold_left length]. auto.
Qed.
Lemma copy_mid : forall (a b : list N) off k, off = length a -> copy_at (a ++ zeros k) off b = a ++ firstn k b ++ zeros (k - length b).
Proof.
  intros a b off k ->. unfold copy_at. rewrite app_length, zeros_length, firstn_app, firstn_all, Nat.sub_diag. cbn [firstn]. rewrite app_nil_r.
  replace (length a + k - length a) with k by lia. f_equal. f_equal.
  rewrite skipn_app. rewrite skipn_all2 by lia. cbn [app]. rewrite skipn_zeros. f_equal. lia.
Qed.
Lemma encrypt_ok : forall s pt, awf s -> isbytes pt -> exists s',
  snd (enc_spec s pt) = s' /\ awf s' /\
  exists z, length z = 16 /\ ascon_encrypt s pt = (s', fst (enc_spec s pt) ++ z, length pt).
Proof.
  intros s pt Hs Hp. pose proof (enc_spec_wf pt s Hs Hp) as (LC & BC & WS). eexists. split; [reflexivity|]. split; auto.
  unfold ascon_encrypt. destruct (enc_loop_ok (S (length pt)) s pt Hs Hp ltac:(lia)) as (s1 & c1 & E & EF & W1 & L1). rewrite E.
  revert LC BC WS. unfold enc_spec. rewrite EF. cbn [fst snd]. intros LC BC WS. pose proof (rest_length_lt N 8 pt ltac:(lia)) as LR.
  replace (length pt + 16) with (length c1 + (length (rest 8 pt) + 16)) by lia. rewrite <- zeros_app.
  assert (EC : copy_at (zeros (length c1) ++ zeros (length (rest 8 pt) + 16)) 0 c1 = c1 ++ zeros (length (rest 8 pt) + 16)).
  { unfold copy_at. rewrite firstn_O. cbn [app plus]. rewrite app_length, !zeros_length, Nat.sub_0_r, firstn_all2 by lia. f_equal.
    rewrite zeros_app, skipn_zeros. f_equal. lia. }
  rewrite EC. clear EC. cbv zeta. destruct (Nat.ltb_spec 0 (length (rest 8 pt))) as [Q|Q].
  - rewrite copy_pad by lia. replace (Nat.min 8 (length (rest 8 pt))) with (length (rest 8 pt)) by lia. rewrite pad_upd by lia.
    replace (8 - length (rest 8 pt) - 1) with (8 - 1 - length (rest 8 pt)) by lia. fold (apad 8 pt). rewrite xor_s0_ok, s0of_ok, L1.
    set (B := be_bytes 8 _). assert (LB : length B = 8) by apply be_bytes_length.
    exists (skipn (length (rest 8 pt)) B ++ zeros (length (rest 8 pt) + 16 - 8)). split.
    + rewrite app_length, skipn_length, zeros_length. lia.
    + f_equal. f_equal. rewrite copy_mid by reflexivity. rewrite (firstn_all2 B) by lia. rewrite LB, <- app_assoc. f_equal.
      rewrite app_assoc, firstn_skipn. reflexivity.
  - assert (R0 : rest 8 pt = []) by (apply length_zero_iff_nil; lia).
    assert (EP : be_val (apad 8 pt) = N.shiftl 128 56) by (unfold apad; rewrite R0; apply shl80).
    rewrite xor_s0_ok, EP, R0. cbn [length firstn plus]. rewrite app_nil_r. exists (zeros 16). split; [reflexivity|].
    f_equal. rewrite R0 in L1. cbn [length] in L1. lia.
Qed.
Lemma tag_copy : forall (c z a b : list N) n, n = length c -> length z = 16 -> length a = 8 -> length b = 8 ->
  copy_at (copy_at (c ++ z) n a) (n + 8) b = c ++ a ++ b.
Proof.
  intros c z a b n -> Lz La Lb. unfold copy_at at 2. rewrite app_length, Lz.
  rewrite (firstn_app_len N (length c) c z eq_refl). replace (length c + 16 - length c) with 16 by lia. rewrite (firstn_all2 a) by lia. rewrite La.
  replace (Nat.min 16 8) with 8 by lia. rewrite skipn_app, skipn_all2 by lia. replace (length c + 8 - length c) with 8 by lia. cbn [app].
  assert (L8 : length (skipn 8 z) = 8) by (rewrite skipn_length; lia). unfold copy_at.
  rewrite !app_length, La, L8. replace (length c + (8 + 8) - (length c + 8)) with 8 by lia. rewrite (firstn_all2 b) by lia. rewrite Lb.
  rewrite (app_assoc c a). rewrite firstn_app_len by (rewrite app_length; lia).
  rewrite skipn_all2 by (rewrite !app_length; lia). rewrite app_nil_r, <- app_assoc. reflexivity.
Qed.
Lemma Seal_ok : forall key dst nonce pt ad, kwf key -> kwf nonce -> isbytes pt -> isbytes ad ->
  Seal key dst nonce pt ad = Some (dst ++ fst (ascon128 key nonce ad pt) ++ snd (ascon128 key nonce ad pt)).
Proof.
  intros key dst nonce pt ad Hk Hn Hp Ha. unfold Seal. pose proof Hn as [Ln _]. rewrite Ln. change (negb (16 =? 16)) with false. cbv iota zeta.
  destruct (start_ok key nonce ad Hk Hn Ha) as [ES WS]. rewrite ES in *. set (s0 := ascon128_ad _ _) in *.
  destruct (encrypt_ok s0 pt WS Hp) as (s' & E1 & W1 & z & Lz & EE). rewrite EE.
  pose proof (tag_ok key s' Hk W1) as T. destruct (aead_tag key s') as [t0 t1]. destruct T as (ET & _).
  rewrite ascon128_enc. fold s0. pose proof (enc_spec_wf pt s0 WS Hp) as (LC & _). destruct (enc_spec s0 pt) as [c s'']. cbn [fst snd] in *. subst s''.
  rewrite ET. f_equal. f_equal. apply tag_copy; auto; apply be_bytes_length.
Qed.

(** ** Decryption *)
Lemma axor0_set : forall s v, axor0 s (N.lxor v (ax0 s)) = set_s0 s v.
Proof. intros [[[[a b] c] d] e] v. unfold axor0, set_s0, ax0. now rewrite N.lxor_comm, lxor_cancel. Qed.
Definition dec_all (s : ast) (c : list N) : list N * ast := let '(s', p) := ascon_decrypt s c in (p, s').
Lemma dec_fuel : forall f1 f2 s c, length c < f1 -> length c < f2 -> dec_loop f1 s c = dec_loop f2 s c.
Proof.
  induction f1 as [|f1 IH]; intros f2 s c H1 H2; [lia|]. destruct f2 as [|f2]; [lia|]. cbn [dec_loop].
  destruct (Nat.leb_spec 8 (length c)) as [G|G]; auto. now rewrite (IH f2) by (rewrite skipn_length; lia).
Qed.
Lemma dec_loop_S : forall f s c, dec_loop (S f) s c = if 8 <=? length c then
             let x := be_val (firstn 8 c) in
             let '(s', p, c') := dec_loop f (roundGeneric (set_s0 s x) 6) (skipn 8 c) in
             (s', be_bytes 8 (N.lxor x (s0of s)) ++ p, c')
           else (s, [], c).
Proof. reflexivity. Qed.
Lemma dec_all_cons : forall s c, 8 <= length c ->
  dec_all s c = let x := be_val (firstn 8 c) in
                let '(p, s') := dec_all (roundGeneric (set_s0 s x) 6) (skipn 8 c) in (be_bytes 8 (N.lxor x (ax0 s)) ++ p, s').
Proof.
  intros s c H. unfold dec_all, ascon_decrypt. rewrite (dec_loop_S (length c)). destruct (Nat.leb_spec 8 (length c)); [|lia]. cbv zeta.
  rewrite (dec_fuel (length c) (S (length (skipn 8 c)))) by (rewrite skipn_length; lia).
  destruct (dec_loop _ _ (skipn 8 c)) as [[s1 o1] c1]. destruct (dec_last s1 c1) as [s2 p2]. rewrite s0of_ok, <- app_assoc. reflexivity.
Qed.
Lemma dec_all_short : forall s c, length c < 8 -> isbytes c ->
  dec_all s c = let p := map (fun i => N.lxor (at_ c i) (w8 (N.shiftr (ax0 s) (56 - N.of_nat i * 8)))) (seq 0 (length c)) in
                (p, axor0 s (be_val (p ++ 0x80%N :: zeros (7 - length p)))).
Proof.
  intros s c H B. unfold dec_all, ascon_decrypt. cbn [dec_loop]. destruct (Nat.leb_spec 8 (length c)); [lia|]. cbv zeta. unfold dec_last.
  destruct (Nat.ltb_spec 0 (length c)) as [Z|Z].
  - rewrite s0of_ok. set (p := map _ _). assert (LP : length p = length c) by (unfold p; now rewrite map_length, seq_length).
    assert (BP : isbytes p).
    { unfold p. apply Forall_forall. intros x Hx. apply in_map_iff in Hx. destruct Hx as (i & <- & _). apply lxor_byte; [now apply isbyte_at|apply w8_lt]. }
    rewrite <- LP. rewrite dec_x_ok by (auto; lia). rewrite xor_s0_ok. reflexivity.
  - assert (c = []) as -> by (apply length_zero_iff_nil; lia). cbn [length seq map app]. rewrite xor_s0_ok, <- shl80. reflexivity.
Qed.
Lemma map_cancel : forall (g : nat -> N) (c : list N),
  map (fun i => N.lxor (at_ (map (fun i => N.lxor (at_ c i) (g i)) (seq 0 (length c))) i) (g i)) (seq 0 (length c)) = c.
Proof.
  intros g c. etransitivity; [|apply map_at]. apply map_ext_in. intros i Hi. apply in_seq in Hi. rewrite at_map_seq by lia. apply lxor_cancel.
Qed.
Lemma blk8 : forall c, isbytes c -> 8 <= length c -> be_bytes 8 (be_val (firstn 8 c)) = firstn 8 c /\ is64 (be_val (firstn 8 c)).
Proof.
  intros c B L. assert (L8 : length (firstn 8 c) = 8) by (rewrite firstn_length; lia). pose proof (isbytes_firstn 8 c B) as B8. split.
  - rewrite <- L8 at 1. now apply be_bytes_be_val.
  - apply be_val_is64; auto. lia.
Qed.
Lemma be8_val : forall v, is64 v -> be_val (be_bytes 8 v) = v.
Proof. intros v H. rewrite be_val_be_bytes. apply N.mod_small. exact H. Qed.
Lemma set_s0_wf : forall s v, awf s -> is64 v -> awf (set_s0 s v).
Proof. intros [[[[a b] c] d] e] v (? & ? & ? & ? & ?) Hv. unfold set_s0, awf. auto. Qed.
Lemma ax0_set : forall s v, ax0 (set_s0 s v) = v.
Proof. intros [[[[a b] c] d] e] v. reflexivity. Qed.
(** Encrypting a decrypted text gives it back *)
Lemma enc_dec : forall c s, awf s -> isbytes c -> 
  enc_spec s (fst (dec_all s c)) = (c, snd (dec_all s c)) /\ isbytes (fst (dec_all s c)) /\ length (fst (dec_all s c)) = length c.
Proof.
  induction c as [c H|c H IH] using chunk8_ind; intros s Hs Hc.
  - rewrite dec_all_short by auto. cbv zeta. cbn [fst snd]. set (g := fun i => w8 (N.shiftr (ax0 s) (56 - N.of_nat i * 8))).
    set (p := map _ _). assert (LP : length p = length c) by (unfold p; now rewrite map_length, seq_length).
    assert (BP : isbytes p).
    { unfold p. apply Forall_forall. intros x Hx. apply in_map_iff in Hx. destruct Hx as (i & <- & _). apply lxor_byte; [now apply isbyte_at|apply w8_lt]. }
    split; [|auto]. rewrite enc_spec_short by lia. cbv zeta. rewrite short_ok by (auto; lia). f_equal. rewrite LP. exact (map_cancel g c).
  - rewrite dec_all_cons by auto. cbv zeta. destruct (blk8 c Hc H) as [EB B64]. set (x := be_val (firstn 8 c)) in *.
    assert (W1 : awf (set_s0 s x)) by now apply set_s0_wf. destruct (roundGeneric_ok 6 _ W1 ltac:(lia)) as [-> W].
    destruct (IH _ W (isbytes_skipn 8 c Hc)) as (E & B & L). destruct (dec_all (ascon_p 6 (set_s0 s x)) (skipn 8 c)) as [p s']. cbn [fst snd] in *.
    assert (X64 : is64 (N.lxor x (ax0 s))) by (apply lxor_is64; auto; now apply ax0_is64).
    split; [|split].
    + rewrite enc_spec_cons by (rewrite app_length, be_bytes_length; lia). cbv zeta.
      rewrite firstn_app_len, skipn_app_len by apply be_bytes_length. rewrite be8_val by auto. rewrite axor0_set, ax0_set, E, EB. now rewrite firstn_skipn.
    + apply isbytes_app. split; auto. apply be_bytes_isbytes.
    + rewrite app_length, be_bytes_length, L, skipn_length. lia.
Qed.
(** Decrypting an encrypted text gives it back *)
Lemma dec_enc : forall p s, awf s -> isbytes p -> dec_all s (fst (enc_spec s p)) = (p, snd (enc_spec s p)).
Proof.
  induction p as [p H|p H IH] using chunk8_ind; intros s Hs Hp.
  - pose proof (enc_spec_wf p s Hs Hp) as (LC & BC & _). rewrite dec_all_short by (auto; lia). cbv zeta. rewrite LC.
    rewrite enc_spec_short by auto. cbv zeta. cbn [fst snd]. rewrite short_ok by auto. set (g := fun i => w8 (N.shiftr (ax0 s) (56 - N.of_nat i * 8))).
    pose proof (map_cancel g p) as EM. unfold g in EM at 1. cbv beta in EM. fold g in EM. 
    change (map (fun i => N.lxor (at_ (map (fun i => N.lxor (at_ p i) (g i)) (seq 0 (length p))) i) (g i)) (seq 0 (length p)) = p) in EM.
    change (fun i : nat => N.lxor (at_ p i) (w8 (N.shiftr (ax0 s) (56 - N.of_nat i * 8)))) with (fun i => N.lxor (at_ p i) (g i)).
    change (fun i : nat => N.lxor (at_ (map (fun i0 => N.lxor (at_ p i0) (g i0)) (seq 0 (length p))) i) (w8 (N.shiftr (ax0 s) (56 - N.of_nat i * 8))))
      with (fun i : nat => N.lxor (at_ (map (fun i0 => N.lxor (at_ p i0) (g i0)) (seq 0 (length p))) i) (g i)).
    rewrite EM. reflexivity.
  - rewrite enc_spec_cons by auto. cbv zeta. destruct (blk8 p Hp H) as [EB B64]. set (x := be_val (firstn 8 p)) in *.
    assert (W1 : awf (axor0 s x)) by now apply axor0_wf. destruct (roundGeneric_ok 6 _ W1 ltac:(lia)) as [ER W].
    specialize (IH _ W (isbytes_skipn 8 p Hp)). destruct (enc_spec (ascon_p 6 (axor0 s x)) (skipn 8 p)) as [c s']. cbn [fst snd] in *.
    rewrite dec_all_cons by (rewrite app_length, be_bytes_length; lia). cbv zeta. rewrite firstn_app_len, skipn_app_len by apply be_bytes_length.
    rewrite be8_val by now apply ax0_is64. rewrite ax0_axor0.
    assert (ES : set_s0 s (N.lxor (ax0 s) x) = axor0 s x) by (destruct s as [[[[? ?] ?] ?] ?]; reflexivity).
    rewrite ES, ER, IH. f_equal. rewrite (N.lxor_comm (ax0 s) x), lxor_cancel, EB. apply firstn_skipn.
Qed.
(** ** Tags *)
Lemma ct_word : forall t, is64 t -> N.lor (w32 (N.shiftr t 32)) (w32 t) = 0%N -> t = 0%N.
Proof.
  intros t Ht H. apply N.lor_eq_0_iff in H. destruct H as [H1 H2]. rewrite w32_mod in *.
  assert (t / 4294967296 < 4294967296)%N by (apply N.div_lt_upper_bound; [discriminate|exact Ht]).
  rewrite N.shiftr_div_pow2 in H1. change (2 ^ 32)%N with 4294967296%N in H1. rewrite N.mod_small in H1 by auto.
  rewrite (N.div_mod t 4294967296) by discriminate. rewrite H1, H2. reflexivity.
Qed.
Lemma ct_tag : forall t0 t1 e, is64 t0 -> is64 t1 -> length e = 16 -> isbytes e ->
  (N.lor (N.lor (w32 (N.shiftr (N.lxor t0 (be_val (slice e 0 8))) 32)) (w32 (N.lxor t0 (be_val (slice e 0 8)))))
         (N.lor (w32 (N.shiftr (N.lxor t1 (be_val (slice e 8 16))) 32)) (w32 (N.lxor t1 (be_val (slice e 8 16))))) =? 0)%N = true
  <-> e = be_bytes 8 t0 ++ be_bytes 8 t1.
Proof.
  intros t0 t1 e H0 H1 L B. destruct (slice8 e L) as [-> ->].
  assert (L1 : length (firstn 8 e) = 8) by (rewrite firstn_length; lia). assert (L2 : length (skipn 8 e) = 8) by (rewrite skipn_length; lia).
  pose proof (isbytes_firstn 8 e B) as B1. pose proof (isbytes_skipn 8 e B) as B2. rewrite N.eqb_eq. split.
  - intros H. apply N.lor_eq_0_iff in H. destruct H as [X Y].
    apply ct_word in X; [|apply lxor_is64; auto; apply be_val_is64; auto; lia]. apply ct_word in Y; [|apply lxor_is64; auto; apply be_val_is64; auto; lia].
    apply N.lxor_eq in X. apply N.lxor_eq in Y. subst t0 t1. rewrite <- L1 at 1. rewrite be_bytes_be_val by auto. rewrite <- L2 at 2. rewrite be_bytes_be_val by auto.
    symmetry. apply firstn_skipn.
  - intros ->. rewrite firstn_app_len, skipn_app_len by apply be_bytes_length. rewrite !be8_val by auto. rewrite !N.lxor_nilpotent. reflexivity.
Qed.
(** The plaintext [Open] computes *)
Definition open_pt (key nonce ad c : list N) : list N := fst (dec_all (aead_start key nonce ad) c).
Lemma Open_ok : forall key dst nonce ct ad, kwf key -> kwf nonce -> isbytes ct -> isbytes ad -> 16 <= length ct ->
  let c := firstn (length ct - 16) ct in let p := open_pt key nonce ad c in
  isbytes p /\ length p = length c /\ fst (ascon128 key nonce ad p) = c /\
  exists ok, Open key dst nonce ct ad = Some (dst ++ p, ok) /\
             (ok = true <-> skipn (length ct - 16) ct = snd (ascon128 key nonce ad p)).
Proof.
  intros key dst nonce ct ad Hk Hn Hc Ha HL. cbv zeta. set (c := firstn (length ct - 16) ct). unfold open_pt.
  destruct (start_ok key nonce ad Hk Hn Ha) as [ES WS]. pose proof (isbytes_firstn (length ct - 16) ct Hc) as Bc. fold c in Bc.
  destruct (enc_dec c _ WS Bc) as (E & B & L). split; [auto|]. split; [auto|].
  rewrite ascon128_enc, <- ES, E. cbn [fst]. split; [reflexivity|].
  unfold Open. pose proof Hn as [Ln _]. rewrite Ln. change (negb (16 =? 16)) with false. destruct (Nat.ltb_spec (length ct) 16); [lia|]. cbv iota zeta.
  fold c. unfold dec_all in *. destruct (ascon_decrypt (aead_start key nonce ad) c) as [s' p]. cbn [fst snd] in *.
  assert (W' : awf s'). { pose proof (enc_spec_wf p _ WS B) as (_ & _ & W). rewrite E in W. exact W. }
  pose proof (tag_ok key s' Hk W') as T. destruct (aead_tag key s') as [t0 t1]. destruct T as (ET & T0 & T1). rewrite ET.
  eexists. split; [reflexivity|]. apply ct_tag; auto. rewrite skipn_length. lia. now apply isbytes_skipn.
Qed.
Lemma Open_iff : forall key dst nonce ct ad pt, kwf key -> kwf nonce -> isbytes ct -> isbytes ad -> isbytes pt ->
  Open key dst nonce ct ad = Some (dst ++ pt, true) <-> ct = fst (ascon128 key nonce ad pt) ++ snd (ascon128 key nonce ad pt).
Proof.
  intros key dst nonce ct ad pt Hk Hn Hc Ha Hp. pose proof Hn as [Ln _].
  destruct (start_ok key nonce ad Hk Hn Ha) as [ES WS].
  assert (LT : forall p, length (snd (ascon128 key nonce ad p)) = 16).
  { intros p. rewrite ascon128_enc. destruct (enc_spec _ p) as [c s]. cbn [snd]. unfold ascon128_final. destruct s as [[[[? ?] ?] ?] ?].
    destruct (ascon_p 12 _) as [[[[? ?] ?] ?] ?]. now rewrite app_length, !be_bytes_length. }
  split.
  - intros H. destruct (Nat.lt_ge_cases (length ct) 16) as [L|L].
    + unfold Open in H. rewrite Ln in H. change (negb (16 =? 16)) with false in H. cbv iota in H. destruct (Nat.ltb_spec (length ct) 16); [discriminate|lia].
    + destruct (Open_ok key dst nonce ct ad Hk Hn Hc Ha L) as (B & LP & EC & ok & EO & Hok). rewrite EO in H. apply some_inj in H.
      apply pair_equal_spec in H. destruct H as [H1 H2]. apply app_inv_head in H1. rewrite H1 in *. subst ok. rewrite <- (firstn_skipn (length ct - 16) ct) at 1. rewrite EC.
      now rewrite (proj1 Hok eq_refl).
  - intros H. set (T := snd (ascon128 key nonce ad pt)) in *. pose proof (LT pt) as L16. fold T in L16.
    assert (L : 16 <= length ct) by (rewrite H, app_length; lia).
    assert (EF : firstn (length ct - 16) ct = fst (ascon128 key nonce ad pt)).
    { rewrite H. apply firstn_app_len. rewrite app_length. lia. }
    assert (EK : skipn (length ct - 16) ct = T).
    { rewrite H. apply skipn_app_len. rewrite app_length. lia. }
    destruct (Open_ok key dst nonce ct ad Hk Hn Hc Ha L) as (B & LP & EC & ok & EO & Hok).
    assert (EP : open_pt key nonce ad (firstn (length ct - 16) ct) = pt).
    { unfold open_pt. rewrite EF. rewrite ascon128_enc, <- ES. pose proof (dec_enc pt _ WS Hp) as D. destruct (enc_spec _ pt) as [c s']. cbn [fst snd] in *. now rewrite D. }
    rewrite EP in EO, Hok. rewrite EO. pose proof (proj2 Hok EK) as K. rewrite K. reflexivity.
Qed.

(** ** MAC *)
Lemma slice_isbytes : forall l i j, isbytes l -> isbytes (slice l i j).
Proof. intros. unfold slice. now apply isbytes_firstn, isbytes_skipn. Qed.
Lemma slice_len : forall (l : list N) i j, length (slice l i j) <= j - i.
Proof. intros. unfold slice. rewrite firstn_length. lia. Qed.
Lemma axor256_wf : forall s b, awf s -> isbytes b -> awf (axor256 s b).
Proof.
  intros [[[[x0 x1] x2] x3] x4] b (H0 & H1 & H2 & H3 & H4) Hb. unfold axor256, awf.
  repeat split; auto; (apply lxor_is64; auto; apply be_val_is64; [now apply slice_isbytes|]);
  match goal with |- length (slice ?l ?i ?j) <= 8 => pose proof (slice_len l i j); lia end.
Qed.
Lemma mac_xor_ok : forall s b, mac_xor s b = axor256 s b.
Proof. intros [[[[? ?] ?] ?] ?] b. reflexivity. Qed.
Definition mac_rel (key : list N) (d : amac) (m : list N) : Prop :=
  isbytes m /\ msd d = fold_left mac_block (chunks 32 m) (ascon_mac_init key) /\ buf_ok 32 32 (mbuf d) (mlen d) m.
Lemma mac_init_wf : forall key, kwf key -> awf (ascon_mac_init key) /\
  NewMAC key = Some (mkam (ascon_mac_init key) (zeros 32) 0).
Proof.
  intros key Hk. pose proof (kwf_words key Hk) as [K0 K1]. destruct Hk as [L B]. unfold NewMAC, ascon_mac_init. rewrite L.
  change (negb (16 =? 16)) with false. cbv iota. destruct (slice8 key L) as [-> ->].
  change (N.shiftl (w8 (N.of_nat (16 * 8))) 56 + N.shiftl 128 48 + N.shiftl (N.lor 128 12) 40 + 128)%N with 0x80808c0000000080%N.
  set (s := (_, _, _, _, _)). assert (Ws : awf s) by (unfold s, awf; repeat split; auto; reflexivity).
  destruct (roundGeneric_ok 12 s Ws ltac:(lia)) as [-> W]. auto.
Qed.
Lemma mac_fold : forall key m, kwf key -> isbytes m ->
  fold_left mac_block (chunks 32 m) (ascon_mac_init key) = fold_left (fun s blk => ascon_p 12 (axor256 s blk)) (chunks 32 m) (ascon_mac_init key) /\
  awf (fold_left mac_block (chunks 32 m) (ascon_mac_init key)).
Proof.
  intros key m Hk Hm. destruct (mac_init_wf key Hk) as [W0 _].
  apply (fold_left_agree _ _ _ _ awf (blk_ok 32)); auto.
  - intros s b Hs Hb. destruct Hb as [_ B]. unfold mac_block. rewrite mac_xor_ok. 
    destruct (roundGeneric_ok 12 _ (axor256_wf s b Hs B) ltac:(lia)) as [-> W]. auto.
  - intros s b Hs Hb. destruct Hb as [_ B]. unfold mac_block. rewrite mac_xor_ok. 
    destruct (roundGeneric_ok 12 _ (axor256_wf s b Hs B) ltac:(lia)) as [-> W]. auto.
  - apply chunks_blk_ok; auto. lia.
Qed.
Lemma mac_finish_ok : forall key d m, kwf key -> mac_rel key d m ->
  let '(x0, x1, _, _, _) := mac_finish d in ascon_mac key m = be_bytes 8 x0 ++ be_bytes 8 x1 /\ is64 x0 /\ is64 x1.
Proof.
  intros key d m Hk (Hm & Es & (Lx & En & Ex)). destruct (mac_fold key m Hk Hm) as [EF WF]. unfold mac_finish, ascon_mac. rewrite <- EF, <- Es.
  rewrite <- Es in WF. destruct (apad_ok 32 m ltac:(lia) Hm) as [LP BP]. pose proof (rest_length_lt N 32 m ltac:(lia)) as LR.
  assert (E : (if mlen d =? 0 then xor_s0 (msd d) (N.shiftl 128 56) else
     let buf := firstn (mlen d) (mbuf d) ++ zeros (32 - mlen d) in
     let buf0 := upd buf (mlen d) (N.lor (at_ buf (mlen d)) 128) in mac_xor (msd d) buf0) = axor256 (msd d) (apad 32 m)).
  { destruct (Nat.eqb_spec (mlen d) 0) as [Z|Z].
    - assert (R0 : rest 32 m = []) by (apply length_zero_iff_nil; lia). unfold apad. rewrite R0. cbn [length app].
      destruct (msd d) as [[[[x0 x1] x2] x3] x4]. unfold xor_s0, axor256.
      change (slice (128%N :: zeros (32 - 1 - 0)) 0 8) with (128%N :: zeros 7). rewrite shl80.
      change (be_val (slice (128%N :: zeros (32 - 1 - 0)) 8 16)) with 0%N. change (be_val (slice (128%N :: zeros (32 - 1 - 0)) 16 24)) with 0%N.
      change (be_val (slice (128%N :: zeros (32 - 1 - 0)) 24 32)) with 0%N. now rewrite !N.lxor_0_r.
    - cbv zeta. rewrite Ex, En. rewrite pad_upd by lia. replace (32 - length (rest 32 m) - 1) with (32 - 1 - length (rest 32 m)) by lia.
      fold (apad 32 m). apply mac_xor_ok. }
  cbv zeta in E |- *. rewrite E. clear E. pose proof (axor256_wf (msd d) _ WF BP) as W1. destruct (axor256 (msd d) (apad 32 m)) as [[[[x0 x1] x2] x3] x4].
  destruct W1 as (? & ? & ? & ? & ?). set (s := (x0, x1, x2, x3, N.lxor x4 1)).
  assert (Ws : awf s) by (unfold s, awf; repeat split; auto; apply lxor_is64; auto; reflexivity).
  destruct (roundGeneric_ok 12 s Ws ltac:(lia)) as [-> W]. destruct (ascon_p 12 s) as [[[[y0 y1] y2] y3] y4]. destruct W as (? & ? & ? & ? & ?). auto.
Qed.
Lemma mac_write_rel : forall key d m p, isbytes p -> mac_rel key d m -> mac_rel key (fst (mac_write d p)) (m ++ p).
Proof.
  intros key d m p Hp (Hm & Es & Hb). unfold mac_write. rewrite Es.
  destruct (writeC_plain 32 mac_block ltac:(lia) (ascon_mac_init key) m p _ _ Hb) as (x' & nx' & E & Hb'). rewrite E. cbn [fst].
  unfold mac_rel. cbn [msd mbuf mlen]. split; [now apply isbytes_app|]. auto.
Qed.
Lemma mac_new_rel : forall key, kwf key -> exists d, NewMAC key = Some d /\ mac_rel key d [].
Proof.
  intros key Hk. destruct (mac_init_wf key Hk) as [_ E]. eexists. split; [exact E|]. unfold mac_rel. cbn. repeat split; constructor.
Qed.
Lemma mac_refines : forall key ops d m, kwf key -> Forall op_bytes ops -> Forall no_reset ops -> mac_rel key d m ->
  run mac_impl d ops = ideal_run (ascon_mac key) m ops.
Proof.
  intros key ops d m Hk HF HN HR. apply (run_refines_noreset _ mac_impl (ascon_mac key) (mac_rel key)); auto.
  - intros d0 m0 p Hp R. now apply mac_write_rel.
  - intros d0 m0 p Hp R. cbn [i_write mac_impl]. unfold mac_write. destruct (writeC _ _ _ _ _ _) as [[? ?] ?]. reflexivity.
  - intros d0 m0 i R. cbn [i_sum mac_impl]. unfold mac_sum. destruct (mac_finish d0) as [[[[? ?] ?] ?] ?]. exact R.
  - intros d0 m0 i R. cbn [i_sum mac_impl]. unfold mac_sum. pose proof (mac_finish_ok key d0 m0 Hk R) as F.
    destruct (mac_finish d0) as [[[[? ?] ?] ?] ?]. destruct F as (-> & _). cbn [snd]. now rewrite app_assoc.
Qed.
Lemma mac_verify_ok : forall key d m mac, kwf key -> mac_rel key d m -> isbytes mac -> mac_verify d mac = true <-> mac = ascon_mac key m.
Proof.
  intros key d m mac Hk R B. unfold mac_verify. pose proof (mac_finish_ok key d m Hk R) as F. destruct (mac_finish d) as [[[[x0 x1] x2] x3] x4].
  destruct F as (-> & H0 & H1). destruct (Nat.eqb_spec (length mac) 16) as [L|L]; cbn [negb].
  - cbv zeta. now apply ct_tag.
  - split; [discriminate|]. intros E. exfalso. apply L. rewrite E, app_length, !be_bytes_length. reflexivity.
Qed.
