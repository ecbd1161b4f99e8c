(** Cmac.v -- model of /repo/cmac (cmac.go, utils.go, verify.go) and its refinement to
    SP 800-38B.  The block cipher is a parameter [E] of block size [bs]. *)
From Coq Require Import List NArith Arith Lia Bool.
From Verif Require Import Base Words HashAPI SpecCmac.
Import ListNotations.

(** cmac/utils.go:8-17 shift(dst, src): from the last byte to the first, dst[i] = src[i]<<1 | b with b the
    top bit of the byte to the right; returns (dst, last carry).  Recursion from the right
    end of the list. *)
Fixpoint cmac_shift (src : list N) : list N * N :=
  match src with
  | [] => ([], 0%N)
  | x :: t => let '(t', b) := cmac_shift t in
              (N.lor (w8 (N.shiftl x 1)) b :: t', N.shiftr x 7)
  end.

(** cmac/utils.go:20-22 xor(a, b) = subtle.XORBytes(a, a, b): the first min(len a, len b) bytes of [a]
    are xored, the others stay. *)
Fixpoint xor_into (a b : list N) : list N :=
  match a, b with
  | x :: a', y :: b' => N.lxor x y :: xor_into a' b'
  | _, _ => a
  end.
(** xor(a[off:], b) *)
Definition xor_at (a : list N) (off : nat) (b : list N) : list N :=
  firstn off a ++ xor_into (skipn off a) b.

(** cmac/cmac.go:42-48 struct cmac (cipher omitted: parameter). *)
Record cmac_st := mkcmac { ck0 : list N; ck1 : list N; cbuf : list N; coff : nat; ctag : nat }.

(** cmac/cmac.go:27-34,64-78 the constant selected by the block size. *)
Definition cmac_p (bs : nat) : option N :=
  if bs =? 8 then Some 0x1b%N else if bs =? 16 then Some 0x87%N else if bs =? 32 then Some 0x425%N
  else if bs =? 64 then Some 0x125%N else if bs =? 128 then Some 0x80043%N else None.

Section CMAC.
Variable E : list N -> list N.
Variable bs : nat.

(** cmac/cmac.go:87-93: shift and conditional xor of byte(p) into the last byte. *)
Definition cmac_subkey (p : N) (k : list N) : list N :=
  let '(k', v) := cmac_shift k in
  upd k' (bs - 1) (N.lxor (at_ k' (bs - 1)) (w8 (if (v =? 1)%N then p else 0%N))).

(** cmac/cmac.go:57-96 NewWithTagSize; None = error. *)
Definition cmac_new (tagsize : nat) : option cmac_st :=
  if (tagsize =? 0) || (bs <? tagsize) then None
  else match cmac_p bs with
       | None => None
       | Some p =>
         let k0 := cmac_subkey p (E (zeros bs)) in
         let k1 := cmac_subkey p k0 in
         Some (mkcmac k0 k1 (zeros bs) 0 tagsize)
       end.

(** cmac/cmac.go:106-111 Reset *)
Definition cmac_reset (d : cmac_st) : cmac_st :=
  mkcmac (ck0 d) (ck1 d) (map (fun _ => 0%N) (cbuf d)) 0 (ctag d).

Definition set_buf (d : cmac_st) (b : list N) (o : nat) := mkcmac (ck0 d) (ck1 d) b o (ctag d).

(** cmac/cmac.go:138-142 the loop over whole blocks. *)
Definition cmac_blocks (b : list N) (msg : list N) (nn : nat) : list N :=
  fold_left (fun b i => E (xor_into b (slice msg (i * bs) (i * bs + bs)))) (seq 0 (nn / bs)) b.

(** cmac/cmac.go:133-152 second half of Write. *)
Definition cmac_write2 (d : cmac_st) (msg : list N) : cmac_st :=
  let '(d, msg) :=
    if bs <? length msg then
      let nn := Nat.ldiff (length msg) (bs - 1) in
      let nn := if length msg =? nn then nn - bs else nn in
      (set_buf d (cmac_blocks (cbuf d) msg nn) (coff d), skipn nn msg)
    else (d, msg) in
  if 0 <? length msg then set_buf d (xor_at (cbuf d) (coff d) msg) (coff d + length msg) else d.

(** cmac/cmac.go:113-153 Write *)
Definition cmac_write (d : cmac_st) (msg : list N) : cmac_st * nat :=
  let n := length msg in
  if 0 <? coff d then
    let dif := bs - coff d in
    if dif <? n then
      let b := E (xor_at (cbuf d) (coff d) (firstn dif msg)) in
      (cmac_write2 (set_buf d b 0) (skipn dif msg), n)
    else (set_buf d (xor_at (cbuf d) (coff d) msg) (coff d + n), n)
  else (cmac_write2 d msg, n).

(** cmac/cmac.go:162-183 checkSum; it only reads the receiver (hash is a fresh slice). *)
Definition cmac_checkSum (d : cmac_st) : list N :=
  let hash := if coff d <? bs then ck1 d else ck0 d in
  let hash := xor_into hash (cbuf d) in
  let hash := if coff d <? bs then upd hash (coff d) (N.lxor (at_ hash (coff d)) 0x80) else hash in
  firstn (ctag d) (E hash).

(** cmac/cmac.go:155-160 Sum *)
Definition cmac_sum (d : cmac_st) (inp : list N) : cmac_st * list N := (d, inp ++ cmac_checkSum d).

Definition cmac_impl : impl cmac_st := mkimpl cmac_write cmac_sum cmac_reset.

(** cmac/verify.go:10-18 Sum *)
Definition cmac_Sum (msg : list N) (tagsize : nat) : option (list N) :=
  match cmac_new tagsize with
  | None => None
  | Some h => Some (snd (cmac_sum (fst (cmac_write h msg)) []))
  end.
End CMAC.

(** crypto/subtle.ConstantTimeCompare: 1 exactly when lengths and contents are equal. *)
Fixpoint ct_compare (a b : list N) : bool :=
  match a, b with
  | [], [] => true
  | x :: a', y :: b' => (x =? y)%N && ct_compare a' b'
  | _, _ => false
  end.

(** cmac/verify.go:23-30 Verify *)
Definition cmac_Verify (E : list N -> list N) (bs : nat) (mac msg : list N) (tagsize : nat) : bool :=
  match cmac_Sum E bs msg tagsize with
  | None => false
  | Some s => ct_compare mac s
  end.

(** * Proofs *)

Lemma ct_compare_eq : forall a b, ct_compare a b = true <-> a = b.
Proof.
  induction a as [|x a IH]; destruct b as [|y b]; simpl; split; intros H; try easy.
  - apply andb_prop in H. destruct H as [H1 H2]. apply N.eqb_eq in H1. apply IH in H2. now subst.
  - injection H as -> ->. now rewrite N.eqb_refl, (proj2 (IH b) eq_refl).
Qed.

Lemma xor_into_length : forall a b, length (xor_into a b) = length a.
Proof. induction a; destruct b; simpl; auto. Qed.
Lemma xor_into_nil : forall a, xor_into a [] = a.
Proof. destruct a; auto. Qed.
Lemma xor_at_length : forall a o b, o <= length a -> length (xor_at a o b) = length a.
Proof. intros. unfold xor_at. rewrite app_length, xor_into_length, firstn_length, skipn_length. lia. Qed.
Lemma xor_into_app : forall c t p, length t <= length c -> xor_into c (t ++ p) = xor_at (xor_into c t) (length t) p.
Proof.
  induction c as [|x c IH]; intros t p H.
  - destruct t; simpl in *; try lia. destruct p; reflexivity.
  - destruct t as [|y t]; simpl.
    + reflexivity.
    + unfold xor_at. simpl. f_equal. rewrite IH by (simpl in H; lia). reflexivity.
Qed.
Lemma xor_into_full : forall a b, length a = length b -> xor_into a b = xorblk a b.
Proof.
  induction a as [|x a IH]; destruct b as [|y b]; simpl; intros H; try discriminate; auto.
  unfold xorblk in *. simpl. now rewrite IH by lia.
Qed.
Lemma xorblk_length : forall a b, length a = length b -> length (xorblk a b) = length a.
Proof. intros. unfold xorblk. rewrite map_length, combine_length. lia. Qed.
Lemma xorblk_comm : forall a b, xorblk a b = xorblk b a.
Proof.
  unfold xorblk. induction a as [|x a IH]; destruct b; simpl; auto. rewrite IH, N.lxor_comm. reflexivity.
Qed.
Lemma xorblk_assoc : forall a b c, xorblk (xorblk a b) c = xorblk a (xorblk b c).
Proof.
  unfold xorblk. induction a as [|x a IH]; destruct b, c; simpl; auto. rewrite IH, N.lxor_assoc. reflexivity.
Qed.
Lemma xor_into_pad : forall t a, length t < length a ->
  upd (xor_into a t) (length t) (N.lxor (at_ (xor_into a t) (length t)) 0x80)
  = xorblk a (t ++ 0x80%N :: zeros (length a - 1 - length t)).
Proof.
  induction t as [|y t IH]; intros a H.
  - destruct a as [|x a]; simpl in H; try lia. simpl. unfold xorblk. simpl.
    rewrite Nat.sub_0_r. f_equal.
    clear. unfold zeros. induction a as [|x a IH]; simpl; auto. rewrite N.lxor_0_r. f_equal.
    rewrite ?Nat.sub_0_r in *. exact IH.
  - destruct a as [|x a]; simpl in H; try lia. simpl. unfold xorblk in *. simpl.
    specialize (IH a ltac:(lia)). unfold at_ in *. simpl. f_equal. rewrite IH.
    replace (length a - 0 - S (length t)) with (length a - 1 - length t) by lia. reflexivity.
Qed.

(** The shift is doubling of the big-endian number. *)
Lemma cmac_shift_length : forall k, length (fst (cmac_shift k)) = length k.
Proof. induction k; simpl; auto. destruct (cmac_shift k); simpl in *. now rewrite IHk. Qed.
Lemma be_val_cons : forall x t, be_val (x :: t) = (x * 256 ^ N.of_nat (length t) + be_val t)%N.
Proof.
  intros. unfold be_val. simpl.
  assert (forall l y, le_val (l ++ [y]) = (le_val l + 256 ^ N.of_nat (length l) * y)%N) as K.
  { induction l as [|a l IH]; intros y.
    - cbn [app le_val length]. change (256 ^ N.of_nat 0)%N with 1%N. lia.
    - cbn [app le_val length]. rewrite IH. rewrite Nat2N.inj_succ, N.pow_succ_r'. lia. }
  rewrite K, rev_length. lia.
Qed.
Lemma be_val_lt : forall l, isbytes l -> (be_val l < 256 ^ N.of_nat (length l))%N.
Proof.
  induction l as [|a l IH]; intros H.
  - reflexivity.
  - inversion H; subst. rewrite be_val_cons. cbn [length]. rewrite Nat2N.inj_succ, N.pow_succ_r'.
    specialize (IH H3). unfold isbyte in H2. nia.
Qed.
Lemma cmac_shift_bytes : forall k, isbytes k ->
  isbytes (fst (cmac_shift k)) /\ (snd (cmac_shift k) < 2)%N /\
  (snd (cmac_shift k) * 256 ^ N.of_nat (length k) + be_val (fst (cmac_shift k)) = 2 * be_val k)%N.
Proof.
  induction k as [|x t IH]; intros H.
  - simpl. repeat split; constructor.
  - inversion H; subst. specialize (IH H3).
    pose proof (cmac_shift_length t) as L. cbn [cmac_shift].
    destruct (cmac_shift t) as [t' b]. cbn [fst snd] in IH, L |- *. destruct IH as (I1 & I2 & I3).
    unfold isbyte in H2.
    assert (Hor : N.lor (w8 (N.shiftl x 1)) b = ((2 * x) mod 256 + b)%N).
    { assert (b = 0 \/ b = 1)%N as [-> | ->] by lia.
      - rewrite N.lor_0_r, w8_mod, N.shiftl_mul_pow2. change (2^1)%N with 2%N. rewrite N.add_0_r. f_equal. lia.
      - rewrite w8_mod, N.shiftl_mul_pow2. change (2^1)%N with 2%N. rewrite (N.mul_comm x 2).
        change 256%N with (2 * 128)%N. rewrite N.mul_mod_distr_l by discriminate.
        generalize (x mod 128)%N. intros y. change 1%N with (N.ones 1) at 1.
        now destruct y as [|[?|?|]]. }
    assert (Hsr : N.shiftr x 7 = (x / 128)%N) by (now rewrite N.shiftr_div_pow2).
    rewrite Hor, Hsr.
    assert (Hx : (2 * x = 256 * (x / 128) + (2 * x) mod 256)%N).
    { change 256%N with (2 * 128)%N at 2. rewrite N.mul_mod_distr_l by discriminate.
      pose proof (N.div_mod x 128 ltac:(discriminate)). lia. }
    assert (Hm : ((2 * x) mod 256 <= 254)%N).
    { change 256%N with (2 * 128)%N. rewrite N.mul_mod_distr_l by discriminate.
      pose proof (N.mod_lt x 128 ltac:(discriminate)). lia. }
    repeat split.
    + constructor; auto. unfold isbyte. lia.
    + apply N.div_lt_upper_bound; [discriminate|lia].
    + rewrite !be_val_cons. cbn [length]. rewrite L, Nat2N.inj_succ, N.pow_succ_r'.
      generalize dependent (256 ^ N.of_nat (length t))%N. intros P I3.
      generalize dependent (x / 128)%N. generalize dependent ((2 * x) mod 256)%N. intros. nia.
Qed.

Lemma upd_last_bytes : forall n v b, (b < 256)%N -> (v < 256 ^ N.of_nat (S n))%N ->
  upd (be_bytes (S n) v) n (N.lxor (at_ (be_bytes (S n) v) n) b) = be_bytes (S n) (N.lxor v b).
Proof.
  intros n v b Hb Hv. unfold be_bytes. cbn [le_bytes rev].
  assert (L : length (rev (le_bytes n (N.shiftr v 8))) = n) by now rewrite rev_length, le_bytes_length.
  rewrite <- L at 2. unfold at_. rewrite <- L at 3. rewrite nth_middle, upd_app_at.
  assert (S8 : N.shiftr (N.lxor v b) 8 = N.shiftr v 8).
  { rewrite N.shiftr_lxor. replace (N.shiftr b 8) with 0%N. apply N.lxor_0_r.
    rewrite N.shiftr_div_pow2. symmetry. apply N.div_small. assumption. }
  rewrite S8. f_equal. f_equal. unfold w8.
  apply N.bits_inj. intros i. rewrite !N.lxor_spec, !N.land_spec, N.lxor_spec.
  change 255%N with (N.ones 8).
  destruct (N.lt_ge_cases i 8).
  - rewrite N.ones_spec_low by assumption. now rewrite !andb_true_r.
  - rewrite N.ones_spec_high by assumption. rewrite !andb_false_r.
    rewrite (proj1 (lt_pow2_bits 8 b)); auto.
Qed.

Lemma cmac_subkey_ok : forall bs p k, 0 < bs -> length k = bs -> isbytes k ->
  cmac_subkey bs p k = gf_double bs (w8 p) k.
Proof.
  intros bs p k Hbs Hl Hb. unfold cmac_subkey, gf_double.
  destruct (cmac_shift_bytes k Hb) as (I1 & I2 & I3).
  pose proof (cmac_shift_length k) as L.
  destruct (cmac_shift k) as [k' v]. cbn [fst snd] in *.
  pose proof (be_val_lt k' I1) as Lk'. rewrite L, Hl in Lk'. rewrite Hl in I3.
  assert (P : (256 ^ N.of_nat bs = 2 ^ (8 * N.of_nat bs))%N).
  { change 256%N with (2^8)%N. now rewrite <- N.pow_mul_r. }
  assert (Hv : (be_val k' = (2 * be_val k) mod 2 ^ (8 * N.of_nat bs))%N).
  { rewrite <- P, <- I3. rewrite N.add_comm, N.mod_add, N.mod_small; auto. apply N.pow_nonzero. discriminate. }
  assert (Ht : N.testbit (be_val k) (8 * N.of_nat bs - 1) = (v =? 1)%N).
  { pose proof (be_val_lt k Hb) as Lk. rewrite Hl in Lk.
    assert (Q : (2 ^ (8 * N.of_nat bs) = 2 * 2 ^ (8 * N.of_nat bs - 1))%N).
    { rewrite <- N.pow_succ_r'. f_equal. lia. }
    rewrite P, Q in *. set (T := (2 ^ (8 * N.of_nat bs - 1))%N) in *.
    assert (T <> 0)%N by (apply N.pow_nonzero; discriminate).
    rewrite N.testbit_eqb. fold T.
    assert (be_val k / T = v)%N as ->.
    { symmetry. apply (N.div_unique _ _ _ (be_val k - T * v)%N); nia. }
    assert (v = 0 \/ v = 1)%N as [-> | ->] by lia; reflexivity. }
  rewrite Ht, <- Hv.
  rewrite <- (be_bytes_be_val k' I1) at 1 2. rewrite L, Hl.
  destruct bs as [|n]; [lia|]. replace (S n - 1) with n by lia.
  rewrite upd_last_bytes; auto.
  - destruct (v =? 1)%N; reflexivity.
  - apply w8_lt.
Qed.

Lemma gf_double_wf : forall bs R k, length (gf_double bs R k) = bs /\ isbytes (gf_double bs R k).
Proof. intros. unfold gf_double. split. apply be_bytes_length. apply be_bytes_isbytes. Qed.

Lemma ldiff_blocks : forall k n, Nat.ldiff n (2 ^ k - 1) = n / 2 ^ k * 2 ^ k.
Proof.
  intros. replace (2 ^ k - 1) with (Nat.ones k).
  - rewrite Nat.ldiff_ones_r, Nat.shiftl_mul_pow2, Nat.shiftr_div_pow2. reflexivity.
  - rewrite Nat.ones_equiv. lia.
Qed.

Section Refine.
Variable E : list N -> list N.
Variable bs : nat.
Variable kk : nat.
Hypothesis bs_pow : bs = 2 ^ kk.
Hypothesis E_len : forall x, length x = bs -> length (E x) = bs.

Local Lemma bs_pos : 0 < bs.
Proof. rewrite bs_pow. apply Nat.neq_0_lt_0. apply Nat.pow_nonzero. discriminate. Qed.

Lemma cbc_length_from : forall bl c, length c = bs -> Forall (fun b => length b = bs) bl ->
  length (fold_left (fun c b => E (xorblk c b)) bl c) = bs.
Proof.
  induction bl as [|b bl IH]; intros c Hc H; auto. inversion H; subst b bl. simpl. apply IH; auto.
  apply E_len. rewrite xorblk_length; lia.
Qed.
Lemma cbc_length : forall m, length (cbc E bs (chunks bs m)) = bs.
Proof. intros. apply cbc_length_from. apply zeros_length. apply chunks_all_length. apply bs_pos. Qed.

(** The object holds the CBC state of the leading blocks with the tail xored in; the tail is
    a full block only when more input is needed to tell whether it is the last one. *)
Definition cmac_rel (k0 k1 : list N) (tag : nat) (d : cmac_st) (m : list N) : Prop :=
  ck0 d = k0 /\ ck1 d = k1 /\ ctag d = tag /\
  exists a t, m = a ++ t /\ length a mod bs = 0 /\ length t <= bs /\ (t = [] -> a = []) /\
    coff d = length t /\ cbuf d = xor_into (cbc E bs (chunks bs a)) t.

Lemma cbc_snoc : forall a c, length a mod bs = 0 -> length c = bs ->
  cbc E bs (chunks bs (a ++ c)) = E (xorblk (cbc E bs (chunks bs a)) c).
Proof.
  intros a c Ha Hc. pose proof bs_pos. unfold cbc.
  rewrite chunks_app, fold_left_app by lia.
  assert (rest bs a = []) as -> by (apply length_zero_iff_nil; rewrite rest_length; lia).
  rewrite app_nil_l, chunks_one by auto. reflexivity.
Qed.

Lemma cmac_blocks_ok : forall n a msg, length a mod bs = 0 -> n * bs <= length msg ->
  cmac_blocks E bs (cbc E bs (chunks bs a)) msg (n * bs) = cbc E bs (chunks bs (a ++ firstn (n * bs) msg)).
Proof.
  intros n a msg Ha Hn. pose proof bs_pos as B. unfold cmac_blocks. rewrite Nat.div_mul by lia.
  induction n as [|n IH].
  - simpl. now rewrite app_nil_r.
  - rewrite seq_S, fold_left_app, IH by lia. cbn [fold_left plus].
    assert (F : firstn (S n * bs) msg = firstn (n * bs) msg ++ slice msg (n * bs) (n * bs + bs)).
    { unfold slice. replace (n * bs + bs - n * bs) with bs by lia.
      rewrite <- (firstn_skipn (n * bs) msg) at 1. rewrite firstn_app, firstn_length.
      rewrite firstn_firstn. f_equal; f_equal; lia. }
    assert (SL : length (slice msg (n * bs) (n * bs + bs)) = bs).
    { unfold slice. rewrite firstn_length, skipn_length. lia. }
    rewrite F, app_assoc, (cbc_snoc (a ++ firstn (n * bs) msg)); auto.
    + rewrite xor_into_full; auto. rewrite cbc_length. auto.
    + rewrite app_length, firstn_length, Nat.min_l by lia. now rewrite Nat.mod_add by lia.
Qed.

Lemma cmac_write2_rel : forall k0 k1 tag d a msg,
  ck0 d = k0 -> ck1 d = k1 -> ctag d = tag -> length a mod bs = 0 ->
  coff d = 0 -> cbuf d = cbc E bs (chunks bs a) -> (msg = [] -> a = []) ->
  cmac_rel k0 k1 tag (cmac_write2 E bs d msg) (a ++ msg).
Proof.
  intros k0 k1 tag d a msg H0 H1 H2 Ha Ho Hb Hm. pose proof bs_pos as B.
  assert (K : forall d a msg, ck0 d = k0 -> ck1 d = k1 -> ctag d = tag -> length a mod bs = 0 ->
    coff d = 0 -> cbuf d = cbc E bs (chunks bs a) -> (msg = [] -> a = []) -> length msg <= bs ->
    cmac_rel k0 k1 tag (if 0 <? length msg then set_buf d (xor_at (cbuf d) (coff d) msg) (coff d + length msg) else d) (a ++ msg)).
  { clear. intros d a msg H0 H1 H2 Ha Ho Hb Hm Hl.
    destruct (Nat.ltb_spec 0 (length msg)).
    - repeat split; auto. exists a, msg. repeat split; auto.
      + simpl. now rewrite Ho.
      + simpl. rewrite Ho, Hb. reflexivity.
    - assert (msg = []) as -> by (destruct msg; simpl in *; auto; lia).
      repeat split; auto. exists a, []. repeat split; auto. now rewrite xor_into_nil. }
  unfold cmac_write2.
  destruct (Nat.ltb_spec bs (length msg)) as [Hl|Hl].
  - assert (LD : Nat.ldiff (length msg) (bs - 1) = length msg / bs * bs) by (rewrite bs_pow; apply ldiff_blocks).
    rewrite LD.
    pose proof (Nat.div_mod (length msg) bs ltac:(lia)) as DM.
    pose proof (Nat.mod_upper_bound (length msg) bs ltac:(lia)) as MU.
    set (nn := if length msg =? length msg / bs * bs then length msg / bs * bs - bs else length msg / bs * bs).
    assert (Hnn : exists j, nn = j * bs /\ nn < length msg /\ length msg <= nn + bs).
    { subst nn. destruct (Nat.eqb_spec (length msg) (length msg / bs * bs)) as [e|e].
      - exists (length msg / bs - 1). rewrite Nat.mul_sub_distr_r, Nat.mul_1_l. rewrite <- e. lia.
      - exists (length msg / bs). repeat split; lia. }
    clearbody nn. destruct Hnn as (j & -> & Hj1 & Hj2).
    replace (a ++ msg) with ((a ++ firstn (j * bs) msg) ++ skipn (j * bs) msg)
      by (rewrite <- app_assoc, firstn_skipn; reflexivity).
    assert (Hfl : length (firstn (j * bs) msg) = j * bs) by (rewrite firstn_length; lia).
    apply K; auto.
    + rewrite app_length, Hfl, Nat.mod_add by lia. auto.
    + simpl. rewrite Hb. apply cmac_blocks_ok; auto. lia.
    + intros e. apply (f_equal (@length N)) in e. rewrite skipn_length in e. simpl in e. lia.
    + rewrite skipn_length. lia.
  - apply K; auto.
Qed.

Lemma cmac_write_rel : forall k0 k1 tag d m p, cmac_rel k0 k1 tag d m ->
  cmac_rel k0 k1 tag (fst (cmac_write E bs d p)) (m ++ p).
Proof.
  intros k0 k1 tag d m p (H0 & H1 & H2 & a & t & -> & Ha & Ht & Hta & Ho & Hb).
  pose proof bs_pos as B. pose proof (cbc_length a) as CL. unfold cmac_write.
  destruct (Nat.ltb_spec 0 (coff d)) as [Hpos|Hpos].
  - destruct (Nat.ltb_spec (bs - coff d) (length p)) as [Hl|Hl]; cbn [fst].
    + replace ((a ++ t) ++ p) with ((a ++ t ++ firstn (bs - coff d) p) ++ skipn (bs - coff d) p)
        by (rewrite <- !app_assoc, firstn_skipn; reflexivity).
      assert (FL : length (firstn (bs - coff d) p) = bs - coff d) by (rewrite firstn_length; lia).
      assert (TL : length (t ++ firstn (bs - coff d) p) = bs) by (rewrite app_length, FL; lia).
      apply cmac_write2_rel; auto.
      * rewrite app_length, TL. replace (length a + bs) with (length a + 1 * bs) by lia.
        now rewrite Nat.mod_add by lia.
      * simpl. rewrite Hb, cbc_snoc; auto. rewrite Ho at 1. rewrite <- xor_into_app by lia.
        rewrite xor_into_full; auto. lia.
      * intros e. apply (f_equal (@length N)) in e. rewrite skipn_length in e. simpl in e. lia.
    + repeat split; auto. exists a, (t ++ p). rewrite <- app_assoc. repeat split; auto.
      * rewrite app_length. lia.
      * intros e. apply app_eq_nil in e. tauto.
      * simpl. rewrite app_length. lia.
      * simpl. rewrite Hb, Ho. rewrite <- xor_into_app by lia. reflexivity.
  - assert (t = []) as -> by (destruct t; simpl in *; auto; lia).
    cbn [fst]. rewrite app_nil_r. apply cmac_write2_rel; auto.
    rewrite Hb, xor_into_nil. reflexivity.
Qed.

Lemma cbc_last : forall l x, cbc E bs (l ++ [x]) = E (xorblk (cbc E bs l) x).
Proof. intros. unfold cbc. now rewrite fold_left_app. Qed.
Lemma chunks_snoc : forall (a : list N) t, length a mod bs = 0 -> length t = bs ->
  chunks bs (a ++ t) = chunks bs a ++ [t].
Proof.
  intros a t Ha Ht. pose proof bs_pos. rewrite chunks_app by lia.
  assert (rest bs a = []) as -> by (apply length_zero_iff_nil; rewrite rest_length; lia).
  rewrite app_nil_l, (chunks_one _ _ t) by auto. reflexivity.
Qed.

Lemma cmac_checkSum_ok : forall R tag d m,
  (forall x, length x = bs -> isbytes (E x)) ->
  cmac_rel (gf_double bs R (E (zeros bs))) (gf_double bs R (gf_double bs R (E (zeros bs)))) tag d m ->
  cmac_checkSum E bs d = cmac_spec E bs R tag m.
Proof.
  intros R tag d m HE (H0 & H1 & H2 & a & t & -> & Ha & Ht & Hta & Ho & Hb).
  pose proof bs_pos as B. unfold cmac_checkSum, cmac_spec. rewrite Ho, Hb, H0, H1, H2.
  set (K1 := gf_double bs R (E (zeros bs))). set (K2 := gf_double bs R K1).
  assert (LK1 : length K1 = bs) by apply gf_double_wf.
  assert (LK2 : length K2 = bs) by apply gf_double_wf.
  clearbody K1 K2. pose proof (cbc_length a) as CL.
  assert (RA : rest bs a = []) by (apply length_zero_iff_nil; rewrite rest_length; lia).
  destruct (Nat.ltb_spec (length t) bs) as [Hl|Hl].
  - assert (C : (0 <? length (a ++ t)) && (length (a ++ t) mod bs =? 0) = false).
    { destruct t as [|x t'].
      - rewrite Hta by auto. reflexivity.
      - apply andb_false_intro2. apply Nat.eqb_neq. rewrite app_length.
        rewrite Nat.add_mod, Ha, Nat.add_0_l, Nat.mod_mod, Nat.mod_small by lia. simpl. lia. }
    rewrite C. f_equal. rewrite cbc_last.
    rewrite chunks_app, RA, app_nil_l, (chunks_short _ _ t), app_nil_r by lia.
    rewrite rest_app, RA, app_nil_l, rest_short by lia.
    f_equal.
    set (P := t ++ 128%N :: zeros (bs - 1 - length t)).
    rewrite (xorblk_comm P), <- xorblk_assoc.
    set (c := cbc E bs (chunks bs a)) in *. clearbody c.
    assert (XE : xor_into K2 (xor_into c t) = xor_into (xorblk c K2) t).
    { clear - CL LK2. revert K2 t LK2. assert (G : forall n c K2 t, length c = n -> length K2 = n -> xor_into K2 (xor_into c t) = xor_into (xorblk c K2) t).
      { clear. induction n; intros c K2 t Hc HK; destruct c as [|x c], K2 as [|y K2]; simpl in *; try lia; auto.
        destruct t as [|z t]; simpl.
        - rewrite N.lxor_comm. f_equal. rewrite <- (xor_into_nil c) at 1. rewrite IHn by lia. rewrite xor_into_nil. reflexivity.
        - f_equal; [bitwise|]. unfold xorblk in IHn. apply IHn; lia. }
      intros. apply (G bs); lia. }
    rewrite XE. subst P.
    assert (LX : length (xorblk c K2) = bs) by (rewrite xorblk_length; lia).
    rewrite xor_into_pad by lia. rewrite LX. reflexivity.
  - assert (Lt : length t = bs) by lia.
    assert (C : (0 <? length (a ++ t)) && (length (a ++ t) mod bs =? 0) = true).
    { apply andb_true_intro. split.
      - apply Nat.ltb_lt. rewrite app_length. lia.
      - apply Nat.eqb_eq. rewrite app_length, Lt. replace (length a + bs) with (length a + 1 * bs) by lia.
        rewrite Nat.mod_add; lia. }
    rewrite C. f_equal. rewrite chunks_snoc by auto. rewrite removelast_last, last_last.
    rewrite cbc_last. f_equal.
    rewrite (xor_into_full (cbc E bs (chunks bs a))) by lia.
    rewrite xor_into_full by (rewrite xorblk_length; lia).
    rewrite xorblk_comm. apply xorblk_assoc.
Qed.
End Refine.

Lemma cmac_reset_rel : forall E bs kk, bs = 2 ^ kk -> (forall x, length x = bs -> length (E x) = bs) ->
  forall k0 k1 tag d m, cmac_rel E bs k0 k1 tag d m -> cmac_rel E bs k0 k1 tag (cmac_reset d) [].
Proof.
  intros E bs kk P L k0 k1 tag d m (H0 & H1 & H2 & a & t & -> & Ha & Ht & Hta & Ho & Hb).
  repeat split; auto. exists [], []. repeat split; auto; simpl; try lia.
  - apply Nat.mod_0_l. pose proof (bs_pos bs kk P). lia.
  - rewrite xor_into_nil, Hb. assert (Hlen : length (xor_into (cbc E bs (chunks bs a)) t) = bs).
    { rewrite xor_into_length. eapply cbc_length; eauto. }
    revert Hlen. generalize (xor_into (cbc E bs (chunks bs a)) t) as l. intros l Hlen.
    unfold cbc, chunks. simpl. rewrite Nat.div_0_l by (pose proof (bs_pos bs kk P); lia). simpl.
    rewrite <- Hlen. unfold zeros. clear. induction l; simpl; auto. now rewrite IHl.
Qed.

Definition block_cipher (bs : nat) (E : list N -> list N) : Prop :=
  forall x, length x = bs -> length (E x) = bs /\ isbytes (E x).

Lemma cmac_new_rel : forall E bs kk p tag, bs = 2 ^ kk -> cmac_p bs = Some p -> block_cipher bs E ->
  0 < tag <= bs ->
  exists d, cmac_new E bs tag = Some d /\
  cmac_rel E bs (gf_double bs (w8 p) (E (zeros bs))) (gf_double bs (w8 p) (gf_double bs (w8 p) (E (zeros bs)))) tag d [].
Proof.
  intros E bs kk p tag P Hp HE Ht. pose proof (bs_pos bs kk P) as B.
  unfold cmac_new. rewrite Hp.
  destruct (Nat.eqb_spec tag 0); [lia|]. destruct (Nat.ltb_spec bs tag); [lia|]. cbn [orb].
  eexists. split; [reflexivity|].
  destruct (HE (zeros bs) (zeros_length bs)) as [L1 L2].
  rewrite (cmac_subkey_ok bs p (E (zeros bs))) by auto.
  destruct (gf_double_wf bs (w8 p) (E (zeros bs))) as [L3 L4].
  rewrite (cmac_subkey_ok bs p (gf_double _ _ _)) by auto.
  repeat split. exists [], []. simpl. repeat split; auto; try lia.
  - apply Nat.mod_0_l. lia.
  - rewrite xor_into_nil. unfold cbc, chunks. simpl. rewrite Nat.div_0_l by lia. reflexivity.
Qed.

Lemma cmac_p_pow : forall bs p, cmac_p bs = Some p -> exists kk, bs = 2 ^ kk.
Proof.
  intros bs p H. unfold cmac_p in H.
  destruct (Nat.eqb_spec bs 8); [exists 3; assumption|]. destruct (Nat.eqb_spec bs 16); [exists 4; assumption|].
  destruct (Nat.eqb_spec bs 32); [exists 5; assumption|]. destruct (Nat.eqb_spec bs 64); [exists 6; assumption|].
  destruct (Nat.eqb_spec bs 128); [exists 7; assumption|]. discriminate H.
Qed.

Lemma cmac_contract_lemma : forall E bs p tag, block_cipher bs E -> cmac_p bs = Some p -> 0 < tag <= bs ->
  exists d, cmac_new E bs tag = Some d /\
  forall ops, run (cmac_impl E bs) d ops = ideal_run (cmac_spec E bs (w8 p) tag) [] ops.
Proof.
  intros E bs p tag HE Hp Ht. destruct (cmac_p_pow bs p Hp) as [kk P].
  destruct (cmac_new_rel E bs kk p tag P Hp HE Ht) as (d & Hd & R).
  exists d. split; auto. intros ops.
  apply run_refines with (R := cmac_rel E bs (gf_double bs (w8 p) (E (zeros bs)))
       (gf_double bs (w8 p) (gf_double bs (w8 p) (E (zeros bs)))) tag); auto.
  - intros. simpl. eapply cmac_write_rel; eauto. apply HE.
  - intros. simpl. unfold cmac_write. destruct (0 <? coff d0); auto. destruct (bs - coff d0 <? length p0); auto.
  - intros d0 m i H. simpl. f_equal. eapply cmac_checkSum_ok; eauto; apply HE.
  - intros. simpl. eapply cmac_reset_rel; eauto. apply HE.
Qed.

Lemma cmac_new_error_lemma : forall E bs tag,
  cmac_new E bs tag = None <-> (tag = 0 \/ bs < tag \/ ~ In bs [8; 16; 32; 64; 128]).
Proof.
  intros. unfold cmac_new. destruct (Nat.eqb_spec tag 0); simpl; [tauto|].
  destruct (Nat.ltb_spec bs tag); [tauto|].
  assert (K : cmac_p bs = None <-> ~ In bs [8; 16; 32; 64; 128]).
  { split.
    - intros H1 H2. simpl in H2. intuition subst; discriminate.
    - intros H1. destruct (cmac_p bs) eqn:F; auto. exfalso. apply H1. clear H1.
      unfold cmac_p in F. simpl.
      destruct (Nat.eqb_spec bs 8); [lia|]. destruct (Nat.eqb_spec bs 16); [lia|].
      destruct (Nat.eqb_spec bs 32); [lia|]. destruct (Nat.eqb_spec bs 64); [lia|].
      destruct (Nat.eqb_spec bs 128); [lia|]. discriminate F. }
  destruct (cmac_p bs); split; intros H1; try discriminate; try tauto.
  - exfalso. destruct H1 as [|[|H1]]; try lia. apply K in H1. discriminate.
  - right. right. apply K. reflexivity.
Qed.

Lemma cmac_sum_lemma : forall E bs p tag m, block_cipher bs E -> cmac_p bs = Some p -> 0 < tag <= bs ->
  cmac_Sum E bs m tag = Some (cmac_spec E bs (w8 p) tag m).
Proof.
  intros E bs p tag m HE Hp Ht. unfold cmac_Sum.
  destruct (cmac_contract_lemma E bs p tag HE Hp Ht) as (d & -> & R).
  specialize (R [Write m; Sum []]). simpl in R.
  destruct (cmac_write E bs d m) as [d' n]. cbn [fst snd cmac_sum]. inversion R. reflexivity.
Qed.

Lemma cmac_verify_lemma : forall E bs p tag mac m, block_cipher bs E -> cmac_p bs = Some p -> 0 < tag <= bs ->
  (cmac_Verify E bs mac m tag = true <-> mac = cmac_spec E bs (w8 p) tag m).
Proof.
  intros E bs p tag mac m HE Hp Ht. unfold cmac_Verify.
  rewrite (cmac_sum_lemma E bs p) by auto. apply ct_compare_eq.
Qed.
