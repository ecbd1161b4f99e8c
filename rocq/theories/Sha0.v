(** Sha0.v -- model of package /repo/sha0 (digest.go, sha0.go, sbox.go, utils.go),
    refinement proof against SpecSha0.v (FIPS 180). *)
From Coq Require Import List NArith Arith Lia Bool.
From Verif Require Import Base Words HashAPI Buf MD Sha0Block SpecSha0.
Import ListNotations.

(** ** Model *)

(** sbox.go:3-9 *)
Definition sha0_iv : list N :=
  [0x67452301; 0xEFCDAB89; 0x98BADCFE; 0x10325476; 0xC3D2E1F0]%N.

(** sbox.go:11-16 *)
Definition sha0_sbox : list N := [0x5A827999; 0x6ED9EBA1; 0x8F1BBCDC; 0xCA62C1D6]%N.

Definition sha0_f (k : sha0_fun) (x y z : N) : N :=
  match k with
  | Ch => N.lor (N.land x y) (N.land (not32 x) z)
  | Parity => N.lxor (N.lxor x y) z
  | Maj => N.lor (N.lor (N.land x y) (N.land x z)) (N.land y z)
  end.

(** The three source lines of one row, executed on the registers R = [A;B;C;D;E]
    and the variables W0..Wf. *)
Definition sha0_step (data : list N) (st : list N * list N) (r : sha0_row) : list N * list N :=
  let '(R, W) := st in
  let W' := upd W (r_w r) (match r_wx r with
      | Load off => be_val (slice data off (off + 4))
      | Mix a b c d => N.lxor (N.lxor (N.lxor (at_ W a) (at_ W b)) (at_ W c)) (at_ W d)
      end) in
  let xp := at_ R (r_p r) in
  let R1 := upd R (r_dst r)
     (add32 (add32 (add32 (add32 (N.lor (shl32 xp 5) (N.shiftr xp 27))
        (sha0_f (r_f r) (at_ R (r_q1 r)) (at_ R (r_q2 r)) (at_ R (r_q3 r))))
        (at_ R (r_dst r))) (at_ W' (r_w r))) (at_ sha0_sbox (r_k r))) in
  let xr := at_ R1 (r_rot r) in
  (upd R1 (r_rot r) (N.lor (shl32 xr 30) (N.shiftr xr 2)), W').

(** digest.go:101-374 *)
Definition sha0_block (s data : list N) : list N :=
  let '(R, _) := fold_left (sha0_step data) sha0_rows (s, zeros 16) in
  [add32 (at_ s 0) (at_ R 0); add32 (at_ s 1) (at_ R 1); add32 (at_ s 2) (at_ R 2);
   add32 (at_ s 3) (at_ R 3); add32 (at_ s 4) (at_ R 4)].

(** digest.go:21-33 *)
Definition sha0_new : dig (list N) := mkdig sha0_iv (zeros 64) 0 0.
Definition sha0_reset (d : dig (list N)) : dig (list N) := mkdig sha0_iv (zeros 64) 0 0.

(** digest.go:42-63; processBlock is [sha0_block] (generated). *)
Definition sha0_write : dig (list N) -> list N -> dig (list N) * nat := write_pre 64 sha0_block.

(** digest.go:87-89: for i := dataLen+1; i < endLen-lenlen; i++ { d.Write({0}) } *)
Fixpoint sha0_write_zeros (n : nat) (d : dig (list N)) : dig (list N) :=
  match n with
  | O => d
  | S n' => sha0_write_zeros n' (fst (sha0_write d [0%N]))
  end.

(** digest.go:72-99.  (x + lenlen + blen) & ^(blen-1) with blen = 64 is
    the largest multiple of 64 not above x + 72. *)
Definition sha0_checkSum (d : dig (list N)) : list N :=
  let dataLen := dnx d in
  let currentLength := mul64 (dlen d) 8 in
  let countBuf := be_bytes 4 (w32 (N.shiftr currentLength 32)) ++ be_bytes 4 (w32 currentLength) in
  let endLen := (dataLen + 8 + 64) / 64 * 64 in
  let d1 := fst (sha0_write d [0x80%N]) in
  let d2 := sha0_write_zeros (endLen - 8 - (dataLen + 1)) d1 in
  let d3 := fst (sha0_write d2 countBuf) in
  concat (map (be_bytes 4) (ds d3)).

(** digest.go:65-70; d0 := *d copies all fields by value. *)
Definition sha0_sum (d : dig (list N)) (inp : list N) : dig (list N) * list N :=
  (d, inp ++ sha0_checkSum d).

Definition sha0_impl : impl (dig (list N)) := mkimpl sha0_write sha0_sum sha0_reset.

(** ** Proofs *)

(** The unrolled rounds follow the expected pattern. *)
Definition sha0_row_at (t : nat) : sha0_row :=
  let g j := (j + 4 * t) mod 5 in
  row (if t <? 16 then Load (4 * t)
       else Mix ((t - 3) mod 16) ((t - 8) mod 16) ((t - 14) mod 16) (t mod 16))
      (t mod 16) (g 4) (g 0)
      (if t <? 20 then Ch else if t <? 40 then Parity else if t <? 60 then Maj else Parity)
      (g 1) (g 2) (g 3) (t / 20) (g 1).
Lemma sha0_rows_eq : sha0_rows = map sha0_row_at (seq 0 80).
Proof. vm_compute. reflexivity. Qed.

Lemma fips_expand_length : forall n w, length (fips_expand n w) = length w + n.
Proof.
  induction n as [|n IH]; intros w; cbn [fips_expand]; [lia|].
  rewrite IH, app_length. cbn [length]. lia.
Qed.
Lemma fips_expand_prefix : forall n w, firstn (length w) (fips_expand n w) = w.
Proof.
  induction n as [|n IH]; intros w; cbn [fips_expand]; [apply firstn_all|].
  specialize (IH (w ++ [fips_next w])). rewrite app_length in IH. cbn [length] in IH.
  transitivity (firstn (length w) (firstn (length w + 1) (fips_expand n (w ++ [fips_next w])))).
  - rewrite firstn_firstn. f_equal. lia.
  - rewrite IH, firstn_app, firstn_all, Nat.sub_diag. apply app_nil_r.
Qed.
Lemma fips_expand_nth : forall n w t, length w <= t < length w + n ->
  at_ (fips_expand n w) t = fips_next (firstn t (fips_expand n w)).
Proof.
  induction n as [|n IH]; intros w t Ht; [lia|]. cbn [fips_expand].
  destruct (Nat.eq_dec t (length w)) as [->|Hn].
  - pose proof (fips_expand_prefix n (w ++ [fips_next w])) as K.
    rewrite app_length in K. cbn [length] in K.
    assert (K2 : firstn (length w) (fips_expand n (w ++ [fips_next w])) = w).
    { transitivity (firstn (length w) (firstn (length w + 1) (fips_expand n (w ++ [fips_next w])))).
      - rewrite firstn_firstn. f_equal. lia.
      - rewrite K, firstn_app, firstn_all, Nat.sub_diag. apply app_nil_r. }
    rewrite K2. unfold at_. rewrite <- (firstn_skipn (length w + 1) (fips_expand n _)).
    rewrite K. rewrite app_nth1 by (rewrite app_length; cbn [length]; lia).
    rewrite app_nth2, Nat.sub_diag by lia. reflexivity.
  - apply IH. rewrite app_length. cbn [length]. lia.
Qed.
Lemma at_firstn : forall (l : list N) i t, i < t -> at_ (firstn t l) i = at_ l i.
Proof.
  intros l i t H. unfold at_. revert i t H. induction l as [|a l IH]; intros i t H.
  - now rewrite firstn_nil.
  - destruct t; [lia|]. destruct i; [reflexivity|]. cbn [firstn nth]. apply IH. lia.
Qed.
Lemma fips_W_rec : forall b t, length b = 64 -> 16 <= t < 80 ->
  at_ (fips_W b) t = N.lxor (N.lxor (N.lxor (at_ (fips_W b) (t - 3)) (at_ (fips_W b) (t - 8)))
                              (at_ (fips_W b) (t - 14))) (at_ (fips_W b) (t - 16)).
Proof.
  intros b t L Ht.
  assert (Lw : length (map be_val (chunks 4 b)) = 16)
    by (rewrite map_length, chunks_length, L; reflexivity).
  unfold fips_W. set (w := map be_val (chunks 4 b)) in *.
  pose proof (fips_expand_nth 64 w t ltac:(lia)) as K.
  pose proof (fips_expand_length 64 w) as LX.
  set (X := fips_expand 64 w) in *. clearbody X. rewrite K at 1. unfold fips_next.
  rewrite firstn_length, LX, Lw.
  replace (Nat.min t (16 + 64)) with t by lia. rewrite !at_firstn by lia. reflexivity.
Qed.
Lemma fips_W_load : forall b t, length b = 64 -> t < 16 ->
  at_ (fips_W b) t = be_val (slice b (4 * t) (4 * t + 4)).
Proof.
  intros b t L Ht. unfold fips_W.
  assert (Lw : length (map be_val (chunks 4 b)) = 16)
    by (rewrite map_length, chunks_length, L; reflexivity).
  rewrite <- (at_firstn _ t 16) by lia. rewrite <- Lw, fips_expand_prefix.
  unfold chunks. rewrite L. change (64 / 4) with 16. rewrite map_map.
  unfold at_. rewrite (nth_indep _ _ (be_val (firstn 4 (skipn (0 * 4) b)))) by (rewrite map_length, seq_length; lia).
  rewrite (map_nth (fun x => be_val (firstn 4 (skipn (x * 4) b))) (seq 0 16) 0 t), seq_nth by lia.
  unfold slice. do 2 f_equal; try lia. f_equal. lia.
Qed.

(** Registers and message variables of the code after t rounds. *)
Definition sha0_inv (data : list N) (t : nat) (st : list N * list N) (v : list N) : Prop :=
  length (fst st) = 5 /\ length v = 5 /\ length (snd st) = 16 /\
  (forall j, j < 5 -> at_ (fst st) ((j + 4 * t) mod 5) = at_ v j) /\
  (forall i, i < t -> t <= i + 16 -> at_ (snd st) (i mod 16) = at_ (fips_W data) i).

Lemma length5 : forall (s : list N), length s = 5 ->
  s = [at_ s 0; at_ s 1; at_ s 2; at_ s 3; at_ s 4].
Proof.
  intros s L. do 5 (destruct s as [|? s]; [discriminate L|]).
  destruct s; [reflexivity|discriminate L].
Qed.

Lemma at_upd_same : forall (l : list N) i v, i < length l -> at_ (upd l i v) i = v.
Proof. intros. unfold at_. now apply nth_upd_same. Qed.
Lemma at_upd_other : forall (l : list N) i j v, i <> j -> at_ (upd l i v) j = at_ l j.
Proof. intros. unfold at_. now apply nth_upd_other. Qed.

Lemma sha0_f_ok : forall t x y z, t < 80 -> sha0_f (r_f (sha0_row_at t)) x y z = fips_f t x y z.
Proof.
  intros t x y z Ht. unfold sha0_row_at, fips_f. cbn [r_f].
  destruct (t <? 20); [reflexivity|]. destruct (t <? 40); [reflexivity|].
  destruct (t <? 60); reflexivity.
Qed.
Lemma sha0_k_ok : forall t, t < 80 -> at_ sha0_sbox (t / 20) = fips_K t.
Proof.
  intros t Ht.
  assert (K : forallb (fun t => N.eqb (at_ sha0_sbox (t / 20)) (fips_K t)) (seq 0 80) = true)
    by (vm_compute; reflexivity).
  rewrite forallb_forall in K. apply N.eqb_eq, K, in_seq. lia.
Qed.

Lemma mod_neq : forall a b n, a < b -> b < a + n -> a mod n <> b mod n.
Proof.
  intros a b n H1 H2 E. assert (n <> 0) by lia.
  rewrite (Nat.div_mod a n), (Nat.div_mod b n) in H1, H2 by auto. rewrite E in H1, H2.
  assert (a / n < b / n) by nia. nia.
Qed.

Lemma sha0_step_inv : forall data t st v, length data = 64 -> t < 80 -> sha0_inv data t st v ->
  sha0_inv data (S t) (sha0_step data st (sha0_row_at t)) (fips_round (fips_W data) v t).
Proof.
  intros data t [R W] v Ld Ht (LR & Lv & LW & HR & HW). cbn [fst snd] in *.
  unfold sha0_step.
  set (wv := match r_wx (sha0_row_at t) with Load off => _ | Mix a b c d => _ end).
  assert (Ew : wv = at_ (fips_W data) t).
  { unfold wv, sha0_row_at. cbn [r_wx]. destruct (Nat.ltb_spec t 16).
    - symmetry. apply fips_W_load; auto.
    - rewrite fips_W_rec by lia. rewrite !HW by lia.
      replace (t mod 16) with ((t - 16) mod 16).
      2:{ replace t with (t - 16 + 1 * 16) at 2 by lia. now rewrite Nat.mod_add by lia. }
      rewrite HW by lia. reflexivity. }
  rewrite sha0_f_ok by auto. unfold sha0_row_at. cbn [r_w r_dst r_p r_q1 r_q2 r_q3 r_k r_rot].
  pose proof (Nat.mod_upper_bound t 16 ltac:(lia)) as Hm.
  rewrite at_upd_same by lia. rewrite Ew, sha0_k_ok by auto. rewrite !HR by lia.
  change (N.lor (shl32 (at_ v 0) 5) (N.shiftr (at_ v 0) 27)) with (rotl32 (at_ v 0) 5).
  set (T := add32 _ _).
  pose proof (Nat.mod_upper_bound (1 + 4 * t) 5 ltac:(lia)) as Hm1.
  pose proof (Nat.mod_upper_bound (4 + 4 * t) 5 ltac:(lia)) as Hm4.
  assert (N14 : (4 + 4 * t) mod 5 <> (1 + 4 * t) mod 5)
    by (apply not_eq_sym, mod_neq; lia).
  rewrite at_upd_other by auto. rewrite HR by lia.
  change (N.lor (shl32 (at_ v 1) 30) (N.shiftr (at_ v 1) 2)) with (rotl32 (at_ v 1) 30).
  unfold sha0_inv. cbn [fst snd]. rewrite !upd_length.
  split; [auto|]. split; [reflexivity|]. split; [auto|]. split.
  - intros j Hj.
    assert (G : forall j k, (j + 4 * S t) mod 5 = (k + 4 * t) mod 5 <-> (j + 4) mod 5 = k mod 5).
    { intros a b. replace (a + 4 * S t) with ((a + 4) + 4 * t) by lia. split; intros E.
      - assert (E2 : ((a + 4 + 4 * t) mod 5 + t mod 5) mod 5 = ((b + 4 * t) mod 5 + t mod 5) mod 5) by now rewrite E.
        rewrite <- !Nat.add_mod in E2 by lia.
        replace (a + 4 + 4 * t + t) with (a + 4 + t * 5) in E2 by lia.
        replace (b + 4 * t + t) with (b + t * 5) in E2 by lia.
        rewrite !Nat.mod_add in E2 by lia. exact E2.
      - rewrite Nat.add_mod, E, <- Nat.add_mod by lia. reflexivity. }
    destruct j as [|[|[|[|[|j]]]]]; [| | | | |lia].
    + rewrite (proj2 (G 0 4)) by reflexivity. rewrite at_upd_other by auto.
      rewrite at_upd_same by lia. reflexivity.
    + rewrite (proj2 (G 1 0)) by reflexivity.
      rewrite at_upd_other by (apply not_eq_sym, mod_neq; lia).
      rewrite at_upd_other by (apply not_eq_sym, mod_neq; lia). rewrite HR by lia. reflexivity.
    + rewrite (proj2 (G 2 1)) by reflexivity. rewrite at_upd_same by (rewrite upd_length; lia). reflexivity.
    + rewrite (proj2 (G 3 2)) by reflexivity.
      rewrite at_upd_other by (apply mod_neq; lia).
      rewrite at_upd_other by (apply not_eq_sym, mod_neq; lia). rewrite HR by lia. reflexivity.
    + rewrite (proj2 (G 4 3)) by reflexivity.
      rewrite at_upd_other by (apply mod_neq; lia).
      rewrite at_upd_other by (apply not_eq_sym, mod_neq; lia). rewrite HR by lia. reflexivity.
  - intros i Hi1 Hi2. destruct (Nat.eq_dec i t) as [->|Hn].
    + now rewrite at_upd_same by lia.
    + rewrite at_upd_other by (apply not_eq_sym, mod_neq; lia). apply HW; lia.
Qed.

Lemma sha0_rounds_inv : forall data n t st v, length data = 64 -> t + n <= 80 -> sha0_inv data t st v ->
  sha0_inv data (t + n) (fold_left (sha0_step data) (map sha0_row_at (seq t n)) st)
                        (fold_left (fips_round (fips_W data)) (seq t n) v).
Proof.
  induction n as [|n IH]; intros t st v Ld Ht H.
  - cbn [seq map fold_left]. now rewrite Nat.add_0_r.
  - rewrite seq_cons. cbn [map]. rewrite !fold_left_cons.
    replace (t + S n) with (S t + n) by lia. apply IH; auto; [lia|].
    apply sha0_step_inv; auto. lia.
Qed.

Lemma sha0_block_ok : forall s data, length s = 5 -> length data = 64 ->
  sha0_block s data = fips_compress s data.
Proof.
  intros s data Ls Ld. unfold sha0_block, fips_compress. rewrite sha0_rows_eq.
  assert (H0 : sha0_inv data 0 (s, zeros 16) s).
  { unfold sha0_inv. cbn [fst snd]. repeat split; auto.
    - intros j Hj. rewrite Nat.mul_0_r, Nat.add_0_r. now rewrite Nat.mod_small by lia.
    - intros; lia. }
  pose proof (sha0_rounds_inv data 80 0 _ _ Ld (le_n _) H0) as K.
  destruct (fold_left (sha0_step data) (map sha0_row_at (seq 0 80)) (s, zeros 16)) as [R W].
  destruct K as (_ & Lv & _ & HR & _). cbn [fst] in HR.
  set (v := fold_left (fips_round (fips_W data)) (seq 0 80) s) in *.
  rewrite (length5 v Lv). rewrite (length5 s Ls) at 6. cbn [combine map].
  pose proof (HR 0 ltac:(lia)) as E0. pose proof (HR 1 ltac:(lia)) as E1.
  pose proof (HR 2 ltac:(lia)) as E2. pose proof (HR 3 ltac:(lia)) as E3.
  pose proof (HR 4 ltac:(lia)) as E4.
  change ((0 + 4 * (0 + 80)) mod 5) with 0 in E0. change ((1 + 4 * (0 + 80)) mod 5) with 1 in E1.
  change ((2 + 4 * (0 + 80)) mod 5) with 2 in E2. change ((3 + 4 * (0 + 80)) mod 5) with 3 in E3.
  change ((4 + 4 * (0 + 80)) mod 5) with 4 in E4.
  rewrite E0, E1, E2, E3, E4. reflexivity.
Qed.

Lemma sha0_block_length : forall s data, length (sha0_block s data) = 5.
Proof. intros. unfold sha0_block. destruct (fold_left _ _ _). reflexivity. Qed.

Lemma sha0_fold_ok : forall bl, Forall (fun b : list N => length b = 64) bl ->
  fold_left sha0_block bl sha0_iv = fold_left fips_compress bl fips_iv.
Proof.
  intros bl Hf.
  apply (fold_left_agree _ _ sha0_block fips_compress (fun s => length s = 5) (fun b => length b = 64));
    auto using sha0_block_length.
  intros. now apply sha0_block_ok.
Qed.
Opaque sha0_block fips_compress.
Definition sha0_rel (d : dig (list N)) (m : list N) : Prop := dig_rel 64 sha0_block sha0_iv 1 d m.

Lemma sha0_zeros_rel : forall n d m, sha0_rel d m -> sha0_rel (sha0_write_zeros n d) (m ++ zeros n).
Proof.
  induction n; intros d m H.
  - now rewrite app_nil_r.
  - cbn [sha0_write_zeros]. change (zeros (S n)) with ([0%N] ++ zeros n).
    rewrite app_assoc. apply IHn. apply write_pre_rel; auto. lia.
Qed.

Lemma be4_be4 : forall n, be_bytes 4 (w32 (N.shiftr n 32)) ++ be_bytes 4 (w32 n) = be_bytes 8 n.
Proof. intros. rewrite !be_bytes4_w32. symmetry. apply (be_bytes_app 4 4). Qed.

Lemma sha0_checkSum_ok : forall d m, sha0_rel d m -> sha0_checkSum d = sha0_spec m.
Proof.
  intros d m H. unfold sha0_checkSum, sha0_spec. cbv zeta.
  rewrite <- sha0_fold_ok by (apply chunks_all_length; lia). rewrite be4_be4.
  assert (El : be_bytes 8 (mul64 (dlen d) 8) = be_bytes 8 (8 * N.of_nat (length m))).
  { destruct H as (_ & _ & ->). unfold mul64. rewrite be_bytes8_w64.
    rewrite N.mul_1_l. rewrite <- be_bytes8_w64, w64_mul_l, be_bytes8_w64. f_equal. lia. }
  rewrite El.
  assert (En : (dnx d + 8 + 64) / 64 * 64 - 8 - (dnx d + 1)
               = (64 - (length m + 1 + 8) mod 64) mod 64).
  { rewrite pad_count by lia. cbv zeta.
    pose proof (dig_nx_lt 64 sha0_block ltac:(lia) _ _ _ _ H) as Hlt.
    pose proof (dig_nx 64 sha0_block ltac:(lia) _ _ _ _ H) as Hnx.
    rewrite rest_length by lia. rewrite <- Hnx.
    destruct (Nat.ltb_spec (64 - 8) (dnx d + 1)).
    - replace (dnx d + 8 + 64) with (2 * 64 + (dnx d - 56)) by lia.
      rewrite Nat.div_add_l by lia. rewrite (Nat.div_small (dnx d - 56)) by lia. lia.
    - replace (dnx d + 8 + 64) with (1 * 64 + (dnx d + 8)) by lia.
      rewrite Nat.div_add_l by lia. rewrite (Nat.div_small (dnx d + 8)) by lia. lia. }
  rewrite En.
  pose proof (write_pre_rel 64 sha0_block ltac:(lia) _ _ _ [0x80%N] H) as H1.
  apply (sha0_zeros_rel ((64 - (length m + 1 + 8) mod 64) mod 64)) in H1.
  apply (write_pre_rel 64 sha0_block ltac:(lia) _ _ _ (be_bytes 8 (8 * N.of_nat (length m)))) in H1.
  destruct H1 as (E & _). unfold sha0_write in *. rewrite E. unfold md_pad.
  rewrite be_bytes_length. rewrite <- !app_assoc. reflexivity.
Qed.

Lemma sha0_history_lemma : forall ops d m, sha0_rel d m ->
  run sha0_impl d ops = ideal_run sha0_spec m ops.
Proof.
  apply run_refines; intros; unfold sha0_impl; cbn [i_write i_sum i_reset].
  - apply write_pre_rel; auto. lia.
  - apply write_pre_count.
  - exact H.
  - unfold sha0_sum. cbn [snd]. now rewrite (sha0_checkSum_ok d m).
  - apply dig_rel_new. lia. reflexivity.
Qed.

Lemma sha0_new_rel : sha0_rel sha0_new [].
Proof. apply dig_rel_new; [lia|reflexivity]. Qed.

Transparent sha0_block fips_compress.
(** Test vectors of sha0_test.go:46-52. *)
From Coq Require Import String.
Example sha0_vec_abc :
  run sha0_impl sha0_new [Write (bytes_of_string "a"); Write (bytes_of_string "bc"); Sum []]
  = [Wrote 1; Wrote 2; Summed (hex "0164b8a914cd2a5e74c4f7ff082c4d97f1edf880")].
Proof. vm_compute. reflexivity. Qed.
