(** Chaskey.v -- model of /repo/chaskey (digest.go, utils.go) and proofs. *)
From Coq Require Import List NArith Arith Lia Bool.
From Verif Require Import Base Words HashAPI Buf Refine SpecChaskey.
Import ListNotations.

(** digest.go:22-33 *)
Record cdigest := mkcd { cs : cstate; cx : list N; cnx : nat; clen : N; ck1 : cstate; ck2 : cstate; cr : nat }.
(** utils.go:9-20 bytesToUint32s on 16 bytes, and binary.LittleEndian.Uint32(m[0:],m[4:],...) *)
Definition load4 (m : list N) : cstate :=
  (le_val (slice m 0 4), le_val (slice m 4 8), le_val (slice m 8 12), le_val (slice m 12 16)).
(** utils.go:36-42 timestwo *)
Definition timestwo (v : cstate) : cstate :=
  let '(i0, i1, i2, i3) := v in
  (N.lxor (shl32 i0 1) (at_ [0; 0x87]%N (N.to_nat (N.shiftr i3 31))),
   N.lor (shl32 i1 1) (N.shiftr i0 31), N.lor (shl32 i2 1) (N.shiftr i1 31), N.lor (shl32 i3 1) (N.shiftr i2 31)).
(** utils.go:55-69 (and 124-139): one round *)
Definition chaskey_round (v : cstate) : cstate :=
  let '(v0, v1, v2, v3) := v in
  let v0 := add32 v0 v1 in
  let v2 := add32 v2 v3 in
  let v1 := rotl32 v1 5 in
  let v3 := rotl32 v3 8 in
  let v1 := N.lxor v1 v0 in
  let v3 := N.lxor v3 v2 in
  let v0 := rotl32 v0 16 in
  let v0 := add32 v0 v3 in
  let v2 := add32 v2 v1 in
  let v3 := rotl32 v3 13 in
  let v1 := rotl32 v1 7 in
  let v3 := N.lxor v3 v0 in
  let v1 := N.lxor v1 v2 in
  let v2 := rotl32 v2 16 in
  (v0, v1, v2, v3).
Fixpoint chaskey_rounds (n : nat) (v : cstate) : cstate :=
  match n with O => v | S n' => chaskey_rounds n' (chaskey_round v) end.
Definition xor4s (a b : cstate) : cstate :=
  let '(a0, a1, a2, a3) := a in let '(b0, b1, b2, b3) := b in (N.lxor a0 b0, N.lxor a1 b1, N.lxor a2 b2, N.lxor a3 b3).
(** utils.go:44-72 block *)
Definition chaskey_block (r : nat) (s : cstate) (m : list N) : cstate := chaskey_rounds r (xor4s s (load4 m)).
(** utils.go:74-149 lastblock *)
Definition chaskey_last (d : cdigest) : cstate :=
  let '(l, lb) := if cnx d =? 16 then (ck1 d, load4 (cx d))
                  else (ck2 d, load4 (upd (copy_at (zeros 16) 0 (cx d)) (cnx d) 1%N)) in
  xor4s (chaskey_rounds (cr d) (xor4s (xor4s (cs d) lb) l)) l.
(** digest.go:49-57 Reset: also clears the subkeys *)
Definition chaskey_reset (d : cdigest) : cdigest := mkcd (0, 0, 0, 0)%N (zeros 16) 0 0 (0, 0, 0, 0)%N (0, 0, 0, 0)%N (cr d).
(** digest.go:35-47 newDigest, digest.go:115-121 expandKey; None = error *)
Definition chaskey_new (key : list N) (r : nat) : option cdigest :=
  if negb (length key =? 16) then None
  else let k := load4 key in
       Some (mkcd k (zeros 16) 0 0 (timestwo k) (timestwo (timestwo k)) r).
(** digest.go:83-86: for ; len(p) > BlockSize; p = p[BlockSize:] *)
Fixpoint chaskey_loop (fuel r : nat) (s : cstate) (nx : nat) (p : list N) : cstate * nat * list N :=
  match fuel with
  | O => (s, nx, p)
  | S f => if 16 <? length p then chaskey_loop f r (chaskey_block r s (firstn 16 p)) 0 (skipn 16 p) else (s, nx, p)
  end.
(** digest.go:67-93 Write *)
Definition chaskey_write (d : cdigest) (p : list N) : cdigest * nat :=
  let nn := length p in
  let '(s, x, nx, p) :=
    if 0 <? cnx d then
      let n := Nat.min (16 - cnx d) (length p) in
      let x := copy_at (cx d) (cnx d) p in
      if cnx d + n =? 16 then (chaskey_block (cr d) (cs d) x, x, 0, skipn n p)
      else (cs d, x, cnx d + n, skipn n p)
    else (cs d, cx d, cnx d, p) in
  let '(s, nx, p) := chaskey_loop (length p) (cr d) s nx p in
  let '(x, nx) := if 0 <? length p then (copy_at x 0 p, Nat.min 16 (length p)) else (x, nx) in
  (mkcd s x nx (add64 (clen d) (N.of_nat nn)) (ck1 d) (ck2 d) (cr d), nn).
(** utils.go:22-34 uint32sToBytes; digest.go:95-113 Sum/checkSum (on a copy) *)
Definition chaskey_sum (d : cdigest) (inp : list N) : cdigest * list N :=
  let '(s0, s1, s2, s3) := chaskey_last d in
  (d, inp ++ (le_bytes 4 s0 ++ le_bytes 4 s1 ++ le_bytes 4 s2 ++ le_bytes 4 s3)).
Definition chaskey_impl : impl cdigest := mkimpl chaskey_write chaskey_sum chaskey_reset.

(** * Proofs: one Write of the whole message gives the Chaskey tag. *)
Lemma chaskey_round_ok : forall v, chaskey_round v = cround_spec v.
Proof. intros [[[v0 v1] v2] v3]. reflexivity. Qed.
Lemma chaskey_rounds_ok : forall n v, chaskey_rounds n v = Nat.iter n cround_spec v.
Proof.
  induction n; intros v; auto. cbn [chaskey_rounds]. rewrite IHn, chaskey_round_ok.
  clear. induction n; auto. simpl. now rewrite IHn.
Qed.
Definition ok4 (v : cstate) : Prop := let '(a, b, c, d) := v in is32 a /\ is32 b /\ is32 c /\ is32 d.
Lemma cround_ok4 : forall v, ok4 v -> ok4 (cround_spec v).
Proof.
  intros [[[v0 v1] v2] v3] (H0 & H1 & H2 & H3). unfold cround_spec, ok4.
  repeat split; repeat (apply lxor_is32 || apply add32_is32 || apply rotl32_is32 || assumption).
Qed.
Lemma iter_ok4 : forall n v, ok4 v -> ok4 (Nat.iter n cround_spec v).
Proof. induction n; intros; auto. simpl. apply cround_ok4. auto. Qed.

Lemma testbit_w32 : forall x i, N.testbit (w32 x) i = N.testbit x i && (i <? 32)%N.
Proof.
  intros. unfold w32. change 4294967295%N with (N.ones 32). rewrite N.land_spec. f_equal.
  destruct (N.ltb_spec i 32); [now apply N.ones_spec_low|now apply N.ones_spec_high].
Qed.
Lemma w32_lxor : forall a b, w32 (N.lxor a b) = N.lxor (w32 a) (w32 b).
Proof. intros. apply N.bits_inj. intros i. rewrite testbit_w32, !N.lxor_spec, !testbit_w32. destruct (i <? 32)%N; now rewrite ?andb_true_r, ?andb_false_r. Qed.
Lemma words_lxor : forall a b, words_of (N.lxor a b) = xor4s (words_of a) (words_of b).
Proof. intros. unfold words_of, xor4s. rewrite !N.shiftr_lxor, !w32_lxor. reflexivity. Qed.
Lemma of_words_lor : forall v0 v1 v2 v3, ok4 (v0, v1, v2, v3) ->
  of_words (v0, v1, v2, v3) = N.lor v0 (N.shiftl (N.lor v1 (N.shiftl (N.lor v2 (N.shiftl v3 32)) 32)) 32).
Proof.
  intros v0 v1 v2 v3 (H0 & H1 & H2 & H3). unfold is32 in *.
  rewrite <- (add_shift_lor v2) by assumption. rewrite <- (add_shift_lor v1) by assumption. rewrite <- (add_shift_lor v0) by assumption.
  unfold of_words. change (2 ^ 96)%N with (2 ^ 32 * (2 ^ 32 * 2 ^ 32))%N. change (2 ^ 64)%N with (2 ^ 32 * 2 ^ 32)%N.
  generalize (2 ^ 32)%N. intros. ring.
Qed.
Lemma w32_shift_lor : forall a b, is32 a -> w32 (N.lor a (N.shiftl b 32)) = a /\ N.shiftr (N.lor a (N.shiftl b 32)) 32 = b.
Proof.
  intros a b H. unfold is32 in H. split; apply N.bits_inj; intros i.
  - rewrite testbit_w32, N.lor_spec. destruct (N.ltb_spec i 32).
    + rewrite N.shiftl_spec_low by assumption. now rewrite orb_false_r, andb_true_r.
    + rewrite (proj1 (lt_pow2_bits 32 a) H i) by assumption. apply andb_false_r.
  - rewrite N.shiftr_spec', N.lor_spec, N.shiftl_spec_high' by lia.
    rewrite (proj1 (lt_pow2_bits 32 a) H (i + 32)%N) by lia. cbn [orb]. f_equal. lia.
Qed.
Lemma words_of_words : forall v, ok4 v -> words_of (of_words v) = v.
Proof.
  intros [[[v0 v1] v2] v3] H. rewrite of_words_lor by assumption. destruct H as (H0 & H1 & H2 & H3). unfold words_of.
  replace 96%N with (32 + 32 + 32)%N by reflexivity. replace 64%N with (32 + 32)%N by reflexivity.
  rewrite <- !N.shiftr_shiftr.
  rewrite (proj2 (w32_shift_lor v0 _ H0)), (proj1 (w32_shift_lor v0 _ H0)).
  rewrite (proj2 (w32_shift_lor v1 _ H1)), (proj1 (w32_shift_lor v1 _ H1)).
  rewrite (proj2 (w32_shift_lor v2 _ H2)), (proj1 (w32_shift_lor v2 _ H2)). now rewrite w32_eq.
Qed.
Lemma words_of_ok4 : forall b, ok4 (words_of b).
Proof. intros. repeat split; apply w32_is32. Qed.
Lemma of_words_lt : forall v, ok4 v -> (of_words v < 2 ^ 128)%N.
Proof.
  intros [[[v0 v1] v2] v3] (H0 & H1 & H2 & H3). unfold is32, of_words in *.
  change (2 ^ 32)%N with 4294967296%N in *. change (2 ^ 64)%N with (4294967296 * 4294967296)%N.
  change (2 ^ 96)%N with (4294967296 * 4294967296 * 4294967296)%N.
  change (2 ^ 128)%N with (4294967296 * 4294967296 * 4294967296 * 4294967296)%N. lia.
Qed.
Lemma of_words_of : forall b, (b < 2 ^ 128)%N -> of_words (words_of b) = b.
Proof.
  intros b H. unfold words_of. rewrite of_words_lor by apply words_of_ok4. apply N.bits_inj. intros i.
  repeat rewrite N.lor_spec. rewrite testbit_w32.
  destruct (N.ltb_spec i 32) as [L0|L0].
  { rewrite N.shiftl_spec_low by assumption. now rewrite orb_false_r, andb_true_r. }
  rewrite andb_false_r. cbn [orb]. rewrite N.shiftl_spec_high' by assumption. repeat rewrite N.lor_spec. rewrite testbit_w32, N.shiftr_spec'.
  destruct (N.ltb_spec (i - 32) 32) as [L1|L1].
  { rewrite N.shiftl_spec_low by assumption. rewrite orb_false_r, andb_true_r. f_equal. lia. }
  rewrite andb_false_r. cbn [orb]. rewrite N.shiftl_spec_high' by assumption. repeat rewrite N.lor_spec. rewrite testbit_w32, N.shiftr_spec'.
  destruct (N.ltb_spec (i - 32 - 32) 32) as [L2|L2].
  { rewrite N.shiftl_spec_low by assumption. rewrite orb_false_r, andb_true_r. f_equal. lia. }
  rewrite andb_false_r. cbn [orb]. rewrite N.shiftl_spec_high' by assumption. rewrite testbit_w32, N.shiftr_spec'.
  destruct (N.ltb_spec (i - 32 - 32 - 32) 32) as [L3|L3].
  { rewrite andb_true_r. f_equal. lia. }
  rewrite andb_false_r. symmetry. apply (proj1 (lt_pow2_bits 128 b) H). lia.
Qed.
Lemma of_words_xor : forall a b, ok4 a -> ok4 b -> of_words (xor4s a b) = N.lxor (of_words a) (of_words b).
Proof.
  intros a b Ha Hb. rewrite <- (words_of_words a Ha), <- (words_of_words b Hb) at 1. rewrite <- words_lxor.
  apply of_words_of. apply lxor_lt; now apply of_words_lt.
Qed.
Lemma xor4s_ok : forall a b, ok4 a -> ok4 b -> ok4 (xor4s a b).
Proof. intros [[[a0 a1] a2] a3] [[[b0 b1] b2] b3] (?&?&?&?) (?&?&?&?). repeat split; now apply lxor_is32. Qed.
Lemma slice_isbytes : forall m a b, isbytes m -> isbytes (slice m a b).
Proof. intros. unfold slice. now apply isbytes_firstn, isbytes_skipn. Qed.
Lemma load4_ok : forall m, isbytes m -> length m = 16 -> ok4 (load4 m) /\ of_words (load4 m) = le_val m.
Proof.
  intros m Hm L. assert (O : ok4 (load4 m)).
  { unfold load4. repeat split; unfold is32;
      (match goal with |- (le_val ?l < _)%N => pose proof (le_val_lt l (slice_isbytes m _ _ Hm)) as K end;
       unfold slice in K; rewrite firstn_length, skipn_length, L in K; exact K). }
  split; auto. unfold load4, of_words.
  assert (E : m = slice m 0 4 ++ slice m 4 8 ++ slice m 8 12 ++ slice m 12 16).
  { unfold slice. cbn [Nat.sub skipn]. rewrite <- (firstn_skipn 4 m) at 1. f_equal.
    rewrite <- (firstn_skipn 4 (skipn 4 m)) at 1. f_equal. rewrite skipn_skipn. cbn [plus].
    rewrite <- (firstn_skipn 4 (skipn 8 m)) at 1. f_equal. rewrite skipn_skipn. cbn [plus].
    symmetry. apply firstn_all2. rewrite skipn_length. lia. }
  rewrite E at 5. rewrite !le_val_app.
  assert (S4 : forall a, a + 4 <= 16 -> length (slice m a (a + 4)) = 4) by (intros; unfold slice; rewrite firstn_length, skipn_length; lia).
  pose proof (S4 0 ltac:(lia)) as Z0. pose proof (S4 4 ltac:(lia)) as Z1. pose proof (S4 8 ltac:(lia)) as Z2.
  cbn [plus] in Z0, Z1, Z2. rewrite Z0, Z1, Z2. change (N.of_nat (8 * 4)) with 32%N.
  change (2 ^ 96)%N with (2 ^ 32 * (2 ^ 32 * 2 ^ 32))%N. change (2 ^ 64)%N with (2 ^ 32 * 2 ^ 32)%N.
  generalize (2 ^ 32)%N. intros. ring.
Qed.
Lemma times2_lt : forall k, (k < 2 ^ 128)%N -> (times2 k < 2 ^ 128)%N.
Proof. intros. unfold times2. apply lxor_lt. apply N.mod_lt. discriminate. destruct (N.testbit k 127); reflexivity. Qed.
Lemma timestwo_ok : forall k, (k < 2 ^ 128)%N -> timestwo (words_of k) = words_of (times2 k).
Proof.
  intros k H. unfold times2. rewrite words_lxor. unfold timestwo, words_of at 1 2.
  assert (B : forall c i, (c + i < 128)%N -> N.testbit (w32 (N.shiftr ((2 * k) mod 2 ^ 128) c)) i =
              if (i <? 32)%N then (if (c + i =? 0)%N then false else N.testbit k (c + i - 1)) else false).
  { intros c i Hc. rewrite testbit_w32, N.shiftr_spec'. rewrite N.mod_pow2_bits_low by lia.
    destruct (i <? 32)%N; [|apply andb_false_r]. rewrite andb_true_r.
    destruct (N.eqb_spec (c + i) 0) as [E|E].
    - replace (i + c)%N with 0%N by lia. apply N.testbit_even_0.
    - replace (i + c)%N with (N.succ (c + i - 1)) by lia. apply N.testbit_even_succ. lia. }
  assert (S : forall x i, N.testbit (shl32 x 1) i = if (i <? 32)%N then (if (i =? 0)%N then false else N.testbit x (i - 1)) else false).
  { intros x i. unfold shl32. rewrite testbit_w32. destruct (N.ltb_spec i 32); [|apply andb_false_r]. rewrite andb_true_r.
    destruct (N.eqb_spec i 0) as [->|]; [apply N.shiftl_spec_low; lia|]. apply N.shiftl_spec_high'. lia. }
  assert (Hi : forall c i, (c + 32 <= 128)%N -> (i <? 32)%N = false -> N.testbit (w32 (N.shiftr ((2 * k) mod 2 ^ 128) c)) i = false).
  { intros c i _ L. rewrite testbit_w32, L. apply andb_false_r. }
  assert (G : forall c, (c + 64 <= 128)%N ->
     N.lor (shl32 (w32 (N.shiftr k (c + 32))) 1) (N.shiftr (w32 (N.shiftr k c)) 31) = w32 (N.shiftr ((2 * k) mod 2 ^ 128) (c + 32))).
  { intros c Hc. apply N.bits_inj. intros i. rewrite N.lor_spec, S, N.shiftr_spec', !testbit_w32, !N.shiftr_spec'.
    destruct (N.ltb_spec i 32) as [L|L].
    - pose proof (B (c + 32)%N i ltac:(lia)) as Bi. rewrite testbit_w32, N.shiftr_spec' in Bi.
      rewrite (proj2 (N.ltb_lt i 32) L) in Bi. rewrite Bi. clear Bi.
      destruct (N.eqb_spec i 0) as [->|Hi0].
      + change (0 + 31 <? 32)%N with true. cbn [orb]. rewrite andb_true_r.
        destruct (N.eqb_spec (c + 32 + 0) 0); [lia|]. f_equal. lia.
      + replace (i + 31 <? 32)%N with false by (symmetry; apply N.ltb_ge; lia). rewrite andb_false_r, orb_false_r.
        replace (i - 1 <? 32)%N with true by (symmetry; apply N.ltb_lt; lia). rewrite andb_true_r.
        destruct (N.eqb_spec (c + 32 + i) 0); [lia|]. f_equal. lia.
    - replace (i + 31 <? 32)%N with false by (symmetry; apply N.ltb_ge; lia).
      now rewrite !andb_false_r. }
  assert (T : N.to_nat (N.shiftr (w32 (N.shiftr k 96)) 31) = if N.testbit k 127 then 1 else 0).
  { assert (E : N.shiftr (w32 (N.shiftr k 96)) 31 = N.b2n (N.testbit k 127)).
    { apply N.bits_inj. intros i. rewrite N.shiftr_spec', testbit_w32, N.shiftr_spec'.
      destruct (N.eqb_spec i 0) as [->|Hi0].
      - rewrite N.b2n_bit0. now rewrite andb_true_r.
      - replace (i + 31 <? 32)%N with false by (symmetry; apply N.ltb_ge; lia). rewrite andb_false_r.
        destruct i as [|q]; [lia|]. destruct (N.testbit k 127); reflexivity. }
    rewrite E. destruct (N.testbit k 127); reflexivity. }
  rewrite T.
  assert (G0 : shl32 (w32 k) 1 = w32 ((2 * k) mod 2 ^ 128)).
  { apply N.bits_inj. intros i. rewrite S. pose proof (B 0%N i) as Bi. rewrite N.shiftr_0_r in Bi.
    destruct (N.ltb_spec i 32) as [L|L].
    - rewrite Bi by lia. replace (0 + i)%N with i by lia. destruct (N.eqb_spec i 0); auto.
      rewrite testbit_w32. replace (i - 1 <? 32)%N with true by (symmetry; apply N.ltb_lt; lia). now rewrite andb_true_r.
    - rewrite testbit_w32. replace (i <? 32)%N with false by (symmetry; now apply N.ltb_ge). now rewrite andb_false_r. }
  pose proof (G 0%N ltac:(lia)) as G1. pose proof (G 32%N ltac:(lia)) as G2. pose proof (G 64%N ltac:(lia)) as G3.
  rewrite N.shiftr_0_r in G1. change (0 + 32)%N with 32%N in G1. change (32 + 32)%N with 64%N in G2. change (64 + 32)%N with 96%N in G3.
  rewrite G0, G1, G2, G3. destruct (N.testbit k 127); cbn [at_ nth]; unfold xor4s, words_of.
  - change (w32 0x87) with 0x87%N. change (w32 (N.shiftr 0x87 32)) with 0%N. change (w32 (N.shiftr 0x87 64)) with 0%N.
    change (w32 (N.shiftr 0x87 96)) with 0%N. now rewrite !N.lxor_0_r.
  - change (w32 0) with 0%N. change (w32 (N.shiftr 0 32)) with 0%N. change (w32 (N.shiftr 0 64)) with 0%N.
    change (w32 (N.shiftr 0 96)) with 0%N. now rewrite !N.lxor_0_r.
Qed.

Lemma chaskey_block_ok : forall r s m, ok4 s -> isbytes m -> length m = 16 ->
  ok4 (chaskey_block r s m) /\ of_words (chaskey_block r s m) = chaskey_pi r (N.lxor (of_words s) (le_val m)).
Proof.
  intros r s m Hs Hm L. destruct (load4_ok m Hm L) as [O E]. unfold chaskey_block. rewrite chaskey_rounds_ok.
  pose proof (xor4s_ok s (load4 m) Hs O) as X. split; [now apply iter_ok4|].
  unfold chaskey_pi. do 2 f_equal. rewrite <- E, <- of_words_xor by assumption. symmetry. now apply words_of_words.
Qed.
Lemma nlast_step : forall (p : list N), 16 < length p -> nlast p = 16 + nlast (skipn 16 p).
Proof.
  intros p H. unfold nlast. rewrite skipn_length. replace (length p - 1) with ((length p - 16 - 1) + 1 * 16) by lia.
  rewrite Nat.div_add by lia. lia.
Qed.
Lemma chaskey_loop_ok : forall r fuel s nx p, length p <= fuel + 16 -> ok4 s -> isbytes p ->
  exists s' nx', chaskey_loop fuel r s nx p = (s', nx', skipn (nlast p) p) /\ ok4 s' /\
  of_words s' = fold_left (fun h b => chaskey_pi r (N.lxor h (le_val b))) (chunks 16 (firstn (nlast p) p)) (of_words s) /\
  (nx = 0 -> nx' = 0).
Proof.
  intros r. induction fuel as [|f IH]; intros s nx p Hl Hs Hp.
  - assert (nlast p = 0) as E. { unfold nlast. rewrite Nat.div_small by lia. reflexivity. }
    rewrite E. exists s, nx. simpl. auto.
  - cbn [chaskey_loop]. destruct (Nat.ltb_spec 16 (length p)) as [G|G].
    + destruct (chaskey_block_ok r s (firstn 16 p) Hs) as [O E].
      { now apply isbytes_firstn. } { rewrite firstn_length. lia. }
      destruct (IH (chaskey_block r s (firstn 16 p)) 0 (skipn 16 p)) as (s' & nx' & L & O' & E' & Z').
      { rewrite skipn_length. lia. } { exact O. } { now apply isbytes_skipn. }
      exists s', nx'. rewrite L, (nlast_step p G). rewrite skipn_skipn. split; auto. split; auto. split; auto.
      rewrite E', E. rewrite (chunks_cons N 16 (firstn (16 + nlast (skipn 16 p)) p)); [|lia|rewrite firstn_length; lia].
      cbn [fold_left]. rewrite firstn_firstn. replace (Nat.min 16 (16 + nlast (skipn 16 p))) with 16 by lia.
      f_equal. f_equal. rewrite skipn_firstn_comm. f_equal. lia.
    + assert (nlast p = 0) as E. { unfold nlast. rewrite Nat.div_small by lia. reflexivity. }
      rewrite E. exists s, nx. simpl. auto.
Qed.

Lemma le16_words : forall v, ok4 v -> let '(s0, s1, s2, s3) := v in
  le_bytes 4 s0 ++ le_bytes 4 s1 ++ le_bytes 4 s2 ++ le_bytes 4 s3 = le_bytes 16 (of_words v).
Proof.
  intros v H. pose proof (words_of_words v H) as W. destruct v as [[[s0 s1] s2] s3].
  set (b := of_words (s0, s1, s2, s3)) in *. clearbody b. unfold words_of in W.
  assert (W0 : s0 = w32 b) by congruence. assert (W1 : s1 = w32 (N.shiftr b 32)) by congruence.
  assert (W2 : s2 = w32 (N.shiftr b 64)) by congruence. assert (W3 : s3 = w32 (N.shiftr b 96)) by congruence.
  rewrite W0, W1, W2, W3. clear. rewrite !le_bytes4_w32. change 16 with (4 + (4 + (4 + 4))). rewrite !le_bytes_app.
  rewrite !N.shiftr_shiftr. reflexivity.
Qed.
Lemma upd_zeros_app : forall k r (v : N), k = length r -> k < 16 -> upd (copy_at (zeros 16) 0 (copy_at (zeros 16) 0 r)) k v = r ++ v :: zeros (15 - k).
Proof.
  intros k r v -> H. assert (E : copy_at (zeros 16) 0 r = r ++ zeros (16 - length r)).
  { unfold copy_at. rewrite zeros_length, firstn_O, firstn_all2 by lia. cbn [app plus].
    rewrite skipn_zeros. f_equal. f_equal. lia. }
  rewrite E. unfold copy_at. rewrite zeros_length, app_length, zeros_length, firstn_O. cbn [app plus].
  rewrite firstn_all2 by (rewrite app_length, zeros_length; lia).
  rewrite skipn_zeros. replace (16 - Nat.min (16 - 0) (length r + (16 - length r))) with 0 by lia.
  cbn [zeros repeat]. rewrite app_nil_r. replace (16 - length r) with (S (15 - length r)) by lia.
  cbn [zeros repeat]. apply upd_app_at.
Qed.
Lemma chaskey_oneshot_lemma : forall key r m d, chaskey_new key r = Some d -> isbytes key -> isbytes m ->
  forall inp, snd (chaskey_sum (fst (chaskey_write d m)) inp) = inp ++ chaskey_spec r key m.
Proof.
  intros key r m d Hn Hk Hm inp. unfold chaskey_new in Hn.
  destruct (Nat.eqb_spec (length key) 16) as [Lk|]; [|discriminate]. cbn [negb] in Hn. apply some_inj in Hn. subst d.
  destruct (load4_ok key Hk Lk) as [O0 E0].
  unfold chaskey_write. cbn [cnx cs cx cr ck1 ck2 clen]. change (0 <? 0) with false. cbv iota beta.
  destruct (chaskey_loop_ok r (length m) (load4 key) 0 m) as (s' & nx' & L & O & E & Z); [lia|auto|auto|].
  rewrite L. rewrite (Z eq_refl). clear Z.
  set (last := skipn (nlast m) m).
  assert (NL : nlast m <= length m /\ length m <= nlast m + 16 /\ (0 < length m -> nlast m < length m)).
  { unfold nlast. pose proof (Nat.div_mod (length m - 1) 16 ltac:(lia)). pose proof (Nat.mod_upper_bound (length m - 1) 16 ltac:(lia)). lia. }
  assert (LL : length last = length m - nlast m) by apply skipn_length.
  assert (HL : isbytes last) by now apply isbytes_skipn.
  unfold chaskey_sum, chaskey_spec. fold last. rewrite E0 in E. rewrite <- E.
  assert (HK : (le_val key < 2 ^ 128)%N) by (rewrite <- E0; now apply of_words_lt).
  assert (W1 : load4 key = words_of (le_val key)) by (rewrite <- E0; symmetry; now apply words_of_words).
  assert (KT1 : timestwo (load4 key) = words_of (times2 (le_val key))) by (rewrite W1; now apply timestwo_ok).
  assert (KT2 : timestwo (timestwo (load4 key)) = words_of (times2 (times2 (le_val key)))).
  { rewrite KT1. apply timestwo_ok. now apply times2_lt. }
  assert (FIN : forall lb l bb, isbytes lb -> length lb = 16 -> le_val lb = bb -> (l < 2 ^ 128)%N ->
     ok4 (xor4s (chaskey_rounds r (xor4s (xor4s s' (load4 lb)) (words_of l))) (words_of l)) /\
     of_words (xor4s (chaskey_rounds r (xor4s (xor4s s' (load4 lb)) (words_of l))) (words_of l)) =
       N.lxor (chaskey_pi r (N.lxor (N.lxor (of_words s') bb) l)) l).
  { intros lb l bb Hlb Llb <- Hl. destruct (load4_ok lb Hlb Llb) as [Ob Eb].
    pose proof (words_of_ok4 l) as Ol. pose proof (xor4s_ok _ _ O Ob) as X1. pose proof (xor4s_ok _ _ X1 Ol) as X2.
    rewrite chaskey_rounds_ok. pose proof (iter_ok4 r _ X2) as X3. split; [now apply xor4s_ok|].
    rewrite of_words_xor by assumption. rewrite (of_words_of l) by assumption. f_equal. unfold chaskey_pi. do 2 f_equal.
    rewrite <- (words_of_words _ X2). f_equal. rewrite of_words_xor by assumption. rewrite of_words_xor by assumption.
    now rewrite Eb, of_words_of. }
  assert (S16 : forall (d' : cdigest) v, ok4 v ->
     snd (let '(s0, s1, s2, s3) := v in (d', inp ++ le_bytes 4 s0 ++ le_bytes 4 s1 ++ le_bytes 4 s2 ++ le_bytes 4 s3)) = inp ++ le_bytes 16 (of_words v)).
  { intros d' v Hv. pose proof (le16_words v Hv) as K. destruct v as [[[? ?] ?] ?]. cbn [snd]. now rewrite K. }
  destruct (Nat.ltb_spec 0 (length last)) as [G|G].
  - replace (Nat.min 16 (length last)) with (length last) by lia. cbn [fst].
    unfold chaskey_last at 1. cbn [cnx ck1 ck2 cx cs cr].
    destruct (Nat.eqb_spec (length last) 16) as [F|F].
    + rewrite KT1.
      assert (CE : copy_at (zeros 16) 0 last = last).
      { rewrite <- (app_nil_r last) at 1. rewrite copy_at_0_app; [reflexivity|now rewrite zeros_length]. }
      rewrite CE. destruct (FIN last (times2 (le_val key)) _ HL F eq_refl (times2_lt _ HK)) as [P Q].
      cbv iota beta. etransitivity; [exact (S16 _ _ P)|]. now rewrite Q.
    + rewrite KT2, (upd_zeros_app (length last) last) by lia.
      set (lb := last ++ 1%N :: zeros (15 - length last)).
      assert (Hlb : isbytes lb). { unfold lb. apply isbytes_app. split; auto. constructor; [reflexivity|apply zeros_isbytes]. }
      assert (Llb : length lb = 16) by (unfold lb; rewrite app_length; cbn [length]; rewrite zeros_length; lia).
      assert (Vlb : le_val lb = le_val (last ++ [1%N])).
      { unfold lb. change (1%N :: zeros (15 - length last)) with ([1%N] ++ zeros (15 - length last)).
        rewrite app_assoc, (le_val_app (last ++ [1%N])), le_val_zeros. lia. }
      destruct (FIN lb (times2 (times2 (le_val key))) _ Hlb Llb Vlb (times2_lt _ (times2_lt _ HK))) as [P Q].
      cbv iota beta. etransitivity; [exact (S16 _ _ P)|]. now rewrite Q.
  - assert (EL : last = []) by (apply length_zero_iff_nil; lia).
    rewrite EL. cbn [fst app]. change (length (@nil N) =? 16) with false. cbv iota beta.
    unfold chaskey_last at 1. cbn [cnx ck1 ck2 cx cs cr]. change (0 =? 16) with false. cbv iota beta. rewrite KT2.
    set (lb := upd (copy_at (zeros 16) 0 (zeros 16)) 0 1%N).
    assert (Hlb : isbytes lb) by (vm_compute; repeat constructor).
    assert (Llb : length lb = 16) by reflexivity. assert (Vlb : le_val lb = le_val [1%N]) by reflexivity.
    destruct (FIN lb (times2 (times2 (le_val key))) _ Hlb Llb Vlb (times2_lt _ (times2_lt _ HK))) as [P Q].
    etransitivity; [exact (S16 _ _ P)|]. now rewrite Q.
Qed.
