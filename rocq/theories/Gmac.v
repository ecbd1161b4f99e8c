(** Gmac.v -- model of /repo/gmac/gmac.go and /repo/gmac/gcm/gcm_generic.go, and proofs.
    The generic Go implementation of GHASH is modelled, not the assembly one (gcm_asm.go, *.s).
    The block cipher is a function [E] on 16-byte blocks. *)
From Coq Require Import List NArith Arith Lia Bool.
From Verif Require Import Base Words HashAPI Buf Refine SpecCmac SpecGmac.
Import ListNotations.

(** gcm.go:24-33 GCMFieldElement {Low, High} *)
Definition gfe := (N * N)%type.
(** gcm_generic.go:30-34 reverseBits *)
Definition reverseBits (i : nat) : nat :=
  let i := N.of_nat i in
  let i := N.lor (N.land (N.shiftl i 2) 0xc) (N.land (N.shiftr i 2) 0x3) in
  let i := N.lor (N.land (N.shiftl i 1) 0xa) (N.land (N.shiftr i 1) 0x5) in
  N.to_nat i.
(** gcm_generic.go:37-40 gcmAdd *)
Definition gcmAdd (x y : gfe) : gfe := (N.lxor (fst x) (fst y), N.lxor (snd x) (snd y)).
(** gcm_generic.go:43-63 gcmDouble *)
Definition gcmDouble (x : gfe) : gfe :=
  let '(low, high) := x in
  let msbSet := (N.land high 1 =? 1)%N in
  let dhigh := N.shiftr high 1 in
  let dhigh := N.lor dhigh (shl64 low 63) in
  let dlow := N.shiftr low 1 in
  let dlow := if msbSet then N.lxor dlow 0xe100000000000000 else dlow in
  (dlow, dhigh).
(** table access *)
Definition tab (t : list gfe) (i : nat) : gfe := nth i t (0, 0)%N.
(** gcm_generic.go:8-27 gcmInitGo: the product table of H = E(0) *)
Definition gcm_table (key : list N) : list gfe :=
  let x := (be_val (slice key 0 8), be_val (slice key 8 16)) in
  let t := upd (repeat (0, 0)%N 16) (reverseBits 1) x in
  fold_left (fun t i =>
    let t := upd t (reverseBits i) (gcmDouble (tab t (reverseBits (i / 2)))) in
    upd t (reverseBits (i + 1)) (gcmAdd (tab t (reverseBits i)) x)) [2; 4; 6; 8; 10; 12; 14] t.
Definition gcmInit (E : list N -> list N) : list gfe := gcm_table (E (zeros 16)).
(** gcm_generic.go:65-68 *)
Definition gcmReductionTable : list N :=
  [0x0000; 0x1c20; 0x3840; 0x2460; 0x7080; 0x6ca0; 0x48c0; 0x54e0;
   0xe100; 0xfd20; 0xd940; 0xc560; 0x9180; 0x8da0; 0xa9c0; 0xb5e0]%N.
(** gcm_generic.go:83-99: one step of the inner loop; (z, word) *)
Definition gcmMul_step (t : list gfe) (zw : gfe * N) : gfe * N :=
  let '((low, high), word) := zw in
  let msw := N.land high 0xf in
  let high := N.shiftr high 4 in
  let high := N.lor high (shl64 low 60) in
  let low := N.shiftr low 4 in
  let low := N.lxor low (shl64 (at_ gcmReductionTable (N.to_nat msw)) 48) in
  let e := tab t (N.to_nat (N.land word 0xf)) in
  ((N.lxor low (fst e), N.lxor high (snd e)), N.shiftr word 4).
(** gcm_generic.go:71-103 gcmMul: 16 steps on y.High, then 16 on y.Low *)
Definition gcmMul (t : list gfe) (y : gfe) : gfe :=
  let '(z, _) := Nat.iter 16 (gcmMul_step t) ((0, 0)%N, snd y) in
  let '(z, _) := Nat.iter 16 (gcmMul_step t) (z, fst y) in
  z.
(** gcm_generic.go:107-114 gcmUpdateBlocksGo, one block *)
Definition gcm_block (t : list gfe) (y : gfe) (b : list N) : gfe :=
  gcmMul t (N.lxor (fst y) (be_val (slice b 0 8)), N.lxor (snd y) (be_val (slice b 8 16))).
Fixpoint gcm_blocks (fuel : nat) (t : list gfe) (y : gfe) (blocks : list N) : gfe :=
  match fuel with
  | O => y
  | S f => if 0 <? length blocks then gcm_blocks f t (gcm_block t y blocks) (skipn 16 blocks) else y
  end.
(** gcm_generic.go:118-127 gcmUpdateGo (and gcm.go:62-68 Update, which skips empty input) *)
Definition gcmUpdate (t : list gfe) (y : gfe) (data : list N) : gfe :=
  let fullBlocks := length data / 16 * 16 in
  let y := gcm_blocks (length data) t y (firstn fullBlocks data) in
  if negb (length data =? fullBlocks) then gcm_blocks 1 t y (copy_at (zeros 16) 0 (skipn fullBlocks data))
  else y.
(** gcm_generic.go:132-150 gcmDeriveCounterGo *)
Definition gcmDeriveCounter (t : list gfe) (nonce : list N) : list N :=
  let counter := zeros 16 in
  if length nonce =? 12 then upd (copy_at counter 0 nonce) 15 1%N
  else
    let y := gcmUpdate t (0, 0)%N nonce in
    let y := gcmMul t (fst y, N.lxor (snd y) (mul64 (w64 (N.of_nat (length nonce))) 8)) in
    copy_at (copy_at counter 0 (be_bytes 8 (fst y))) 8 (be_bytes 8 (snd y)).
(** gcm_generic.go:162-172 gcmFinishGo; the result is the contents of out *)
Definition gcmFinish (t : list gfe) (out : list N) (y : gfe) (clen alen : N) (tagMask : list N) : list N :=
  let y := (N.lxor (fst y) (mul64 (w64 alen) 8), N.lxor (snd y) (mul64 (w64 clen) 8)) in
  let y := gcmMul t y in
  let out := copy_at (copy_at out 0 (be_bytes 8 (fst y))) 8 (be_bytes 8 (snd y)) in
  copy_at out 0 (xorblk out tagMask).

(** gmac.go:18-27 *)
Record gdig := mkgd { gtab : list gfe; gmask : list N; gy : gfe; grem : list N; gidx : nat; gwritten : N }.
(** gmac.go:30-50 New (the cipher has 16-byte blocks) *)
Definition gmac_new (E : list N -> list N) (iv : list N) : gdig :=
  let iv := if length iv =? 0 then zeros 12 else iv in
  let t := gcmInit E in
  mkgd t (E (gcmDeriveCounter t iv)) (0, 0)%N (zeros 16) 0 0.
(** gmac.go:60-64 Reset *)
Definition gmac_reset (d : gdig) : gdig := mkgd (gtab d) (gmask d) (0, 0)%N (grem d) 0 0.
(** gmac.go:66-96 Write *)
Definition gmac_write_tail (d : gdig) (n : nat) (b : list N) : gdig * nat :=
  let full := length b / 16 * 16 in
  let '(d, n, b) :=
    if 0 <? full then
      (mkgd (gtab d) (gmask d) (gcmUpdate (gtab d) (gy d) (firstn full b)) (grem d) (gidx d) (gwritten d + N.of_nat full)%N,
       n + full, skipn full b)
    else (d, n, b) in
  if 0 <? length b then
    (mkgd (gtab d) (gmask d) (gy d) (copy_at (grem d) 0 b) (Nat.min 16 (length b)) (gwritten d), n + Nat.min 16 (length b))
  else (d, n).
Definition gmac_write (d : gdig) (b : list N) : gdig * nat :=
  if 0 <? gidx d then
    let n := Nat.min (16 - gidx d) (length b) in
    let rem := copy_at (grem d) (gidx d) b in
    let d1 := mkgd (gtab d) (gmask d) (gy d) rem (gidx d + n) (gwritten d + N.of_nat n)%N in
    if gidx d + n <? 16 then (d1, n)
    else gmac_write_tail (mkgd (gtab d) (gmask d) (gcmUpdate (gtab d) (gy d) rem) rem 0 (gwritten d + N.of_nat n)%N)
           n (skipn n b)
  else gmac_write_tail d 0 b.
(** gmac.go:98-111 Sum, gmac.go:113-123 SliceForAppend(b, len(b)+16).  [b] has no spare capacity,
    so a fresh zeroed slice of 2*len(b)+16 bytes is returned. *)
Definition gmac_sum (d : gdig) (b : list N) : gdig * list N :=
  let written := (gwritten d + N.of_nat (gidx d))%N in
  let yy := if 0 <? gidx d then gcmUpdate (gtab d) (gy d) (firstn (gidx d) (grem d)) else gy d in
  let total := length b + (length b + 16) in
  let head := copy_at (zeros total) 0 b in
  let out := skipn (length b) head in
  (d, firstn (length b) head ++ gcmFinish (gtab d) out yy 0 written (gmask d)).
Definition gmac_impl : impl gdig := mkimpl gmac_write gmac_sum gmac_reset.

(** * Proofs *)
Definition val (p : gfe) : N := (fst p * 2 ^ 64 + snd p)%N.
Definition ok2 (p : gfe) : Prop := is64 (fst p) /\ is64 (snd p).
Lemma val_lor : forall l h, is64 h -> val (l, h) = N.lor h (N.shiftl l 64).
Proof. intros l h H. unfold val. cbn [fst snd]. rewrite N.add_comm. now apply add_shift_lor. Qed.
Lemma val_bits : forall l h i, is64 h -> N.testbit (val (l, h)) i = if (i <? 64)%N then N.testbit h i else N.testbit l (i - 64).
Proof.
  intros l h i H. rewrite val_lor by assumption. rewrite N.lor_spec. destruct (N.ltb_spec i 64).
  - rewrite N.shiftl_spec_low by assumption. apply orb_false_r.
  - rewrite N.shiftl_spec_high' by assumption. rewrite (proj1 (lt_pow2_bits 64 h) H i) by assumption. reflexivity.
Qed.
Lemma is64_bit : forall x i, is64 x -> (64 <= i)%N -> N.testbit x i = false.
Proof. intros x i H. apply (proj1 (lt_pow2_bits 64 x) H). Qed.
Lemma val_xor : forall a b c d, is64 b -> is64 d -> val (N.lxor a c, N.lxor b d) = N.lxor (val (a, b)) (val (c, d)).
Proof.
  intros a b c d Hb Hd. apply N.bits_inj. intros i. rewrite N.lxor_spec, !val_bits by (auto; now apply lxor_is64).
  destruct (i <? 64)%N; now rewrite N.lxor_spec.
Qed.
Lemma w64_testbit : forall x i, N.testbit (w64 x) i = andb (i <? 64)%N (N.testbit x i).
Proof.
  intros. unfold w64. change 18446744073709551615%N with (N.ones 64). rewrite N.land_spec.
  destruct (N.ltb_spec i 64).
  - rewrite N.ones_spec_low by assumption. now rewrite andb_true_r.
  - rewrite N.ones_spec_high by assumption. now rewrite andb_false_r.
Qed.
Lemma shl64_bit : forall x k i, N.testbit (shl64 x k) i = andb (i <? 64)%N (andb (k <=? i)%N (N.testbit x (i - k))).
Proof.
  intros. unfold shl64. rewrite w64_testbit. f_equal. destruct (N.leb_spec k i).
  - now rewrite N.shiftl_spec_high' by assumption.
  - now rewrite N.shiftl_spec_low by assumption.
Qed.
(** z >> k on the pair *)
Lemma val_shiftr : forall l h k, is64 l -> is64 h -> (0 < k < 64)%N ->
  is64 (N.lor (N.shiftr h k) (shl64 l (64 - k))) /\
  val (N.shiftr l k, N.lor (N.shiftr h k) (shl64 l (64 - k))) = N.shiftr (val (l, h)) k.
Proof.
  intros l h k Hl Hh Hk.
  assert (O : is64 (N.lor (N.shiftr h k) (shl64 l (64 - k)))).
  { apply lor_lt; [now apply shiftr_lt|apply w64_is64]. }
  split; auto. apply N.bits_inj. intros i. rewrite N.shiftr_spec', !val_bits by auto.
  destruct (N.ltb_spec i 64); destruct (N.ltb_spec (i + k) 64); try lia.
  - rewrite N.lor_spec, N.shiftr_spec', shl64_bit. destruct (N.leb_spec (64 - k) i); [lia|].
    rewrite !andb_false_r, orb_false_r. reflexivity.
  - rewrite N.lor_spec, N.shiftr_spec', shl64_bit. rewrite (is64_bit h (i + k)) by (auto; lia).
    destruct (N.ltb_spec i 64); [|lia]. destruct (N.leb_spec (64 - k) i); [|lia]. cbn [andb orb]. f_equal. lia.
  - rewrite N.shiftr_spec'. f_equal. lia.
Qed.
Lemma val_low : forall l k, (val (N.shiftl l k, 0) = N.shiftl l (k + 64))%N.
Proof. intros. unfold val. cbn [fst snd]. rewrite N.add_0_r, !N.shiftl_mul_pow2, N.pow_add_r. lia. Qed.

(** the doubling map *)
Lemma gcm_shift_xor : forall a b, gcm_shift (N.lxor a b) = N.lxor (gcm_shift a) (gcm_shift b).
Proof.
  intros. unfold gcm_shift. rewrite N.shiftr_lxor, N.lxor_spec.
  destruct (N.testbit a 0), (N.testbit b 0); cbn [xorb]; rewrite ?N.lxor_0_r.
  - rewrite !N.lxor_assoc. f_equal. rewrite (N.lxor_comm gcm_R). rewrite !N.lxor_assoc, N.lxor_nilpotent. now rewrite N.lxor_0_r.
  - rewrite !N.lxor_assoc. f_equal. apply N.lxor_comm.
  - now rewrite N.lxor_assoc.
  - reflexivity.
Qed.
Lemma gcmDouble_ok : forall p, ok2 p -> ok2 (gcmDouble p) /\ val (gcmDouble p) = gcm_shift (val p).
Proof.
  intros [l h] [Hl Hh]. cbn [fst snd] in *. unfold gcmDouble.
  destruct (val_shiftr l h 1 Hl Hh ltac:(lia)) as [O V]. change (64 - 1)%N with 63%N in *.
  assert (B : N.testbit (val (l, h)) 0 = (N.land h 1 =? 1)%N).
  { rewrite val_bits by assumption. change (0 <? 64)%N with true. cbv iota.
    change 1%N with (N.ones 1). rewrite N.land_ones, <- N.bit0_mod. now destruct (N.testbit h 0). }
  unfold gcm_shift. rewrite B, <- V. destruct (N.land h 1 =? 1)%N.
  - split. { split; cbn [fst snd]; auto. apply lxor_is64; [now apply shiftr_lt|reflexivity]. }
    rewrite <- (N.lxor_0_r (N.lor (N.shiftr h 1) (shl64 l 63))) at 1. rewrite val_xor by (auto; reflexivity). f_equal.
  - split. { split; cbn [fst snd]; auto. now apply shiftr_lt. } now rewrite N.lxor_0_r.
Qed.
Lemma gcmAdd_ok : forall p q, ok2 p -> ok2 q -> ok2 (gcmAdd p q) /\ val (gcmAdd p q) = N.lxor (val p) (val q).
Proof.
  intros [a b] [c d] [? ?] [? ?]. cbn [fst snd] in *. unfold gcmAdd. cbn [fst snd]. split.
  - split; cbn [fst snd]; now apply lxor_is64.
  - now apply val_xor.
Qed.

(** Multiplication by x^4 via the reduction table. *)
Lemma gcm_shift4_small : forall r, (r < 16)%N -> Nat.iter 4 gcm_shift r = N.shiftl (at_ gcmReductionTable (N.to_nat r)) 112.
Proof.
  intros r H. assert (E : In (N.to_nat r) (seq 0 16)) by (apply in_seq; lia).
  rewrite <- (N2Nat.id r) at 1. revert E. generalize (N.to_nat r). clear.
  assert (F : forallb (fun n => (Nat.iter 4 gcm_shift (N.of_nat n) =? N.shiftl (at_ gcmReductionTable n) 112)%N) (seq 0 16) = true) by (vm_compute; reflexivity).
  intros n Hn. rewrite forallb_forall in F. apply N.eqb_eq. now apply F.
Qed.
Lemma gcm_shift_even : forall q, gcm_shift (2 * q) = q.
Proof.
  intros. unfold gcm_shift. rewrite N.testbit_even_0, N.lxor_0_r. rewrite <- N.div2_spec. apply N.div2_double.
Qed.
Lemma iter_S : forall A (f : A -> A) n x, Nat.iter (S n) f x = f (Nat.iter n f x).
Proof. reflexivity. Qed.
Lemma iter_gcm_xor : forall n a b, Nat.iter n gcm_shift (N.lxor a b) = N.lxor (Nat.iter n gcm_shift a) (Nat.iter n gcm_shift b).
Proof. induction n; intros; auto. rewrite !iter_S. now rewrite IHn, gcm_shift_xor. Qed.
Lemma gcm_shift4 : forall Z, Nat.iter 4 gcm_shift Z =
  N.lxor (N.shiftr Z 4) (N.shiftl (at_ gcmReductionTable (N.to_nat (N.land Z 15))) 112).
Proof.
  intros Z. set (q := N.shiftr Z 4). set (r := N.land Z 15).
  assert (Hr : (r < 16)%N). { unfold r. change 15%N with (N.ones 4). rewrite N.land_ones. apply N.mod_lt. discriminate. }
  assert (E : Z = N.lxor (2 * (2 * (2 * (2 * q)))) r).
  { replace (2 * (2 * (2 * (2 * q))))%N with (q * 2 ^ 4)%N by (change (2 ^ 4)%N with 16%N; lia).
    rewrite N.lxor_comm, <- N.shiftl_mul_pow2. rewrite <- add_shift_lxor by exact Hr.
    unfold q, r. change 15%N with (N.ones 4). rewrite N.land_ones, N.shiftr_div_pow2. rewrite N.add_comm, N.mul_comm. apply N.div_mod. discriminate. }
  rewrite E at 1. rewrite iter_gcm_xor, (gcm_shift4_small r Hr). f_equal.
  rewrite !iter_S. change (Nat.iter 0 gcm_shift ?a) with a. now rewrite !gcm_shift_even.
Qed.

(** The product of H with the polynomial whose coefficients are the low k bits of X, the highest of
    them being the constant term. *)
Fixpoint horner (H : N) (k : nat) (X : N) : N :=
  match k with
  | O => 0%N
  | S k' => N.lxor (gcm_shift (horner H k' X)) (if N.testbit X (N.of_nat k') then H else 0)
  end.
Lemma horner_shift : forall k H X, horner (gcm_shift H) k X = gcm_shift (horner H k X).
Proof.
  induction k as [|k IH]; intros H X; [reflexivity|]. cbn [horner]. rewrite IH, gcm_shift_xor. f_equal.
  now destruct (N.testbit X (N.of_nat k)).
Qed.
Lemma gcm_mul_gen : forall X n i Z V, i + n = 128 ->
  fst (fold_left (fun (zv : N * N) i => let '(Z, V) := zv in
         (if N.testbit X (127 - N.of_nat i) then N.lxor Z V else Z, gcm_shift V)) (seq i n) (Z, V)) = N.lxor Z (horner V n X).
Proof.
  intros X. induction n as [|n IH]; intros i Z V Hi.
  - cbn [seq fold_left fst horner]. now rewrite N.lxor_0_r.
  - rewrite seq_cons, fold_left_cons. rewrite IH by lia. rewrite horner_shift.
    replace (127 - N.of_nat i)%N with (N.of_nat n) by lia.
    cbn [horner]. destruct (N.testbit X (N.of_nat n)); rewrite ?N.lxor_0_r; auto.
    rewrite N.lxor_assoc. f_equal. apply N.lxor_comm.
Qed.
Lemma gcm_mul_horner : forall X H, gcm_mul X H = horner H 128 X.
Proof. intros. unfold gcm_mul. rewrite gcm_mul_gen by reflexivity. apply N.lxor_0_l. Qed.
Lemma horner_add : forall H X j k, horner H (k + j) X = N.lxor (Nat.iter j gcm_shift (horner H k X)) (horner H j (N.shiftr X (N.of_nat k))).
Proof.
  intros H X. induction j as [|j IH]; intros k.
  - rewrite Nat.add_0_r. cbn [horner]. now rewrite N.lxor_0_r.
  - rewrite Nat.add_succ_r. cbn [horner]. rewrite IH, gcm_shift_xor, iter_S, N.lxor_assoc.
    rewrite N.shiftr_spec'. now replace (N.of_nat j + N.of_nat k)%N with (N.of_nat (k + j)) by lia.
Qed.

(** The product table. *)
Definition tab_ok (t : list gfe) (H : N) : Prop := forall n, n < 16 -> ok2 (tab t n) /\ val (tab t n) = horner H 4 (N.of_nat n).
Lemma be_val_app : forall a b, be_val (a ++ b) = (be_val a * 2 ^ N.of_nat (8 * length b) + be_val b)%N.
Proof. intros. unfold be_val. rewrite rev_app_distr, le_val_app, rev_length. lia. Qed.
Lemma be_val_lt : forall l, isbytes l -> (be_val l < 2 ^ N.of_nat (8 * length l))%N.
Proof. intros l H. unfold be_val. rewrite <- rev_length. apply le_val_lt. now apply isbytes_rev. Qed.
Lemma val_be : forall b, isbytes b -> length b = 16 ->
  ok2 (be_val (slice b 0 8), be_val (slice b 8 16)) /\ val (be_val (slice b 0 8), be_val (slice b 8 16)) = be_val b.
Proof.
  intros b Hb L. unfold slice. cbn [Nat.sub skipn]. rewrite (firstn_all2 (skipn 8 b)) by (rewrite skipn_length; lia).
  assert (L1 : length (firstn 8 b) = 8) by (rewrite firstn_length; lia).
  assert (L2 : length (skipn 8 b) = 8) by (rewrite skipn_length; lia). split.
  - split; cbn [fst snd]; unfold is64.
    + pose proof (be_val_lt (firstn 8 b) (isbytes_firstn _ _ Hb)) as K. rewrite L1 in K. exact K.
    + pose proof (be_val_lt (skipn 8 b) (isbytes_skipn _ _ Hb)) as K. rewrite L2 in K. exact K.
  - rewrite <- (firstn_skipn 8 b) at 3. rewrite be_val_app, L2. reflexivity.
Qed.
Lemma gcm_table_list : forall (d a : gfe -> gfe) x,
  fold_left (fun t i =>
    let t := upd t (reverseBits i) (d (tab t (reverseBits (i / 2)))) in
    upd t (reverseBits (i + 1)) (a (tab t (reverseBits i)))) [2; 4; 6; 8; 10; 12; 14] (upd (repeat (0, 0)%N 16) (reverseBits 1) x) =
  [(0, 0)%N; d (d (d x)); d (d x); d (d (a (d x))); d x; d (a (d (d x))); d (a (d x)); d (a (d (a (d x))));
   x; a (d (d (d x))); a (d (d x)); a (d (d (a (d x)))); a (d x); a (d (a (d (d x)))); a (d (a (d x))); a (d (a (d (a (d x)))))].
Proof. reflexivity. Qed.
Fixpoint phorner (x : gfe) (k : nat) (n : N) : gfe :=
  match k with
  | O => (0, 0)%N
  | S k' => let y := gcmDouble (phorner x k' n) in if N.testbit n (N.of_nat k') then gcmAdd y x else y
  end.
Lemma phorner_ok : forall x k n, ok2 x -> ok2 (phorner x k n) /\ val (phorner x k n) = horner (val x) k n.
Proof.
  intros x k n Hx. induction k as [|k [O V]]; [split; [split; reflexivity|reflexivity]|]. cbn [phorner horner].
  destruct (gcmDouble_ok _ O) as [O' V']. rewrite <- V, <- V'. destruct (N.testbit n (N.of_nat k)).
  - now apply gcmAdd_ok.
  - rewrite N.lxor_0_r. auto.
Qed.
Lemma gcmDouble_0 : gcmDouble (0, 0)%N = (0, 0)%N.
Proof. reflexivity. Qed.
Lemma gcmAdd_0 : forall x, gcmAdd (0, 0)%N x = x.
Proof. intros [l h]. reflexivity. Qed.
Lemma gcm_table_ok : forall key, length key = 16 -> isbytes key -> tab_ok (gcm_table key) (be_val key).
Proof.
  intros key L Hk. destruct (val_be key Hk L) as [O V]. unfold gcm_table. cbv zeta.
  set (x := (be_val (slice key 0 8), be_val (slice key 8 16))) in *. clearbody x. rewrite <- V. clear V.
  assert (E := gcm_table_list gcmDouble (fun y => gcmAdd y x) x). cbv beta zeta in E. rewrite E. clear E.
  intros n Hn. assert (T : tab [(0, 0)%N; gcmDouble (gcmDouble (gcmDouble x)); gcmDouble (gcmDouble x); gcmDouble (gcmDouble (gcmAdd (gcmDouble x) x)); gcmDouble x;
      gcmDouble (gcmAdd (gcmDouble (gcmDouble x)) x); gcmDouble (gcmAdd (gcmDouble x) x); gcmDouble (gcmAdd (gcmDouble (gcmAdd (gcmDouble x) x)) x); x;
      gcmAdd (gcmDouble (gcmDouble (gcmDouble x))) x; gcmAdd (gcmDouble (gcmDouble x)) x; gcmAdd (gcmDouble (gcmDouble (gcmAdd (gcmDouble x) x))) x;
      gcmAdd (gcmDouble x) x; gcmAdd (gcmDouble (gcmAdd (gcmDouble (gcmDouble x)) x)) x; gcmAdd (gcmDouble (gcmAdd (gcmDouble x) x)) x;
      gcmAdd (gcmDouble (gcmAdd (gcmDouble (gcmAdd (gcmDouble x) x)) x)) x] n = phorner x 4 (N.of_nat n)).
  { do 16 (destruct n as [|n]; [cbn [phorner N.of_nat N.testbit Pos.of_succ_nat Pos.succ Pos.testbit Pos.pred_N Pos.pred_double];
      rewrite ?gcmDouble_0, ?gcmAdd_0; reflexivity|]). lia. }
  rewrite T. now apply phorner_ok.
Qed.
Lemma horner_bits : forall H k X X', (forall i, i < k -> N.testbit X (N.of_nat i) = N.testbit X' (N.of_nat i)) -> horner H k X = horner H k X'.
Proof.
  induction k as [|k IH]; intros X X' E; [reflexivity|]. cbn [horner]. rewrite (IH X X') by (intros; apply E; lia).
  now rewrite E by lia.
Qed.
Lemma step_ok : forall t H Y z W k, tab_ok t H -> ok2 z -> val z = horner H k Y ->
  (forall i, i < 4 -> N.testbit W (N.of_nat i) = N.testbit Y (N.of_nat (k + i))) ->
  let '(z', W') := gcmMul_step t (z, W) in ok2 z' /\ val z' = horner H (k + 4) Y /\ W' = N.shiftr W 4.
Proof.
  intros t H Y [l h] W k Ht [Hl Hh] V B. cbn [fst snd] in *. unfold gcmMul_step.
  assert (Hn : N.to_nat (N.land W 15) < 16).
  { assert ((N.land W 15 < 16)%N). { change 15%N with (N.ones 4). rewrite N.land_ones. apply N.mod_lt. discriminate. } lia. }
  destruct (Ht _ Hn) as [Oe Ve]. set (e := tab t (N.to_nat (N.land W 15))) in *. destruct e as [el eh]. destruct Oe as [Oel Oeh].
  cbn [fst snd] in *. destruct (val_shiftr l h 4 Hl Hh ltac:(lia)) as [O4 V4]. change (64 - 4)%N with 60%N in *.
  assert (Or : is64 (shl64 (at_ gcmReductionTable (N.to_nat (N.land h 15))) 48)) by apply w64_is64.
  split; [|split; auto].
  - split; cbn [fst snd]; repeat apply lxor_is64; auto. now apply shiftr_lt.
  - rewrite val_xor by auto. rewrite <- (N.lxor_0_r (N.lor (N.shiftr h 4) (shl64 l 60))). rewrite val_xor by (auto; reflexivity).
    rewrite V4, Ve, V. rewrite horner_add. f_equal.
    + rewrite gcm_shift4, <- V. f_equal.
      assert (EL : N.land (val (l, h)) 15 = N.land h 15).
      { apply N.bits_inj. intros i. rewrite !N.land_spec, val_bits by auto. destruct (N.ltb_spec i 64); auto.
        change 15%N with (N.ones 4). rewrite N.ones_spec_high by lia. now rewrite !andb_false_r. }
      rewrite EL. set (r := N.to_nat (N.land h 15)).
      assert (Hr : (at_ gcmReductionTable r < 2 ^ 16)%N).
      { assert (r < 16). { unfold r. assert ((N.land h 15 < 16)%N). { change 15%N with (N.ones 4). rewrite N.land_ones. apply N.mod_lt. discriminate. } lia. }
        clearbody r. do 16 (destruct r as [|r]; [reflexivity|]). lia. }
      unfold shl64. rewrite w64_small.
      * now rewrite val_low.
      * rewrite N.shiftl_mul_pow2. change 18446744073709551616%N with (2 ^ 16 * 2 ^ 48)%N. apply N.mul_lt_mono_pos_r; [reflexivity|exact Hr].
    + apply horner_bits. intros i Hi. rewrite N2Nat.id, N.land_spec, N.shiftr_spec'.
      change 15%N with (N.ones 4). rewrite N.ones_spec_low by lia. rewrite andb_true_r, B by assumption. f_equal. lia.
Qed.
Lemma steps_ok : forall t H Y W0 n k z, tab_ok t H -> ok2 z -> val z = horner H k Y ->
  (forall i, i < 4 * n -> N.testbit W0 (N.of_nat i) = N.testbit Y (N.of_nat (k + i))) ->
  let '(z', W') := Nat.iter n (gcmMul_step t) (z, W0) in ok2 z' /\ val z' = horner H (k + 4 * n) Y /\ W' = N.shiftr W0 (N.of_nat (4 * n)).
Proof.
  intros t H Y W0 n k z Ht. induction n as [|n IH]; intros O V B.
  - change (Nat.iter 0 (gcmMul_step t) (z, W0)) with (z, W0). rewrite Nat.add_0_r. change (N.of_nat (4 * 0)) with 0%N. rewrite N.shiftr_0_r. auto.
  - rewrite iter_S. specialize (IH O V ltac:(intros; apply B; lia)).
    destruct (Nat.iter n (gcmMul_step t) (z, W0)) as [z1 W1]. destruct IH as (O1 & V1 & EW).
    pose proof (step_ok t H Y z1 W1 (k + 4 * n) Ht O1 V1) as S. destruct (gcmMul_step t (z1, W1)) as [z2 W2].
    destruct S as (O2 & V2 & E2).
    + intros i Hi. rewrite EW, N.shiftr_spec'. replace (N.of_nat i + N.of_nat (4 * n))%N with (N.of_nat (4 * n + i)) by lia.
      rewrite B by lia. f_equal. lia.
    + split; auto. split; [rewrite V2; f_equal; lia|]. rewrite E2, EW, N.shiftr_shiftr. f_equal. lia.
Qed.
Lemma gcmMul_ok : forall t H y, tab_ok t H -> ok2 y -> ok2 (gcmMul t y) /\ val (gcmMul t y) = gcm_mul (val y) H.
Proof.
  intros t H [l h] Ht [Hl Hh]. cbn [fst snd] in *. unfold gcmMul. cbn [fst snd].
  set (n := 16). assert (En : n = 16) by reflexivity. clearbody n.
  assert (S1 : let '(z', W') := Nat.iter n (gcmMul_step t) ((0, 0)%N, h) in
     ok2 z' /\ val z' = horner H (0 + 4 * n) (val (l, h)) /\ W' = N.shiftr h (N.of_nat (4 * n))).
  { apply steps_ok; auto. { split; reflexivity. }
    intros i Hi. rewrite val_bits by auto. destruct (N.ltb_spec (N.of_nat (0 + i)) 64); [reflexivity|lia]. }
  revert S1. destruct (Nat.iter n (gcmMul_step t) ((0, 0)%N, h)) as [z1 W1]. intros (O1 & V1 & _).
  assert (S2 : let '(z', W') := Nat.iter n (gcmMul_step t) (z1, l) in
     ok2 z' /\ val z' = horner H (0 + 4 * n + 4 * n) (val (l, h)) /\ W' = N.shiftr l (N.of_nat (4 * n))).
  { apply steps_ok; auto.
    intros i Hi. rewrite val_bits by auto. destruct (N.ltb_spec (N.of_nat (0 + 4 * n + i)) 64); [lia|]. f_equal. lia. }
  revert S2. destruct (Nat.iter n (gcmMul_step t) (z1, l)) as [z2 W2]. intros (O2 & V2 & _).
  replace (0 + 4 * n + 4 * n) with 128 in V2 by lia. rewrite gcm_mul_horner. split; assumption.
Qed.

(** GHASH over blocks *)
Opaque gcm_mul gcmMul.
Lemma gcm_block_ok : forall t H y b, tab_ok t H -> ok2 y -> isbytes b -> length b = 16 ->
  ok2 (gcm_block t y b) /\ val (gcm_block t y b) = gcm_mul (N.lxor (val y) (be_val b)) H.
Proof.
  intros t H [l h] b Ht [Hl Hh] Hb L. cbn [fst snd] in *. unfold gcm_block. cbn [fst snd]. destruct (val_be b Hb L) as [[O1 O2] V]. cbn [fst snd] in *.
  destruct (gcmMul_ok t H (N.lxor l (be_val (slice b 0 8)), N.lxor h (be_val (slice b 8 16))) Ht) as [O V'].
  { split; cbn [fst snd]; now apply lxor_is64. }
  split; auto. rewrite V', val_xor by auto. now rewrite V.
Qed.
Definition gfold (H : N) (bl : list (list N)) (y : N) : N := fold_left (fun Y b => gcm_mul (N.lxor Y (be_val b)) H) bl y.
Lemma slice_firstn : forall A (b : list A) i j n, j <= n -> i <= j -> slice (firstn n b) i j = slice b i j.
Proof. intros. unfold slice. rewrite skipn_firstn_comm, firstn_firstn. f_equal. lia. Qed.
Lemma gcm_blocks_ok : forall t H p fuel y, tab_ok t H -> ok2 y -> isbytes p -> length p mod 16 = 0 -> length p <= fuel ->
  ok2 (gcm_blocks fuel t y p) /\ val (gcm_blocks fuel t y p) = gfold H (chunks 16 p) (val y).
Proof.
  intros t H p fuel y Ht. revert p y. induction fuel as [|f IH]; intros p y Oy Hp Hm Hf.
  - assert (p = []) by (apply length_zero_iff_nil; lia). subst p. cbn [gcm_blocks]. rewrite chunks_short by (cbn; lia). auto.
  - cbn [gcm_blocks]. destruct (Nat.ltb_spec 0 (length p)) as [G|G].
    + assert (16 <= length p). { destruct (Nat.le_gt_cases 16 (length p)); auto. rewrite Nat.mod_small in Hm; lia. }
      rewrite chunks_cons by lia. 
      assert (EB : gcm_block t y p = gcm_block t y (firstn 16 p)).
      { unfold gcm_block. now rewrite !slice_firstn by lia. }
      rewrite EB. destruct (gcm_block_ok t H y (firstn 16 p) Ht Oy) as [O V]; [now apply isbytes_firstn|rewrite firstn_length; lia|].
      destruct (IH (skipn 16 p) (gcm_block t y (firstn 16 p)) O) as [O' V'].
      * now apply isbytes_skipn.
      * rewrite skipn_length. replace (length p) with ((length p - 16) + 1 * 16) in Hm by lia. now rewrite Nat.mod_add in Hm by lia.
      * rewrite skipn_length. lia.
      * split; auto. rewrite V', V. unfold gfold. rewrite fold_left_cons. reflexivity.
    + assert (p = []) by (apply length_zero_iff_nil; lia). subst p. rewrite chunks_short by (cbn; lia). auto.
Qed.
Lemma chunks_firstn_full : forall (p : list N) n, 0 < n -> chunks n (firstn (length p / n * n) p) = chunks n p /\ length (firstn (length p / n * n) p) mod n = 0.
Proof.
  intros p n Hn. assert (L : length (firstn (length p / n * n) p) = length p / n * n).
  { rewrite firstn_length. pose proof (Nat.div_mod (length p) n ltac:(lia)). lia. }
  split; [|rewrite L; apply Nat.mod_mul; lia].
  replace (chunks n p) with (chunks n (firstn (length p / n * n) p ++ skipn (length p / n * n) p)) by (now rewrite firstn_skipn).
  rewrite chunks_app by lia.
  rewrite (rest_0 _ n (firstn _ _)) by (auto; rewrite L; apply Nat.mod_mul; lia). cbn [app].
  rewrite (chunks_short _ n (skipn _ _)), app_nil_r; auto.
  rewrite skipn_length. pose proof (Nat.div_mod (length p) n ltac:(lia)). pose proof (Nat.mod_upper_bound (length p) n ltac:(lia)). lia.
Qed.
Lemma gcmUpdate_ok : forall t H y p, tab_ok t H -> ok2 y -> isbytes p ->
  ok2 (gcmUpdate t y p) /\ val (gcmUpdate t y p) = gfold H (zpad p) (val y).
Proof.
  intros t H y p Ht Oy Hp. unfold gcmUpdate, zpad, gfold. destruct (chunks_firstn_full p 16 ltac:(lia)) as [EC EM].
  assert (LF : length (firstn (length p / 16 * 16) p) <= length p) by (rewrite firstn_length; lia).
  destruct (gcm_blocks_ok t H (firstn (length p / 16 * 16) p) (length p) y Ht Oy (isbytes_firstn _ _ Hp) EM LF) as [O V].
  rewrite EC in V. set (y1 := gcm_blocks (length p) t y (firstn (length p / 16 * 16) p)) in *. clearbody y1.
  assert (LR : length (rest 16 p) = length p - length p / 16 * 16) by (unfold rest; apply skipn_length).
  rewrite fold_left_app. fold (gfold H (chunks 16 p) (val y)). rewrite <- V.
  pose proof (rest_length_lt N 16 p ltac:(lia)) as Lt.
  pose proof (Nat.div_mod (length p) 16 ltac:(lia)) as DM.
  destruct (Nat.eqb_spec (length p) (length p / 16 * 16)) as [E|E].
  - destruct (Nat.eqb_spec (length (rest 16 p)) 0) as [E2|E2]; [|lia]. auto.
  - destruct (Nat.eqb_spec (length (rest 16 p)) 0) as [E2|E2]; [lia|]. cbn [negb].
    change (skipn (length p / 16 * 16) p) with (rest 16 p). set (r := rest 16 p) in *.
    assert (EC2 : copy_at (zeros 16) 0 r = r ++ zeros (16 - length r)).
    { unfold copy_at. rewrite zeros_length, firstn_O, firstn_all2 by lia. cbn [app plus]. rewrite skipn_zeros. f_equal. f_equal. lia. }
    rewrite EC2. set (b := r ++ zeros (16 - length r)).
    assert (Lb : length b = 16) by (unfold b; rewrite app_length, zeros_length; lia).
    assert (Hb : isbytes b). { unfold b. apply isbytes_app. split; [now apply isbytes_rest|apply zeros_isbytes]. }
    cbn [gcm_blocks]. destruct (Nat.ltb_spec 0 (length b)); [|lia]. cbn [fold_left].
    now apply gcm_block_ok.
Qed.

(** length blocks and serialisation *)
Lemma be_val_be8 : forall n, be_val (be_bytes 8 n) = w64 n.
Proof. intros. rewrite be_val_be_bytes, w64_mod. reflexivity. Qed.
Lemma mul64_8 : forall n, mul64 (w64 n) 8 = w64 (8 * n).
Proof. intros. unfold mul64. rewrite w64_mul_l. f_equal. lia. Qed.
Lemma be16_val : forall y, ok2 y -> be_bytes 8 (fst y) ++ be_bytes 8 (snd y) = be_bytes 16 (val y).
Proof.
  intros [l h] [Hl Hh]. cbn [fst snd] in *. change 16 with (8 + 8). rewrite be_bytes_app. unfold val. cbn [fst snd].
  change (2 ^ 64)%N with (256 ^ N.of_nat 8)%N.
  f_equal.
  - rewrite N.shiftr_div_pow2. f_equal. change (2 ^ (8 * N.of_nat 8))%N with (2 ^ 64)%N. change (256 ^ N.of_nat 8)%N with (2 ^ 64)%N.
    rewrite N.div_add_l by discriminate. rewrite N.div_small by exact Hh. lia.
  - rewrite <- (be_bytes8_w64 (_ + h)). f_equal. rewrite w64_mod. change (256 ^ N.of_nat 8)%N with 18446744073709551616%N.
    rewrite N.add_comm, N.mod_add by discriminate. symmetry. apply N.mod_small. exact Hh.
Qed.
Lemma two_halves : forall out a b : list N, 16 <= length out -> length a = 8 -> length b = 8 ->
  copy_at (copy_at out 0 a) 8 b = (a ++ b) ++ skipn 16 out.
Proof.
  intros out a b Lo La Lb. unfold copy_at. rewrite !app_length, !firstn_length, !skipn_length, La, Lb.
  rewrite firstn_O. cbn [app plus]. rewrite (firstn_all2 a) by lia.
  replace (Nat.min (length out - 0) 8) with 8 by lia.
  replace (Nat.min (Nat.min (length out - 0) 8 + (length out - 8) - 8) 8) with 8 by lia.
  rewrite firstn_app_len by assumption. rewrite firstn_all2 by lia.
  replace (8 + 8) with (8 + 8) by lia. rewrite skipn_app. rewrite skipn_all2 by lia. cbn [app].
  rewrite La, skipn_skipn. rewrite <- app_assoc. do 2 f_equal. f_equal. lia.
Qed.

Definition gH (E : list N -> list N) : N := be_val (E (zeros 16)).
Definition blk16 (E : list N -> list N) : Prop := forall x, length x = 16 -> length (E x) = 16 /\ isbytes (E x).
Lemma gcmInit_ok : forall E, blk16 E -> tab_ok (gcmInit E) (gH E).
Proof. intros E H. destruct (H (zeros 16) (zeros_length 16)) as [L B]. now apply gcm_table_ok. Qed.
Lemma gfold_app : forall H a b y, gfold H (a ++ b) y = gfold H b (gfold H a y).
Proof. intros. apply fold_left_app. Qed.
Lemma derive_ok : forall E iv, blk16 E -> isbytes iv -> gcmDeriveCounter (gcmInit E) iv = gcm_J0 (gH E) iv.
Proof.
  intros E iv HE Hiv. unfold gcmDeriveCounter, gcm_J0. destruct (Nat.eqb_spec (length iv) 12) as [L|L].
  - assert (EC : copy_at (zeros 16) 0 iv = (iv ++ zeros 3) ++ [0%N]).
    { unfold copy_at. rewrite zeros_length, firstn_O, firstn_all2, L by lia. cbn [app plus]. rewrite skipn_zeros.
      change (16 - Nat.min (16 - 0) 12) with 4. rewrite <- app_assoc. reflexivity. }
    rewrite EC. replace 15 with (length (iv ++ zeros 3)) by (rewrite app_length, zeros_length; lia).
    rewrite upd_app_at. rewrite <- app_assoc. reflexivity.
  - pose proof (gcmInit_ok E HE) as Ht. set (t := gcmInit E) in *.
    destruct (gcmUpdate_ok t (gH E) (0, 0)%N iv Ht ltac:(split; reflexivity) Hiv) as [O V].
    destruct (gcmUpdate t (0, 0)%N iv) as [l h] eqn:Eu. destruct O as [Ol Oh]. cbn [fst snd] in *.
    rewrite mul64_8. set (v := w64 (8 * N.of_nat (length iv))).
    destruct (gcmMul_ok t (gH E) (l, N.lxor h v) Ht) as [O' V'].
    { split; cbn [fst snd]; auto. apply lxor_is64; auto. apply w64_is64. }
    cbv zeta. set (y := gcmMul t (l, N.lxor h v)) in *. clearbody y.
    rewrite two_halves by (rewrite ?zeros_length, ?be_bytes_length; lia).
    rewrite skipn_zeros. cbn [zeros repeat Nat.sub]. rewrite app_nil_r, be16_val by assumption. f_equal.
    rewrite V'. rewrite <- (N.lxor_0_r l) at 1. rewrite val_xor by (auto; apply w64_is64). rewrite V.
    unfold ghash. fold (gfold (gH E) (zpad iv ++ [be_bytes 8 0 ++ be_bytes 8 (8 * N.of_nat (length iv))]) 0).
    rewrite gfold_app. unfold gfold at 2. cbn [fold_left]. f_equal. f_equal.
    rewrite be_val_app, !be_val_be8, be_bytes_length. reflexivity.
Qed.
Lemma combine_app_l : forall A B (a a' : list A) (b : list B), length b <= length a -> combine (a ++ a') b = combine a b.
Proof. induction a as [|x a IH]; intros a' b H; destruct b; simpl in *; try lia; auto. - now destruct a'. - f_equal. apply IH. lia. Qed.
Lemma finish_ok : forall E out y m n mask, blk16 E -> length out >= 16 -> length mask = 16 -> ok2 y ->
  val y = gfold (gH E) (zpad m) 0 ->
  gcmFinish (gcmInit E) out y 0 n mask =
  xorblk (be_bytes 16 (ghash (gH E) (zpad m ++ [be_bytes 8 (8 * n) ++ be_bytes 8 0]))) mask ++ skipn 16 out.
Proof.
  intros E out [l h] m n mask HE Lo Lm [Ol Oh] V. cbn [fst snd] in *. unfold gcmFinish. cbn [fst snd].
  pose proof (gcmInit_ok E HE) as Ht. set (t := gcmInit E) in *.
  change (mul64 (w64 0) 8) with 0%N. rewrite N.lxor_0_r, mul64_8. set (v := w64 (8 * n)).
  destruct (gcmMul_ok t (gH E) (N.lxor l v, h) Ht) as [O' V'].
  { split; cbn [fst snd]; auto. apply lxor_is64; auto. apply w64_is64. }
  cbv zeta. set (y := gcmMul t (N.lxor l v, h)) in *. clearbody y.
  rewrite two_halves by (rewrite ?be_bytes_length; lia). rewrite be16_val by assumption.
  assert (EV : val y = ghash (gH E) (zpad m ++ [be_bytes 8 (8 * n) ++ be_bytes 8 0])).
  { rewrite V'. rewrite <- (N.lxor_0_r h) at 1. rewrite val_xor by (auto; reflexivity). rewrite V.
    unfold ghash. fold (gfold (gH E) (zpad m ++ [be_bytes 8 (8 * n) ++ be_bytes 8 0]) 0).
    rewrite gfold_app. unfold gfold at 2. cbn [fold_left]. f_equal. f_equal.
    rewrite be_val_app, !be_val_be8, be_bytes_length. reflexivity. }
  rewrite EV. set (g := be_bytes 16 _). assert (Lg : length g = 16) by apply be_bytes_length. clearbody g.
  assert (EX : xorblk (g ++ skipn 16 out) mask = xorblk g mask).
  { unfold xorblk. f_equal. rewrite combine_app_l by lia. reflexivity. }
  rewrite EX. unfold copy_at. assert (LX : length (xorblk g mask) = 16) by (unfold xorblk; rewrite map_length, combine_length; lia).
  rewrite LX, app_length, Lg, skipn_length. rewrite firstn_O, firstn_all2 by lia. cbn [app]. f_equal.
  match goal with |- skipn ?k _ = _ => replace k with 16 by lia end. exact (skipn_app_len N 16 g (skipn 16 out) Lg).
Qed.

(** The object. *)
Definition gJ (E : list N -> list N) (iv : list N) : list N := E (gcm_J0 (gH E) (if length iv =? 0 then zeros 12 else iv)).
Definition g_rel (E : list N -> list N) (iv : list N) (d : gdig) (m : list N) (c : N) : Prop :=
  isbytes m /\ gtab d = gcmInit E /\ gmask d = gJ E iv /\ ok2 (gy d) /\ val (gy d) = gfold (gH E) (chunks 16 m) 0 /\
  buf_ok 16 16 (grem d) (gidx d) m /\ isbytes (grem d) /\ (gwritten d + N.of_nat (gidx d) = c)%N.
Lemma g_new_rel : forall E iv, blk16 E -> isbytes iv -> g_rel E iv (gmac_new E iv) [] 0.
Proof.
  intros E iv HE Hiv. unfold gmac_new, g_rel. cbn [gtab gmask gy grem gidx gwritten]. split; [constructor|].
  repeat split; try reflexivity; try apply zeros_isbytes.
  - unfold gJ. f_equal. apply derive_ok; auto. destruct (length iv =? 0); auto. apply zeros_isbytes.
Qed.
Lemma g_reset_rel : forall E iv d m c, g_rel E iv d m c -> g_rel E iv (gmac_reset d) [] 0.
Proof.
  intros E iv d m c (Hm & Et & Ek & Oy & Vy & (Lx & _) & Hx & Ec). unfold g_rel, gmac_reset. cbn [gtab gmask gy grem gidx gwritten].
  split; [constructor|]. repeat split; auto; reflexivity.
Qed.
Lemma zpad_whole : forall p, length p mod 16 = 0 -> zpad p = chunks 16 p.
Proof. intros p H. unfold zpad. rewrite rest_0 by (auto; lia). cbn [length Nat.eqb]. apply app_nil_r. Qed.
(** The part of Write after the buffer has been emptied. *)
Lemma g_tail_rel : forall E iv d m c p n0, blk16 E -> g_rel E iv d m c -> gidx d = 0 -> isbytes p ->
  g_rel E iv (fst (gmac_write_tail d n0 p)) (m ++ p) (c + N.of_nat (length p)) /\ snd (gmac_write_tail d n0 p) = n0 + length p.
Proof.
  intros E iv d m c p n0 HE (Hm & Et & Ek & Oy & Vy & Hb & Hx & Ec) Ei Hp.
  assert (Hr : rest 16 m = []) by (destruct Hb as (_ & En & _); apply length_zero_iff_nil; lia).
  assert (Lx : length (grem d) = 16) by apply Hb.
  destruct (chunks_firstn_full p 16 ltac:(lia)) as [EC EM].
  pose proof (Nat.div_mod (length p) 16 ltac:(lia)) as DM. pose proof (Nat.mod_upper_bound (length p) 16 ltac:(lia)) as MU.
  set (full := length p / 16 * 16) in *.
  assert (Lr : length (rest 16 p) = length p - full) by (unfold rest; apply skipn_length).
  assert (EMP : chunks 16 (m ++ p) = chunks 16 m ++ chunks 16 p) by (rewrite chunks_app, Hr by lia; reflexivity).
  assert (ERP : rest 16 (m ++ p) = rest 16 p) by (rewrite rest_app, Hr by lia; reflexivity).
  assert (K : exists y w, (if 0 <? full then
      (mkgd (gtab d) (gmask d) (gcmUpdate (gtab d) (gy d) (firstn full p)) (grem d) (gidx d) (gwritten d + N.of_nat full)%N,
       n0 + full, skipn full p) else (d, n0, p)) = (mkgd (gtab d) (gmask d) y (grem d) 0 w, n0 + full, skipn full p) /\ ok2 y /\ val y = gfold (gH E) (chunks 16 (m ++ p)) 0 /\ w = (c + N.of_nat full)%N).
  { destruct (Nat.ltb_spec 0 full) as [G|G].
    - eexists _, _. rewrite Ei. split; [reflexivity|]. rewrite Et.
      destruct (gcmUpdate_ok (gcmInit E) (gH E) (gy d) (firstn full p) (gcmInit_ok E HE) Oy (isbytes_firstn _ _ Hp)) as [O V].
      split; auto. rewrite V, zpad_whole, EC, Vy, EMP, gfold_app by exact EM. split; auto. lia.
    - exists (gy d), (gwritten d). assert (F0 : full = 0) by lia. rewrite F0, Nat.add_0_r. cbn [skipn]. split.
      + destruct d. cbn [gtab gmask gy grem gidx gwritten] in *. now subst.
      + split; auto. rewrite EMP, gfold_app, (chunks_short _ 16 p) by lia. split; auto. lia. }
  destruct K as (y & w & EK & Oy' & Vy' & Ew). unfold gmac_write_tail. cbv zeta. fold full. rewrite EK. clear EK.
  change (skipn full p) with (rest 16 p). cbn [gtab gmask gy grem gidx gwritten].
  destruct (Nat.ltb_spec 0 (length (rest 16 p))) as [G|G]; cbn [fst snd].
  - split; [|lia]. replace (Nat.min 16 (length (rest 16 p))) with (length (rest 16 p)) by lia.
    unfold g_rel. cbn [gtab gmask gy grem gidx gwritten].
    split; [now apply isbytes_app|]. repeat split; auto; try apply Oy'.
    + rewrite copy_at_length; lia.
    + now rewrite ERP.
    + rewrite ERP. pose proof (copy_at_firstn N (grem d) 0 (rest 16 p) ltac:(lia) ltac:(lia)) as F. exact F.
    + apply copy_at_isbytes; auto. now apply isbytes_rest.
    + lia.
  - split; [|lia]. unfold g_rel. cbn [gtab gmask gy grem gidx gwritten].
    assert (ER : rest 16 p = []) by (apply length_zero_iff_nil; lia).
    split; [now apply isbytes_app|]. repeat split; auto; try apply Oy'.
    + now rewrite ERP, ER.
    + now rewrite ERP, ER.
    + lia.
Qed.
(** The length entered by Sum after a Write of [k] bytes, when [n] bytes had been written and [c]
    would have been entered before. *)
Definition count_write (n : nat) (c : N) (k : nat) : N :=
  if n mod 16 =? 0 then (c + N.of_nat k)%N
  else if n mod 16 + k <? 16 then (c + 2 * N.of_nat k)%N
  else (c + N.of_nat k - N.of_nat (n mod 16))%N.
Lemma g_write_rel : forall E iv d m c p, blk16 E -> g_rel E iv d m c -> isbytes p ->
  g_rel E iv (fst (gmac_write d p)) (m ++ p) (count_write (length m) c (length p)) /\ snd (gmac_write d p) = length p.
Proof.
  intros E iv d m c p HE R Hp. pose proof R as (Hm & Et & Ek & Oy & Vy & Hb & Hx & Ec).
  pose proof (buf_ok_nx_lt 16 16 _ _ _ ltac:(lia) Hb) as Hn. pose proof Hb as (Lx & En & Ex).
  assert (EI : length m mod 16 = gidx d) by (rewrite En; symmetry; apply rest_length; lia).
  unfold gmac_write, count_write. rewrite EI. destruct (Nat.ltb_spec 0 (gidx d)) as [G|G].
  - destruct (Nat.eqb_spec (gidx d) 0) as [Z|Z]; [lia|]. set (n := Nat.min (16 - gidx d) (length p)).
    assert (Lc : length (copy_at (grem d) (gidx d) p) = 16) by (rewrite copy_at_length; lia).
    assert (Hc : isbytes (copy_at (grem d) (gidx d) p)) by now apply copy_at_isbytes.
    destruct (Nat.ltb_spec (gidx d + n) 16) as [F|F].
    + destruct (Nat.ltb_spec (gidx d + length p) 16); [|lia]. assert (En' : n = length p) by lia. rewrite En'. cbn [fst snd]. split; auto.
      assert (LR : length (rest 16 m ++ p) < 16) by (rewrite app_length; lia).
      unfold g_rel. cbn [gtab gmask gy grem gidx gwritten]. split; [now apply isbytes_app|]. repeat split; auto; try apply Oy.
      * rewrite chunks_app, (chunks_short _ 16 (rest 16 m ++ p)), app_nil_r by lia. exact Vy.
      * rewrite rest_app, rest_short, app_length by lia. lia.
      * rewrite rest_app, rest_short by lia. rewrite copy_at_firstn by lia. now rewrite Ex.
      * lia.
    + destruct (Nat.ltb_spec (gidx d + length p) 16); [lia|]. assert (En' : n = 16 - gidx d) by lia.
      set (b := copy_at (grem d) (gidx d) p) in *.
      assert (Eb : b = rest 16 m ++ firstn n p).
      { unfold b. rewrite copy_at_full by lia. rewrite Ex, Lx, En'. reflexivity. }
      assert (LB : length (rest 16 m ++ firstn n p) = 16) by (rewrite <- Eb; exact Lc).
      destruct (gcmUpdate_ok (gcmInit E) (gH E) (gy d) b (gcmInit_ok E HE) Oy Hc) as [O V].
      assert (R1 : g_rel E iv (mkgd (gtab d) (gmask d) (gcmUpdate (gtab d) (gy d) b) b 0 (gwritten d + N.of_nat n)%N)
                     (m ++ firstn n p) (gwritten d + N.of_nat n)%N).
      { unfold g_rel. cbn [gtab gmask gy grem gidx gwritten]. rewrite Et.
        split; [apply isbytes_app; split; auto; now apply isbytes_firstn|]. split; auto. split; auto. split; auto. split; [|split; [|split; auto; lia]].
        - rewrite V, zpad_whole by (rewrite Lc; reflexivity). rewrite Vy, Eb, (chunks_app _ 16 m) by lia. now rewrite gfold_app.
        - split; auto. rewrite rest_app, rest_one by (auto; lia). auto. }
      destruct (g_tail_rel E iv _ _ _ (skipn n p) n HE R1 eq_refl (isbytes_skipn _ _ Hp)) as [R2 N2].
      rewrite <- app_assoc, firstn_skipn in R2. rewrite skipn_length in *. split; [|rewrite N2; lia].
      replace (c + N.of_nat (length p) - N.of_nat (gidx d))%N with (gwritten d + N.of_nat n + N.of_nat (length p - n))%N by lia. exact R2.
  - destruct (Nat.eqb_spec (gidx d) 0); [|lia]. exact (g_tail_rel E iv d m c p 0 HE R ltac:(lia) Hp).
Qed.
Lemma g_sum_ok : forall E iv d m c inp, blk16 E -> g_rel E iv d m c ->
  snd (gmac_sum d inp) = inp ++ gmac_tag_len E (if length iv =? 0 then zeros 12 else iv) m c ++ zeros (length inp).
Proof.
  intros E iv d m c inp HE (Hm & Et & Ek & Oy & Vy & Hb & Hx & Ec). destruct Hb as (Lx & En & Ex).
  unfold gmac_sum. cbn [snd]. rewrite Et, Ek, Ec.
  set (yy := if 0 <? gidx d then _ else _).
  assert (K : ok2 yy /\ val yy = gfold (gH E) (zpad m) 0).
  { unfold yy. destruct (Nat.ltb_spec 0 (gidx d)) as [G|G].
    - rewrite Ex. destruct (gcmUpdate_ok (gcmInit E) (gH E) (gy d) (rest 16 m) (gcmInit_ok E HE) Oy (isbytes_rest _ _ Hm)) as [O V].
      split; auto. rewrite V, Vy. unfold zpad at 2. rewrite gfold_app. f_equal. unfold zpad.
      pose proof (rest_length_lt N 16 m ltac:(lia)). rewrite (chunks_short _ 16 (rest 16 m)), (rest_short _ 16 (rest 16 m)) by lia. reflexivity.
    - split; auto. rewrite Vy. unfold zpad. destruct (Nat.eqb_spec (length (rest 16 m)) 0); [|lia]. now rewrite app_nil_r. }
  destruct K as [O V]. clearbody yy.
  assert (EH : copy_at (zeros (length inp + (length inp + 16))) 0 inp = inp ++ zeros (length inp + 16)).
  { unfold copy_at. rewrite zeros_length, firstn_O, firstn_all2 by lia. cbn [app plus]. rewrite skipn_zeros. f_equal. f_equal. lia. }
  rewrite EH. rewrite firstn_app_len, skipn_app_len by reflexivity. f_equal.
  assert (LM : length (gJ E iv) = 16).
  { unfold gJ. apply HE. unfold gcm_J0. set (v := if length iv =? 0 then zeros 12 else iv).
    destruct (Nat.eqb_spec (length v) 12); [rewrite app_length; cbn [length]; lia|apply be_bytes_length]. }
  rewrite (finish_ok E _ yy m c _ HE) by (rewrite ?zeros_length; auto; lia).
  rewrite skipn_zeros. unfold gmac_tag_len, gJ. fold (gH E). f_equal. f_equal. lia.
Qed.
