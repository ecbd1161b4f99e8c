(** PropFugue.v -- C122: the fugue package. *)
From Coq Require Import List NArith Arith Lia Bool.
Require Import Verif.Base Verif.Words Verif.HashAPI Verif.Refine Verif.Threefish Verif.Kupyna Verif.SpecAes Verif.SpecFugue Verif.FugueTab Verif.Fugue.
Import ListNotations.
Local Open Scope nat_scope.
(** ** smix *)
Definition by8 (k : N) (w : N) : N := w8 (N.shiftr w (8 * k)).
Lemma by8_bit : forall k w i, N.testbit (by8 k w) i = (N.testbit w (i + 8 * k) && (i <? 8)%N).
Proof.
  intros. unfold by8, w8. change 255%N with (N.ones 8). rewrite N.land_spec, N.shiftr_spec by apply N.le_0_l. f_equal.
  destruct (N.ltb_spec i 8); [now apply N.ones_spec_low|now apply N.ones_spec_high].
Qed.
Lemma by8_lt : forall k w, (by8 k w < 256)%N. Proof. intros. apply w8_lt. Qed.
Lemma by8_lxor : forall k a b, by8 k (N.lxor a b) = N.lxor (by8 k a) (by8 k b).
Proof. intros. apply N.bits_inj. intro i. rewrite N.lxor_spec, !by8_bit, N.lxor_spec. destruct (i <? 8)%N; now rewrite ?andb_true_r, ?andb_false_r. Qed.
Lemma by8_lor : forall k a b, by8 k (N.lor a b) = N.lor (by8 k a) (by8 k b).
Proof. intros. apply N.bits_inj. intro i. rewrite N.lor_spec, !by8_bit, N.lor_spec. destruct (i <? 8)%N; now rewrite ?andb_true_r, ?andb_false_r. Qed.
Lemma by8_land : forall k a b, by8 k (N.land a b) = N.land (by8 k a) (by8 k b).
Proof. intros. apply N.bits_inj. intro i. rewrite N.land_spec, !by8_bit, N.land_spec. destruct (i <? 8)%N; now rewrite ?andb_true_r, ?andb_false_r. Qed.
Lemma by8_shl : forall k s j w, (k = j + s)%N -> (k < 4)%N -> by8 k (shl32 w (8 * s)) = by8 j w.
Proof.
  intros k s j w -> H. apply N.bits_inj. intro i. rewrite !by8_bit. destruct (N.ltb_spec i 8); rewrite ?andb_false_r, ?andb_true_r; [|reflexivity].
  unfold shl32, w32. change 4294967295%N with (N.ones 32). rewrite N.land_spec, N.ones_spec_low, andb_true_r by lia. rewrite N.shiftl_spec_high' by lia. f_equal. lia.
Qed.
Lemma by8_shr : forall k s j w, (j = k + s)%N -> by8 k (N.shiftr w (8 * s)) = by8 j w.
Proof. intros k s j w ->. unfold by8. rewrite N.shiftr_shiftr. do 2 f_equal. lia. Qed.
Lemma be4 : forall w, be_bytes 4 w = [by8 3 w; by8 2 w; by8 1 w; by8 0 w].
Proof. intro w. unfold be_bytes. cbn [le_bytes rev app]. unfold by8. rewrite !N.shiftr_shiftr, N.shiftr_0_r. reflexivity. Qed.
Lemma land_lt32 : forall a b, (b < 2 ^ 32)%N -> (N.land a b < 2 ^ 32)%N.
Proof. intros a b H. apply (lt_pow2_bits 32). intros i Hi. rewrite N.land_spec. rewrite (proj1 (lt_pow2_bits 32 b) H i Hi). apply andb_false_r. Qed.
Lemma lor_lt32 : forall a b, (a < 2 ^ 32)%N -> (b < 2 ^ 32)%N -> (N.lor a b < 2 ^ 32)%N.
Proof. intros a b Ha Hb. apply (lt_pow2_bits 32). intros i Hi. rewrite N.lor_spec. rewrite (proj1 (lt_pow2_bits 32 a) Ha i Hi), (proj1 (lt_pow2_bits 32 b) Hb i Hi). reflexivity. Qed.
Lemma land_by8_ff : forall k w, N.land (by8 k w) 255 = by8 k w.
Proof. intros. change (w8 (by8 k w) = by8 k w). apply w8_small, by8_lt. Qed.
Lemma pack_ok : forall a b c d, N.lor (N.lor (N.lor (N.land a 0xFF000000) (N.land b 0x00FF0000)) (N.land c 0x0000FF00)) (N.land d 0x000000FF) = be_val [by8 3 a; by8 2 b; by8 1 c; by8 0 d].
Proof.
  intros. set (m := N.lor _ _). assert (H : (m < 2 ^ 32)%N) by (unfold m; repeat (apply lor_lt32 || (apply land_lt32; reflexivity))).
  assert (E : be_bytes 4 m = [by8 3 a; by8 2 b; by8 1 c; by8 0 d]).
  { rewrite be4. unfold m. rewrite !by8_lor, !by8_land.
    repeat match goal with |- context [by8 ?k ?c] => match c with N.pos _ => let v := eval vm_compute in (by8 k c) in change (by8 k c) with v end end.
    rewrite !N.land_0_r, !land_by8_ff, !N.lor_0_r, !N.lor_0_l. reflexivity. }
  rewrite <- E, be_val_be_bytes. symmetry. apply N.mod_small. exact H.
Qed.
Lemma gf_lin : forall m b c, gf_mul m (N.lxor b c) = N.lxor (gf_mul m b) (gf_mul m c).
Proof.
  intros m b c. unfold gf_mul. generalize 8. intro k. revert m b c. induction k as [|k IH]; intros m b c; [reflexivity|]. cbn [gf_mul_aux].
  rewrite !N.div2_spec, N.shiftr_lxor, IH, <- !N.bit0_odd, N.lxor_spec. set (u := gf_mul_aux _ _ _). set (v := gf_mul_aux _ _ _).
  apply N.bits_inj. intro i. rewrite !N.lxor_spec. destruct (N.testbit b 0), (N.testbit c 0); cbn [xorb]; rewrite ?N.bits_0; destruct (N.testbit m i), (N.testbit u i), (N.testbit v i); reflexivity.
Qed.
Lemma gf_mul_0 : forall m, gf_mul m 0 = 0%N.
Proof. intro m. pose proof (gf_lin m 0 0) as H. rewrite N.lxor_0_l in H. rewrite N.lxor_nilpotent in H. exact H. Qed.
Definition fsb : list N := Eval vm_compute in map (fun b => aes_sbox (N.of_nat b)) (seq 0 256).
Lemma fsb_ok : forall b, b < 256 -> aes_sbox (N.of_nat b) = at_ fsb b.
Proof.
  intros b Hb. assert (E : fsb = map (fun b => aes_sbox (N.of_nat b)) (seq 0 256)) by (vm_compute; reflexivity).
  rewrite E. symmetry. exact (Kupyna.at_map_seq (fun b => aes_sbox (N.of_nat b)) 256 b Hb).
Qed.
Definition fmix (k : nat) : list N := match k with 0 => fg_mixtab0 | 1 => fg_mixtab1 | 2 => fg_mixtab2 | _ => fg_mixtab3 end.
Lemma fmix_check : forallb (fun k => forallb (fun i => forallb (fun b => N.eqb (by8 (3 - N.of_nat i) (at_ (fmix k) b)) (gf_mul (fg_M i k) (at_ fsb b))) (seq 0 256)) (seq 0 4)) (seq 0 4) = true.
Proof. vm_compute. reflexivity. Qed.
Lemma fmix_ok : forall k i j x, k < 4 -> i < 4 -> by8 (3 - N.of_nat i) (at_ (fmix k) (fg_ix x (8 * j))) = gf_mul (fg_M i k) (aes_sbox (by8 j x)).
Proof.
  intros k i j x Hk Hi. unfold fg_ix. fold (by8 j x). assert (Hb : N.to_nat (by8 j x) < 256) by (pose proof (by8_lt j x); lia).
  rewrite <- (N2Nat.id (by8 j x)) at 2. rewrite (fsb_ok _ Hb). pose proof fmix_check as C. rewrite forallb_forall in C. specialize (C k ltac:(apply in_seq; lia)).
  rewrite forallb_forall in C. specialize (C i ltac:(apply in_seq; lia)). rewrite forallb_forall in C. specialize (C (N.to_nat (by8 j x)) ltac:(apply in_seq; lia)). now apply N.eqb_eq.
Qed.
Ltac push8 :=
  repeat match goal with
  | |- context [by8 ?k (N.lxor ?a ?b)] => rewrite (by8_lxor k a b)
  | |- context [by8 ?k (shl32 ?w ?sh)] => let s := eval vm_compute in (sh / 8)%N in let j := eval vm_compute in (k - s)%N in
      change (by8 k (shl32 w sh)) with (by8 k (shl32 w (8 * s))); rewrite (by8_shl k s j w eq_refl eq_refl)
  | |- context [by8 ?k (N.shiftr ?w ?sh)] => let s := eval vm_compute in (sh / 8)%N in let j := eval vm_compute in (k + s)%N in
      change (by8 k (N.shiftr w sh)) with (by8 k (N.shiftr w (8 * s))); rewrite (by8_shr k s j w eq_refl)
  end.
Lemma by8_0 : forall k, by8 k 0 = 0%N. Proof. intro k. unfold by8. now rewrite N.shiftr_0_l. Qed.
Lemma at0 : forall x, fg_ix x 24 = fg_ix x (8 * 3) /\ fg_ix x 16 = fg_ix x (8 * 2) /\ fg_ix x 8 = fg_ix x (8 * 1) /\ fg_ix x 0 = fg_ix x (8 * 0).
Proof. intro x. repeat split. Qed.
(** the byte (i, j) computed by the code: c_j is the column sum, r_i the row sum *)
Section Mix.
Variable s : nat -> nat -> N.
Definition T (k j : nat) (i : nat) : N := gf_mul (fg_M i k) (s k j).
Lemma super0 : forall i j, fg_supermix s i j = N.lxor (N.lxor (N.lxor (N.lxor (N.lxor 0 (T 0 j i)) (T 1 j i)) (T 2 j i)) (T 3 j i))
  (gf_mul (fg_M j i) (fold_left (fun a k => if k =? i then a else N.lxor a (s i k)) [0; 1; 2; 3] 0%N)).
Proof. reflexivity. Qed.
Lemma row0 : forall j, gf_mul (fg_M j 0) (fold_left (fun a k => if k =? 0 then a else N.lxor a (s 0 k)) [0; 1; 2; 3] 0%N) = N.lxor (N.lxor (N.lxor 0 (T 0 1 j)) (T 0 2 j)) (T 0 3 j).
Proof. intro j. cbn [fold_left Nat.eqb]. rewrite !gf_lin, gf_mul_0. reflexivity. Qed.
Lemma row1 : forall j, gf_mul (fg_M j 1) (fold_left (fun a k => if k =? 1 then a else N.lxor a (s 1 k)) [0; 1; 2; 3] 0%N) = N.lxor (N.lxor (N.lxor 0 (T 1 0 j)) (T 1 2 j)) (T 1 3 j).
Proof. intro j. cbn [fold_left Nat.eqb]. rewrite !gf_lin, gf_mul_0. reflexivity. Qed.
Lemma row2 : forall j, gf_mul (fg_M j 2) (fold_left (fun a k => if k =? 2 then a else N.lxor a (s 2 k)) [0; 1; 2; 3] 0%N) = N.lxor (N.lxor (N.lxor 0 (T 2 0 j)) (T 2 1 j)) (T 2 3 j).
Proof. intro j. cbn [fold_left Nat.eqb]. rewrite !gf_lin, gf_mul_0. reflexivity. Qed.
Lemma row3 : forall j, gf_mul (fg_M j 3) (fold_left (fun a k => if k =? 3 then a else N.lxor a (s 3 k)) [0; 1; 2; 3] 0%N) = N.lxor (N.lxor (N.lxor 0 (T 3 0 j)) (T 3 1 j)) (T 3 2 j).
Proof. intro j. cbn [fold_left Nat.eqb]. rewrite !gf_lin, gf_mul_0. reflexivity. Qed.
End Mix.
(** the code with the table look-ups as an argument *)
Definition mixcore (t : nat -> nat -> N) : list N :=
  let c j := N.lxor (N.lxor (N.lxor (N.lxor 0 (t 0 j)) (t 1 j)) (t 2 j)) (t 3 j) in
  let r0 := N.lxor (N.lxor (N.lxor 0 (t 0 1)) (t 0 2)) (t 0 3) in
  let r1 := N.lxor (N.lxor (N.lxor 0 (t 1 0)) (t 1 2)) (t 1 3) in
  let r2 := N.lxor (N.lxor (N.lxor 0 (t 2 0)) (t 2 1)) (t 2 3) in
  let r3 := N.lxor (N.lxor (N.lxor 0 (t 3 0)) (t 3 1)) (t 3 2) in
  let m a b c d := N.lor (N.lor (N.lor (N.land a 0xFF000000) (N.land b 0x00FF0000)) (N.land c 0x0000FF00)) (N.land d 0x000000FF) in
  [ m (N.lxor (c 0) (shl32 r0 0)) (N.lxor (c 1) (shl32 r1 0)) (N.lxor (c 2) (shl32 r2 0)) (N.lxor (c 3) (shl32 r3 0));
    m (N.lxor (c 1) (shl32 r0 8)) (N.lxor (c 2) (shl32 r1 8)) (N.lxor (c 3) (shl32 r2 8)) (N.lxor (c 0) (N.shiftr r3 24));
    m (N.lxor (c 2) (shl32 r0 16)) (N.lxor (c 3) (shl32 r1 16)) (N.lxor (c 0) (N.shiftr r2 16)) (N.lxor (c 1) (N.shiftr r3 16));
    m (N.lxor (c 3) (shl32 r0 24)) (N.lxor (c 0) (N.shiftr r1 8)) (N.lxor (c 1) (N.shiftr r2 8)) (N.lxor (c 2) (N.shiftr r3 8)) ].
Lemma core_ok : forall t s, (forall k j i, k < 4 -> i < 4 -> by8 (3 - N.of_nat i) (t k j) = T s k j i) ->
  mixcore t = map (fun j => be_val (map (fun i => fg_supermix s i ((j + i) mod 4)) [0; 1; 2; 3])) [0; 1; 2; 3].
Proof.
  intros t s H.
  assert (H3 : forall k j, k < 4 -> by8 3 (t k j) = T s k j 0) by (intros k j Hk; exact (H k j 0 Hk ltac:(lia))).
  assert (H2 : forall k j, k < 4 -> by8 2 (t k j) = T s k j 1) by (intros k j Hk; exact (H k j 1 Hk ltac:(lia))).
  assert (H1 : forall k j, k < 4 -> by8 1 (t k j) = T s k j 2) by (intros k j Hk; exact (H k j 2 Hk ltac:(lia))).
  assert (H0 : forall k j, k < 4 -> by8 0 (t k j) = T s k j 3) by (intros k j Hk; exact (H k j 3 Hk ltac:(lia))). clear H.
  cbn [map]. repeat match goal with |- context [(?a + ?b) mod 4] => let v := eval vm_compute in ((a + b) mod 4) in change ((a + b) mod 4) with v end.
  rewrite !super0, !row0, !row1, !row2, !row3. unfold mixcore. cbv zeta beta. rewrite !pack_ok. push8. rewrite !by8_0, !H3, !H2, !H1, !H0 by lia. reflexivity.
Qed.
Lemma smix_ok : forall w, fg_go_smix w = fg_smix w.
Proof.
  intro w. change (fg_go_smix w) with (mixcore (fun k j => at_ (fmix k) (fg_ix (at_ w j) (8 * (3 - N.of_nat k))))).
  set (t := fun k j : nat => _). set (s := fun i j : nat => aes_sbox (nth i (be_bytes 4 (at_ w j)) 0%N)). unfold fg_smix. cbv zeta. fold s.
  assert (H : forall k j i, k < 4 -> i < 4 -> by8 (3 - N.of_nat i) (t k j) = T s k j i).
  { intros k j i Hk Hi. unfold T, t, s. rewrite (fmix_ok k i _ _ Hk Hi). apply f_equal, f_equal. rewrite be4. destruct k as [|[|[|[|k]]]]; try lia; reflexivity. }
  clearbody t s. exact (core_ok t s H).
Qed.
(** ** The positions *)
Definition fg_k (v : fgv) : nat := match v with FG2 => 6 | FG384 => 9 | FG512 => 12 end.
Definition fg_P (v : fgv) : nat := match v with FG2 => 5 | FG384 => 4 | FG512 => 3 end.
(** the state of the specification held by the array s at the position r *)
Definition fg_view (v : fgv) (st : list N * nat) : list N := fg_rot (fg_k v * snd st) (firstn (fg_n v) (fst st)).
Definition sm4 (s0 s1 s2 s3 : list N -> N) (l : list N) : list N := [s0 l; s1 l; s2 l; s3 l].
Lemma step_len : forall sm v st w, length (fst st) = 36 -> snd st < fg_P v -> length (fst (fg_step sm v st w)) = 36 /\ snd (fg_step sm v st w) < fg_P v.
Proof.
  assert (X : forall sm n w p s, length s = 36 -> n <= 36 -> Forall (fun i => match i with FR rc => rc <= n | _ => True end) p -> length (fg_exec sm n w s p) = 36).
  { intros sm n w p. unfold fg_exec. induction p as [|i p IH]; intros s L Hn F; [exact L|]. apply Forall_cons_iff in F. destruct F as [Fi F]. cbn [fold_left]. apply IH; [|exact Hn|exact F].
    destruct i as [d e|d|i0 i1 i2 i3|rc]; cbn [fg_exec1]; cbv zeta; rewrite ?upd_length; try exact L. unfold fg_ror. cbv zeta.
    rewrite !copy_at_length; [exact L|lia|rewrite copy_at_length by lia; lia]. }
  intros sm v [s r] w L Hr. cbn [fst snd] in *. unfold fg_step. cbn [fst snd]. split.
  - apply X; [exact L|destruct v; cbn [fg_n]; lia|]. assert (H : In (nth r (fg_progs v) []) (fg_progs v)) by (apply nth_In; destruct v; exact Hr).
    assert (A : Forall (Forall (fun i => match i with FR rc => rc <= fg_n v | _ => True end)) (fg_progs v)) by (destruct v; cbn [fg_progs]; repeat constructor).
    rewrite Forall_forall in A. exact (A _ H).
  - cbv zeta. replace (length (fg_progs v)) with (fg_P v) by (destruct v; reflexivity). destruct (Nat.eqb_spec (S r) (fg_P v)); [destruct v; cbn [fg_P]; lia|lia].
Qed.
Lemma step_ok : forall s0 s1 s2 s3 v st w, length (fst st) = 36 -> snd st < fg_P v ->
  fg_view v (fg_step (sm4 s0 s1 s2 s3) v st w) = fg_round (sm4 s0 s1 s2 s3) v (fg_view v st) w.
Proof.
  intros s0 s1 s2 s3 v [s r] w L Hr. cbn [fst snd] in *. unfold fg_view, fg_step. cbn [fst snd]. destr_list s L 36.
  destruct v; cbn [fg_P] in Hr.
  - destruct r as [|[|[|[|[|r]]]]]; [| | | | |lia]; lazy -[N.lxor]; reflexivity.
  - destruct r as [|[|[|[|r]]]]; [| | | |lia]; lazy -[N.lxor]; reflexivity.
  - destruct r as [|[|[|r]]]; [| | |lia]; lazy -[N.lxor]; reflexivity.
Qed.
(** ** The final rounds *)
Lemma exec_len : forall sm n w p s, length s = 36 -> n <= 36 -> Forall (fun i => match i with FR rc => rc <= n | _ => True end) p -> length (fg_exec sm n w s p) = 36.
Proof.
  intros sm n w p. unfold fg_exec. induction p as [|i p IH]; intros s L Hn F; [exact L|]. apply Forall_cons_iff in F. destruct F as [Fi F]. cbn [fold_left]. apply IH; [|exact Hn|exact F].
  destruct i as [d e|d|i0 i1 i2 i3|rc]; cbn [fg_exec1]; cbv zeta; rewrite ?upd_length; try exact L. unfold fg_ror. cbv zeta.
  rewrite !copy_at_length; [exact L|lia|rewrite copy_at_length by lia; lia].
Qed.
Lemma n36 : forall v, fg_n v <= 36. Proof. intro v. destruct v; cbn [fg_n]; lia. Qed.
Lemma fina_ok : forall s0 s1 s2 s3 v s, length s = 36 ->
  firstn (fg_n v) (fg_exec (sm4 s0 s1 s2 s3) (fg_n v) 0 s (fg_fina v)) = fg_subround (sm4 s0 s1 s2 s3) v (firstn (fg_n v) s).
Proof. intros s0 s1 s2 s3 v s L. destr_list s L 36. destruct v; lazy -[N.lxor]; reflexivity. Qed.
Lemma finb_ok : forall s0 s1 s2 s3 v s, length s = 36 ->
  firstn (fg_n v) (fg_exec (sm4 s0 s1 s2 s3) (fg_n v) 0 s (fg_finb v)) = fold_left (fg_g2step (sm4 s0 s1 s2 s3)) (fg_g2 v) (firstn (fg_n v) s).
Proof. intros s0 s1 s2 s3 v s L. destr_list s L 36. destruct v; lazy -[N.lxor]; reflexivity. Qed.
Lemma finc_ok : forall s0 s1 s2 s3 v s, length s = 36 ->
  firstn (fg_n v) (fg_exec (sm4 s0 s1 s2 s3) (fg_n v) 0 s (fg_finc v)) = fg_adds (firstn (fg_n v) s) (map (fun d => (d, 0)) (match v with FG2 => [4; 15] | FG384 => [4; 12; 24] | FG512 => [4; 9; 18; 27] end)).
Proof. intros s0 s1 s2 s3 v s L. destr_list s L 36. destruct v; lazy -[N.lxor]; reflexivity. Qed.
Lemma ror_ok : forall v r s, length s = 36 -> r < fg_P v -> firstn (fg_n v) (fg_ror (fg_n v) (match v with FG2 => 6 | FG384 => 9 | FG512 => 12 end * r) s) = fg_view v (s, r) /\
  length (fg_ror (fg_n v) (match v with FG2 => 6 | FG384 => 9 | FG512 => 12 end * r) s) = 36.
Proof.
  intros v r s L Hr. destr_list s L 36. destruct v; cbn [fg_P] in Hr.
  - destruct r as [|[|[|[|[|r]]]]]; [| | | | |lia]; split; reflexivity.
  - destruct r as [|[|[|[|r]]]]; [| | | |lia]; split; reflexivity.
  - destruct r as [|[|[|r]]]; [| | |lia]; split; reflexivity.
Qed.
Lemma iter_ok : forall n v f g, (forall s, length s = 36 -> length (f s) = 36 /\ firstn (fg_n v) (f s) = g (firstn (fg_n v) s)) ->
  forall s, length s = 36 -> length (fg_iter n f s) = 36 /\ firstn (fg_n v) (fg_iter n f s) = fg_iter n g (firstn (fg_n v) s).
Proof.
  induction n as [|n IH]; intros v f g H s L; [split; [exact L|reflexivity]|]. cbn [fg_iter]. destruct (H s L) as [L1 E1]. destruct (IH v f g H (f s) L1) as [L2 E2].
  split; [exact L2|]. rewrite E2, E1. reflexivity.
Qed.
Lemma final_ok : forall s0 s1 s2 s3 v s r, length s = 36 -> r < fg_P v ->
  firstn (fg_n v) (fg_final (sm4 s0 s1 s2 s3) v s r) = fg_G (sm4 s0 s1 s2 s3) v (fg_view v (s, r)).
Proof.
  intros s0 s1 s2 s3 v s r L Hr. unfold fg_final, fg_G. cbv zeta. destruct (ror_ok v r s L Hr) as [E1 L1]. rewrite <- E1. set (t := fg_ror _ _ s) in *. clearbody t. clear E1.
  set (na := match v with FG2 => 10 | _ => _ end). set (sm := sm4 s0 s1 s2 s3).
  assert (FA : forall s, length s = 36 -> length (fg_exec sm (fg_n v) 0 s (fg_fina v)) = 36 /\ firstn (fg_n v) (fg_exec sm (fg_n v) 0 s (fg_fina v)) = fg_subround sm v (firstn (fg_n v) s)).
  { intros x Lx. split; [|apply fina_ok; exact Lx]. apply exec_len; [exact Lx|apply n36|]. destruct v; repeat constructor. }
  assert (FB : forall s, length s = 36 -> length (fg_exec sm (fg_n v) 0 s (fg_finb v)) = 36 /\ firstn (fg_n v) (fg_exec sm (fg_n v) 0 s (fg_finb v)) = fold_left (fg_g2step sm) (fg_g2 v) (firstn (fg_n v) s)).
  { intros x Lx. split; [|apply finb_ok; exact Lx]. apply exec_len; [exact Lx|apply n36|]. destruct v; cbn [fg_finb fg_n]; repeat (apply Forall_cons; [first [exact I | lia]|]); apply Forall_nil. }
  destruct (iter_ok na v _ _ FA t L1) as [L2 E2]. rewrite <- E2. set (t2 := fg_iter na (fun s => fg_exec _ _ _ s _) t) in *. clearbody t2. clear E2.
  destruct (iter_ok 13 v _ (fun S => fold_left (fg_g2step sm) (fg_g2 v) S) FB t2 L2) as [L3 E3]. rewrite <- E3. set (t3 := fg_iter 13 (fun s => fg_exec _ _ _ s _) t2) in *. clearbody t3. clear E3.
  apply finc_ok. exact L3.
Qed.
(** ** The words *)
Lemma be_val_snoc : forall l b, be_val (l ++ [b]) = (b + 256 * be_val l)%N.
Proof. intros. unfold be_val. rewrite rev_app_distr. reflexivity. Qed.
Lemma be_val_lt4 : forall l, isbytes l -> (be_val l < 2 ^ N.of_nat (8 * length l))%N.
Proof. intros l B. unfold be_val. rewrite <- (rev_length l). apply Refine.le_val_lt. apply Forall_rev. exact B. Qed.
Lemma shift_ok : forall l b, isbytes l -> (b < 256)%N -> length l < 4 -> fg_shift (be_val l) b = be_val (l ++ [b]).
Proof.
  intros l b B Hb L. rewrite be_val_snoc. unfold fg_shift. change (N.land b 255) with (w8 b). rewrite w8_small by exact Hb.
  assert (H : (be_val l < 2 ^ 24)%N). { eapply N.lt_le_trans; [apply be_val_lt4; exact B|]. apply N.pow_le_mono_r; lia. }
  unfold shl32. rewrite w32_small by (rewrite N.shiftl_mul_pow2; change (2 ^ 24)%N with 16777216%N in H; change (2 ^ 8)%N with 256%N; lia).
  rewrite N.shiftl_mul_pow2. change (2 ^ 8)%N with 256%N. rewrite N.lor_comm. rewrite (N.mul_comm (be_val l)).
  rewrite <- N.lxor_lor. 2:{ apply N.bits_inj. intro i. rewrite N.land_spec, N.bits_0. destruct (N.ltb_spec i 8).
    - change 256%N with (2 ^ 8)%N. rewrite N.mul_comm, N.mul_pow2_bits_low by assumption. apply andb_false_r.
    - change 256%N with (2 ^ 8)%N in Hb. rewrite (proj1 (lt_pow2_bits 8 b) Hb i H0). reflexivity. }
  symmetry. apply N.add_nocarry_lxor. apply N.bits_inj. intro i. rewrite N.land_spec, N.bits_0. destruct (N.ltb_spec i 8).
  - change 256%N with (2 ^ 8)%N. rewrite N.mul_comm, N.mul_pow2_bits_low by assumption. apply andb_false_r.
  - change 256%N with (2 ^ 8)%N in Hb. rewrite (proj1 (lt_pow2_bits 8 b) Hb i H0). reflexivity.
Qed.
Lemma shifts_ok : forall q l, isbytes l -> isbytes q -> length l + length q <= 4 -> fold_left fg_shift q (be_val l) = be_val (l ++ q).
Proof.
  induction q as [|b q IH]; intros l Bl Bq L; [now rewrite app_nil_r|]. apply Forall_cons_iff in Bq. destruct Bq as [Hb Bq]. cbn [length] in L. cbn [fold_left].
  rewrite shift_ok by (assumption || lia). rewrite IH; [now rewrite <- app_assoc|apply Forall_app; split; [exact Bl|now constructor]|exact Bq|rewrite app_length; cbn [length]; lia].
Qed.
Lemma shl_zeros : forall n l, isbytes l -> length l + n <= 4 -> Nat.iter n (fun p => shl32 p 8) (be_val l) = be_val (l ++ zeros n).
Proof.
  assert (Y : forall n (f : N -> N) p, Nat.iter n f (f p) = f (Nat.iter n f p)) by (induction n as [|n IH]; intros f p; [reflexivity|]; cbn [Nat.iter nat_rect]; f_equal; apply IH).
  assert (X : forall n p, Nat.iter n (fun p => shl32 p 8) p = fold_left fg_shift (zeros n) p).
  { induction n as [|n IH]; intro p; [reflexivity|]. change (zeros (S n)) with (0%N :: zeros n). cbn [fold_left]. rewrite <- IH. unfold fg_shift. rewrite N.land_0_l, N.lor_0_r. exact (eq_sym (Y n (fun p => shl32 p 8) p)). }
  intros n l B L. rewrite X. apply shifts_ok; [exact B|apply zeros_isbytes|rewrite zeros_length; lia].
Qed.
Lemma getu32s_ok : forall q, fg_getu32s q (length q / 4) = map be_val (chunks 4 q).
Proof.
  intro q. unfold fg_getu32s, chunks. rewrite map_map. apply map_ext. intro k. f_equal. unfold slice. rewrite ?(Nat.mul_comm k 4). f_equal. lia.
Qed.
(** ** smix of the code in the place of that of the specification *)
Definition fsm (j : nat) (w : list N) : N :=
  be_val (map (fun i => fg_supermix (fun i j => aes_sbox (nth i (be_bytes 4 (at_ w j)) 0%N)) i ((j + i) mod 4)) [0; 1; 2; 3]).
Lemma fsm_eq : sm4 (fsm 0) (fsm 1) (fsm 2) (fsm 3) = fg_smix. Proof. reflexivity. Qed.
Lemma exec_ext : forall a b n w p s, (forall l, a l = b l) -> fg_exec a n w s p = fg_exec b n w s p.
Proof.
  intros a b n w p s H. unfold fg_exec. revert s. induction p as [|i p IH]; intro s; [reflexivity|]. cbn [fold_left]. rewrite IH. f_equal. destruct i; cbn [fg_exec1]; rewrite ?H; reflexivity.
Qed.
Lemma iter_ext : forall n f g s, (forall s, f s = g s) -> fg_iter n f s = fg_iter n g s.
Proof. induction n as [|n IH]; intros f g s H; [reflexivity|]. cbn [fg_iter]. rewrite H. apply IH, H. Qed.
Lemma final_ext : forall a b v s r, (forall l, a l = b l) -> fg_final a v s r = fg_final b v s r.
Proof.
  intros a b v s r H. unfold fg_final. cbv zeta. rewrite (exec_ext a b) by exact H. f_equal.
  rewrite (iter_ext 13 _ (fun s => fg_exec b (fg_n v) 0 s (fg_finb v))) by (intro x; apply exec_ext, H). f_equal. apply iter_ext. intro x. apply exec_ext, H.
Qed.
Lemma go_step : forall v st w, length (fst st) = 36 -> snd st < fg_P v ->
  let st' := fg_step fg_go_smix v st w in length (fst st') = 36 /\ snd st' < fg_P v /\ fg_view v st' = fg_round fg_smix v (fg_view v st) w.
Proof.
  intros v st w L Hr. cbv zeta. assert (E : fg_step fg_go_smix v st w = fg_step fg_smix v st w) by (unfold fg_step; f_equal; apply exec_ext, smix_ok). rewrite E.
  destruct (step_len fg_smix v st w L Hr) as [L1 H1]. split; [exact L1|]. split; [exact H1|]. rewrite <- fsm_eq. apply step_ok; assumption.
Qed.
Lemma go_steps : forall v ws st, length (fst st) = 36 -> snd st < fg_P v ->
  let st' := fold_left (fg_step fg_go_smix v) ws st in length (fst st') = 36 /\ snd st' < fg_P v /\ fg_view v st' = fold_left (fg_round fg_smix v) ws (fg_view v st).
Proof.
  intros v ws. induction ws as [|w ws IH]; intros st L Hr; [repeat split; assumption|]. cbv zeta in *. cbn [fold_left]. destruct (go_step v st w L Hr) as (L1 & H1 & E1). cbv zeta in L1, H1, E1.
  rewrite <- E1. apply IH; assumption.
Qed.
Lemma go_final : forall v s r, length s = 36 -> r < fg_P v -> firstn (fg_n v) (fg_final fg_go_smix v s r) = fg_G fg_smix v (fg_view v (s, r)).
Proof. intros v s r L Hr. rewrite (final_ext _ fg_smix) by apply smix_ok. rewrite <- fsm_eq. apply final_ok; assumption. Qed.
(** ** The digest *)
Definition fg_hs (v : fgv) (hs : nat) : Prop := match v with FG2 => hs = 28 \/ hs = 32 | FG384 => hs = 48 | FG512 => hs = 64 end.
Definition fg_rel (v : fgv) (hs : nat) (d : fgd) (m : list N) : Prop :=
  isbytes m /\ length (fg_s d) = 36 /\ fg_rshift d < fg_P v /\
  fg_view v (fg_s d, fg_rshift d) = fold_left (fg_round fg_smix v) (map be_val (chunks 4 m)) (fg_S0 v hs) /\
  fg_plen d = length (rest 4 m) /\ fg_partial d = be_val (rest 4 m) /\ fg_len d = w64 (8 * N.of_nat (length m)).
Lemma reset_ok : forall v hs, fg_hs v hs -> fg_rel v hs (fg_reset hs) [].
Proof.
  intros v hs H. unfold fg_rel. split; [apply Forall_nil|]. destruct v; cbn [fg_hs] in H.
  - destruct H as [-> | ->]; repeat split; vm_compute; lia.
  - subst hs; repeat split; vm_compute; lia.
  - subst hs; repeat split; vm_compute; lia.
Qed.
Lemma write_ok : forall v hs d m p, fg_rel v hs d m -> isbytes p -> fg_rel v hs (fst (fg_write v d p)) (m ++ p) /\ snd (fg_write v d p) = length p.
Proof.
  intros v hs d m p (Bm & L & Hr & E & EP & EQ & EL) Bp. split; [|reflexivity]. unfold fg_write. cbv zeta. cbn [fst].
  pose proof (rest_length_lt _ 4 m ltac:(lia)) as LR. assert (BR : isbytes (rest 4 m)) by (apply isbytes_skipn; exact Bm).
  assert (ELEN : w64 (fg_len d + N.shiftl (N.of_nat (length p)) 3) = w64 (8 * N.of_nat (length (m ++ p)))).
  { rewrite EL, N.shiftl_mul_pow2. change (2 ^ 3)%N with 8%N. rewrite app_length, Nat2N.inj_add, !w64_mod, N.add_mod_idemp_l by discriminate. f_equal. lia. }
  rewrite ELEN. clear ELEN EL. rewrite EP, EQ. clear EP EQ. set (k := Nat.min (4 - length (rest 4 m)) (length p)).
  assert (LK : length (firstn k p) = k) by (rewrite firstn_length; lia).
  rewrite shifts_ok; [|exact BR|apply isbytes_firstn; exact Bp|lia].
  set (q := skipn k p). assert (EPQ : p = firstn k p ++ q) by (symmetry; apply firstn_skipn). assert (LQ : length q = length p - k) by apply skipn_length.
  assert (BQ : isbytes q) by (apply isbytes_skipn; exact Bp).
  destruct (Nat.eqb_spec (length (rest 4 m) + k) 4) as [H4|H4].
  - cbn [orb]. rewrite Nat.div_mul by lia. unfold fg_process. rewrite getu32s_ok. set (b := rest 4 m ++ firstn k p).
    assert (LB : length b = 4) by (unfold b; rewrite app_length; lia).
    destruct (go_steps v (be_val b :: map be_val (chunks 4 q)) (fg_s d, fg_rshift d) L Hr) as (L1 & H1 & E1). cbv zeta in L1, H1, E1.
    destruct (fold_left (fg_step fg_go_smix v) _ _) as [s' r']. cbn [fst snd] in L1, H1.
    assert (EC : chunks 4 (m ++ p) = chunks 4 m ++ b :: chunks 4 q).
    { rewrite chunks_app by lia. f_equal. rewrite EPQ at 1. rewrite app_assoc. fold b. rewrite chunks_app by lia. rewrite (chunks_one _ 4 b), (rest_one _ 4 b) by (lia || exact LB). reflexivity. }
    assert (ER : rest 4 (m ++ p) = rest 4 q).
    { rewrite rest_app by lia. rewrite EPQ at 1. rewrite app_assoc. fold b. rewrite rest_app by lia. rewrite (rest_one _ 4 b) by (lia || exact LB). reflexivity. }
    unfold fg_rel. cbn [fg_s fg_rshift fg_plen fg_partial fg_len]. split; [apply Forall_app; split; assumption|]. split; [exact L1|]. split; [exact H1|].
    rewrite EC, ER, E1, E, map_app, fold_left_app. cbn [map]. split; [reflexivity|]. change (skipn (length q / 4 * 4) q) with (rest 4 q). split; [reflexivity|]. split; [|reflexivity].
    change (fold_left fg_shift (rest 4 q) (be_val []) = be_val ([] ++ rest 4 q)). apply shifts_ok; [apply Forall_nil|apply isbytes_skipn; exact BQ|pose proof (rest_length_lt _ 4 q ltac:(lia)); cbn [length]; lia].
  - assert (Q0 : length q = 0) by lia. rewrite Q0. cbn [orb Nat.ltb Nat.leb].
    assert (EF : firstn k p = p) by (apply firstn_all2; lia). rewrite EF.
    assert (LRP : length (rest 4 m ++ p) < 4) by (rewrite app_length; lia).
    unfold fg_rel. cbn [fg_s fg_rshift fg_plen fg_partial fg_len]. split; [apply Forall_app; split; assumption|]. split; [exact L|]. split; [exact Hr|].
    rewrite chunks_app, rest_app by lia. rewrite (chunks_short _ 4 (rest 4 m ++ p)), (rest_short _ 4 (rest 4 m ++ p)) by exact LRP. rewrite app_nil_r.
    split; [exact E|]. split; [rewrite app_length, <- EF at 1; lia|]. split; reflexivity.
Qed.
Lemma be_w32 : forall x, be_val (be_bytes 4 x) = w32 x.
Proof. intro x. rewrite be_val_be_bytes, w32_mod. reflexivity. Qed.
Lemma pad_words : forall m, map be_val (chunks 4 (fg_pad m)) =
  map be_val (chunks 4 m) ++ (if length (rest 4 m) =? 0 then [] else [be_val (rest 4 m ++ zeros (4 - length (rest 4 m)))]) ++
  [w32 (N.shiftr (w64 (8 * N.of_nat (length m))) 32); w32 (w64 (8 * N.of_nat (length m)))].
Proof.
  intro m. unfold fg_pad. set (w := w64 (8 * N.of_nat (length m))). change (be_bytes 8 w) with (be_bytes (4 + 4) w). rewrite (be_bytes_app 4 4 w). change (8 * N.of_nat 4)%N with 32%N.
  rewrite chunks_app by lia. rewrite map_app. f_equal. rewrite <- (rest_length _ 4 m) by lia. pose proof (rest_length_lt _ 4 m ltac:(lia)) as LR. set (x := rest 4 m) in *. clearbody x.
  set (a := be_bytes 4 (N.shiftr w 32)). set (b := be_bytes 4 w). assert (La : length a = 4) by apply be_bytes_length. assert (Lb : length b = 4) by apply be_bytes_length.
  assert (E2 : map be_val (chunks 4 (a ++ b)) = [w32 (N.shiftr w 32); w32 w]).
  { rewrite chunks_app by lia. rewrite (chunks_one _ 4 a), (rest_one _ 4 a) by (lia || assumption). cbn [app]. rewrite (chunks_one _ 4 b) by (lia || assumption). cbn [map]. unfold a, b. rewrite !be_w32. reflexivity. }
  rewrite <- E2. destruct (Nat.eqb_spec (length x) 0) as [H|H].
  - apply length_zero_iff_nil in H. subst x. reflexivity.
  - rewrite Nat.mod_small by lia. rewrite app_assoc. assert (LX : length (x ++ zeros (4 - length x)) = 4) by (rewrite app_length, zeros_length; lia).
    rewrite chunks_app by lia. rewrite (chunks_one _ 4 (x ++ _)), (rest_one _ 4 (x ++ _)) by (lia || exact LX). reflexivity.
Qed.
Lemma at_firstn_lt : forall (s : list N) n k, k < n -> at_ (firstn n s) k = at_ s k.
Proof. intros s n. revert s. induction n as [|n IH]; intros s k H; [lia|]. destruct s as [|x s]; [now destruct k|]. destruct k as [|k]; [reflexivity|]. cbn [firstn]. unfold at_ in *. cbn [nth]. apply IH. lia. Qed.
Lemma checkSum_ok : forall v hs d m, fg_hs v hs -> fg_rel v hs d m -> fg_checkSum v hs d = fg_hash v hs m.
Proof.
  intros v hs d m HH (Bm & L & Hr & E & EP & EQ & EL). unfold fg_checkSum, fg_hash. cbv zeta. rewrite pad_words, EP, EQ, EL. clear EP EQ EL.
  assert (BR : isbytes (rest 4 m)) by (apply isbytes_skipn; exact Bm). pose proof (rest_length_lt _ 4 m ltac:(lia)) as LR.
  set (w := w64 (8 * N.of_nat (length m))). clearbody w. rewrite shl_zeros by (exact BR || lia). rewrite !fold_left_app. rewrite <- E. clear E.
  set (b := be_val (rest 4 m ++ _)). clearbody b. set (st0 := if length (rest 4 m) =? 0 then (fg_s d, fg_rshift d) else _).
  assert (A : length (fst st0) = 36 /\ snd st0 < fg_P v /\ fg_view v st0 = fold_left (fg_round fg_smix v) (if length (rest 4 m) =? 0 then [] else [b]) (fg_view v (fg_s d, fg_rshift d))).
  { unfold st0. destruct (length (rest 4 m) =? 0); [repeat split; assumption|]. apply (go_steps v [b] (fg_s d, fg_rshift d) L Hr). }
  destruct A as (L0 & H0 & E0). rewrite <- E0. clearbody st0. clear E0. destruct st0 as [s0 r0].
  destruct (go_steps v [w32 (N.shiftr w 32)] (s0, r0) L0 H0) as (L1 & H1 & E1). cbv zeta in L1, H1, E1.
  unfold fg_process. change (fg_getu32s [] 0) with (@nil N). destruct (fold_left (fg_step fg_go_smix v) [w32 (N.shiftr w 32)] (s0, r0)) as [s1 r1].
  destruct (go_steps v [w32 w] (s1, r1) L1 H1) as (L2 & H2 & E2). cbv zeta in L2, H2, E2. destruct (fold_left (fg_step fg_go_smix v) [w32 w] (s1, r1)) as [s2 r2].
  change (fold_left (fg_round fg_smix v) [w32 (N.shiftr w 32); w32 w] (fg_view v (s0, r0))) with
    (fold_left (fg_round fg_smix v) [w32 w] (fold_left (fg_round fg_smix v) [w32 (N.shiftr w 32)] (fg_view v (s0, r0)))).
  rewrite <- E1, <- E2, <- (go_final v s2 r2 L2 H2). generalize (fg_final fg_go_smix v s2 r2). intro S.
  assert (X : forall cols, forallb (fun k => k <? fg_n v) cols = true -> flat_map (fun k => be_bytes 4 (at_ S k)) cols = flat_map (fun k => be_bytes 4 (at_ (firstn (fg_n v) S) k)) cols).
  { clear. induction cols as [|c cols IH]; intro F; [reflexivity|]. cbn [forallb] in F. apply andb_true_iff in F. destruct F as [Fc F]. apply Nat.ltb_lt in Fc.
    cbn [flat_map]. rewrite IH by exact F. rewrite at_firstn_lt by exact Fc. reflexivity. }
  assert (EC : fg_fino v hs = fg_outcols v hs) by (destruct v; cbn [fg_hs] in HH; [destruct HH as [-> | ->]|subst hs|subst hs]; reflexivity).
  rewrite EC. apply X. clear. destruct v; cbn [fg_outcols]; [destruct (hs =? 32)| |]; reflexivity.
Qed.
Lemma checkSum_length : forall v hs d, fg_hs v hs -> length (fg_checkSum v hs d) = hs.
Proof.
  intros v hs d HH. unfold fg_checkSum. destruct (if fg_plen d =? 0 then _ else _) as [s0 r0]. destruct (fg_process v s0 r0 _ [] 0) as [s1 r1]. destruct (fg_process v s1 r1 _ [] 0) as [s2 r2]. cbv zeta.
  generalize (fg_final fg_go_smix v s2 r2). intro S. assert (X : forall cols, length (flat_map (fun k => be_bytes 4 (at_ S k)) cols) = 4 * length cols).
  { induction cols as [|c cols IH]; [reflexivity|]. cbn [flat_map]. rewrite app_length, be_bytes_length, IH. cbn [length]. lia. }
  rewrite X. destruct v; cbn [fg_hs] in HH; [destruct HH as [-> | ->]|subst hs|subst hs]; reflexivity.
Qed.
(** C122: every history of Fugue-224/256/384/512. *)
Theorem C122_fugue_history : forall v hs ops, fg_hs v hs -> Forall op_bytes ops -> run (fg_impl v hs) (fg_reset hs) ops = ideal_run (fg_hash v hs) [] ops.
Proof.
  intros v hs ops HH HF. apply (run_refines_bytes _ (fg_impl v hs) (fg_hash v hs) (fg_rel v hs)).
  - intros d m p Bp R. apply (write_ok v hs d m p R Bp).
  - intros d m p Bp R. apply (write_ok v hs d m p R Bp).
  - intros d m i R. exact R.
  - intros d m i R. cbn [fg_impl i_sum snd]. f_equal. apply checkSum_ok; assumption.
  - intros d m _. apply reset_ok. exact HH.
  - exact HF.
  - apply reset_ok. exact HH.
Qed.
Theorem C122_fugue_Sum : forall v hs data, fg_hs v hs -> isbytes data -> fg_Sum v hs data = fg_hash v hs data.
Proof.
  intros v hs data HH B. unfold fg_Sum. cbv zeta. destruct (write_ok v hs (fg_reset hs) [] data (reset_ok v hs HH) B) as [R _]. cbn [app] in R.
  rewrite (firstn_all2 (fg_checkSum v hs _)) by (rewrite checkSum_length by exact HH; lia).
  rewrite copy_at_full; [|lia|rewrite zeros_length, checkSum_length by exact HH; lia]. rewrite firstn_O. cbn [app].
  rewrite firstn_all2 by (rewrite zeros_length, checkSum_length by exact HH; lia). apply checkSum_ok; assumption.
Qed.
Example fugue_hyp : fg_hs FG384 48 /\ Forall op_bytes [Write [1; 2]%N; Sum []; Write (repeat 7%N 9); Sum [9]%N; Reset; Sum []].
Proof. split; [reflexivity|]. repeat constructor. Qed.
