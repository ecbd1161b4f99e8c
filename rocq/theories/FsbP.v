(** FsbP.v -- the compression function of fsb/digest.go computes that of FSB. *)
From Coq Require Import List NArith Arith Lia Bool.
Require Import Verif.Base Verif.Words Verif.HashAPI Verif.Buf Verif.Bytes Verif.Refine Verif.Gost3411P Verif.SpecJh Verif.JhP3 Verif.Kupyna Verif.LyraP Verif.PropHaraka Verif.SpecHaraka Verif.SpecFsb Verif.Fsb.
Import ListNotations.
Local Open Scope nat_scope.

(** ** Bit [t] of a byte string *)
Definition bitat (B : list N) (t : nat) : bool := N.testbit (at_ B (t / 8)) (N.of_nat (7 - t mod 8)).
Lemma bits_length : forall B, length (fs_bits B) = 8 * length B.
Proof. induction B as [|b B IH]; [reflexivity|]. unfold fs_bits in *. cbn [flat_map]. rewrite app_length, IH, map_length, seq_length. cbn [length]. lia. Qed.
Lemma bitat_cons : forall b B t, bitat (b :: B) (8 + t) = bitat B t.
Proof.
  intros. unfold bitat. replace (8 + t) with (t + 1 * 8) by lia. rewrite Nat.div_add, Nat.mod_add by lia. rewrite Nat.add_1_r. reflexivity.
Qed.
Lemma nth_bits : forall B t, nth t (fs_bits B) false = bitat B t.
Proof.
  induction B as [|b B IH]; intro t.
  - unfold bitat, at_. cbn [fs_bits flat_map]. destruct t; destruct (_ / 8); cbn [nth]; now rewrite N.bits_0.
  - unfold fs_bits in *. cbn [flat_map]. destruct (Nat.lt_ge_cases t 8) as [H|H].
    + rewrite app_nth1 by (now rewrite map_length, seq_length). rewrite (nth_indep _ false (N.testbit b (N.of_nat (7 - 0)))) by (now rewrite map_length, seq_length).
      rewrite (map_nth (fun j => N.testbit b (N.of_nat (7 - j)))). rewrite seq_nth by exact H. unfold bitat. rewrite Nat.div_small, Nat.mod_small by exact H. reflexivity.
    + rewrite app_nth2 by (rewrite map_length, seq_length; exact H). rewrite map_length, seq_length. rewrite IH.
      replace t with (8 + (t - 8)) at 2 by lia. symmetry. apply bitat_cons.
Qed.
Lemma byte_hi : forall a n, isbyte a -> (8 <= n)%N -> N.testbit a n = false.
Proof.
  intros a n Ha Hn. unfold isbyte in Ha. destruct (N.eq_dec a 0) as [E|E]; [subst; apply N.bits_0|]. apply N.bits_above_log2.
  apply N.log2_lt_pow2; [lia|]. eapply N.lt_le_trans; [exact Ha|]. change 256%N with (2 ^ 8)%N. apply N.pow_le_mono_r; lia.
Qed.
Lemma at_byte : forall B i, isbytes B -> isbyte (at_ B i).
Proof.
  intros B i HB. unfold at_. destruct (Nat.lt_ge_cases i (length B)) as [H|H]; [|rewrite nth_overflow by exact H; reflexivity].
  unfold isbytes in HB. rewrite Forall_forall in HB. apply HB. now apply nth_In.
Qed.
Lemma div8 : forall q c, c < 8 -> (8 * q + c) / 8 = q.
Proof. intros. replace (8 * q + c) with (c + q * 8) by lia. rewrite Nat.div_add, Nat.div_small by lia. lia. Qed.
Lemma mod8 : forall q c, c < 8 -> (8 * q + c) mod 8 = c.
Proof. intros. replace (8 * q + c) with (c + q * 8) by lia. rewrite Nat.mod_add, Nat.mod_small by lia. lia. Qed.
Lemma w8_bit : forall a n, N.testbit (w8 a) n = (N.testbit a n && (n <? 8)%N)%bool.
Proof.
  intros. unfold w8. change 255%N with (N.ones 8). rewrite N.land_spec. f_equal. destruct (N.ltb_spec n 8).
  - now apply N.ones_spec_low.
  - now apply N.ones_spec_high.
Qed.
(** a byte made of the end of a byte and of the start of the next one *)
Lemma shift_join : forall B q c d, isbytes B -> 0 < d < 8 -> c < 8 ->
  N.testbit (N.lxor (w8 (N.shiftl (at_ B q) (N.of_nat d))) (N.shiftr (at_ B (q + 1)) (N.of_nat (8 - d)))) (N.of_nat (7 - c)) = bitat B (8 * q + c + d).
Proof.
  intros B q c d HB Hd Hc. rewrite N.lxor_spec, w8_bit, N.shiftr_spec by lia.
  assert (E8 : (N.of_nat (7 - c) <? 8)%N = true) by (apply N.ltb_lt; lia). rewrite E8, andb_true_r. unfold bitat.
  destruct (Nat.lt_ge_cases (c + d) 8) as [H|H].
  - rewrite (byte_hi (at_ B (q + 1))) by (try apply at_byte; try exact HB; lia). rewrite xorb_false_r.
    rewrite N.shiftl_spec_high by lia. rewrite <- Nat.add_assoc, div8, mod8 by exact H. f_equal. lia.
  - rewrite N.shiftl_spec_low by lia. rewrite xorb_false_l.
    replace (8 * q + c + d) with (8 * (q + 1) + (c + d - 8)) by lia. rewrite div8, mod8 by lia. f_equal. lia.
Qed.

(** ** Loops that fill an array *)
Lemma fill_plain : forall g off n (L : list N) i, off + n <= length L ->
  at_ (fold_left (fun L j => upd L (off + j) (g j)) (seq 0 n) L) i = if (off <=? i) && (i <? off + n) then g (i - off) else at_ L i.
Proof.
  intros g off n L i H.
  assert (K : forall n, off + n <= length L ->
     length (fold_left (fun L j => upd L (off + j) (g j)) (seq 0 n) L) = length L /\
     at_ (fold_left (fun L j => upd L (off + j) (g j)) (seq 0 n) L) i = if (off <=? i) && (i <? off + n) then g (i - off) else at_ L i).
  { clear n H. induction n as [|n IH]; intro H.
    - split; [reflexivity|]. cbn [seq fold_left]. destruct (Nat.leb_spec off i), (Nat.ltb_spec i (off + 0)); try reflexivity. lia.
    - destruct (IH ltac:(lia)) as [L1 A1]. rewrite seq_S, fold_left_app. cbn [fold_left Nat.add]. split; [now rewrite upd_length|].
      rewrite at_upd by lia. rewrite A1.
      destruct (Nat.leb_spec off i), (Nat.ltb_spec i (off + n)), (Nat.ltb_spec i (off + S n)), (Nat.eqb_spec i (off + n)); try lia; cbn [andb]; try reflexivity. f_equal. lia. }
  apply K. exact H.
Qed.

Lemma fill_len : forall g off n (L : list N), length (fold_left (fun L j => upd L (off + j) (g j)) (seq 0 n) L) = length L.
Proof. intros g off n L. generalize (seq 0 n). intro s. revert L. induction s as [|j s IH]; intro L; [reflexivity|]. cbn [fold_left]. rewrite IH. apply upd_length. Qed.
(** the loop writes entries below [lim] and reads entries from [lim] on *)
Lemma fill_back : forall (F : list N -> nat -> N) lim n (L : list N) i, n <= lim -> lim <= length L ->
  (forall L L' j, j < n -> length L' = length L -> (forall k, lim <= k -> at_ L' k = at_ L k) -> F L' j = F L j) ->
  at_ (fold_left (fun L j => upd L j (F L j)) (seq 0 n) L) i = if i <? n then F L i else at_ L i.
Proof.
  intros F lim n L i H HL HF.
  assert (K : forall k, k <= n -> length (fold_left (fun L j => upd L j (F L j)) (seq 0 k) L) = length L /\
     forall i, at_ (fold_left (fun L j => upd L j (F L j)) (seq 0 k) L) i = if i <? k then F L i else at_ L i).
  { induction k as [|k IH]; intro Hk.
    - split; [reflexivity|]. intro i0. cbn [seq fold_left]. reflexivity.
    - destruct (IH ltac:(lia)) as [L1 A1]. rewrite seq_S, fold_left_app. cbn [fold_left Nat.add]. split; [now rewrite upd_length|]. intro i0.
      rewrite at_upd by lia. rewrite A1. rewrite (HF L (fold_left (fun L j => upd L j (F L j)) (seq 0 k) L) k ltac:(lia) L1) by (intros k0 Hk0; rewrite A1; destruct (Nat.ltb_spec k0 k); [lia|reflexivity]).
      destruct (Nat.ltb_spec i0 k), (Nat.ltb_spec i0 (S k)), (Nat.eqb_spec i0 k); try lia; try reflexivity. now subst. }
  apply K. lia.
Qed.
Lemma upd_upd : forall A (l : list A) i a b, upd (upd l i a) i b = upd l i b.
Proof. induction l as [|x l IH]; intros [|i] a b; cbn [upd]; try reflexivity. now rewrite IH. Qed.

Section Line.
Variable P : fsb_par.
Variable Pi : list N.
Hypothesis HPi : isbytes Pi.
Variables R Q : nat.
Hypothesis HR : f_r P = 8 * R.
Hypothesis HQ : f_p P / 8 = Q.
Hypothesis Hpr : R <= Q.
Hypothesis Hpm : 0 < f_p P mod 8.
Let pm := f_p P mod 8.
Lemma Epm : f_p P = 8 * Q + pm /\ 0 < pm < 8.
Proof. unfold pm. pose proof (Nat.div_mod (f_p P) 8 ltac:(lia)). pose proof (Nat.mod_upper_bound (f_p P) 8 ltac:(lia)). lia. Qed.
Lemma Er8 : f_r P / 8 = R.
Proof. rewrite HR, Nat.mul_comm, Nat.div_mul; lia. Qed.
Lemma Epr : (f_p P + f_r P) / 8 = Q + R.
Proof. destruct Epm as [E B]. rewrite HR, E. replace (8 * Q + pm + 8 * R) with (8 * (Q + R) + pm) by lia. apply div8. lia. Qed.

Definition line_pi (k : nat) : list N := skipn (k * (f_p P / 8 + 1)) Pi.
Definition line_a (k : nat) : list N :=
  upd (fold_left (fun L j => upd L (R + j) (at_ (line_pi k) j)) (seq 0 Q) (zeros (Q + R + 1))) (Q + R) (N.land (at_ (line_pi k) Q) (w8 (N.shiftl (N.shiftl 1 (N.of_nat pm) - 1) (8 - N.of_nat pm)))).
Lemma line_pi_bytes : forall k, isbytes (line_pi k).
Proof. intro k. now apply isbytes_skipn. Qed.
Lemma line_a_len : forall k, length (line_a k) = Q + R + 1.
Proof. intro k. unfold line_a. rewrite upd_length, fill_len. apply zeros_length. Qed.
Lemma at_zeros : forall n i, at_ (zeros n) i = 0%N.
Proof. intros. unfold at_, zeros. apply nth_repeat. Qed.
Lemma line_a_at : forall k i, at_ (line_a k) i =
  if i =? Q + R then N.land (at_ (line_pi k) Q) (w8 (N.shiftl (N.shiftl 1 (N.of_nat pm) - 1) (8 - N.of_nat pm)))
  else if (R <=? i) && (i <? R + Q) then at_ (line_pi k) (i - R) else 0%N.
Proof.
  intros k i. unfold line_a. rewrite at_upd by (rewrite fill_len, zeros_length; lia). rewrite fill_plain by (rewrite zeros_length; lia). rewrite at_zeros. reflexivity.
Qed.
Lemma land_byte : forall a b, isbyte a -> isbyte (N.land a b).
Proof.
  intros a b Ha. unfold isbyte in *. change 256%N with (2 ^ 8)%N. apply lt_pow2_bits. intros n Hn. rewrite N.land_spec, (byte_hi a n Ha Hn). reflexivity.
Qed.
Lemma bytes_at : forall B, (forall i, isbyte (at_ B i)) -> isbytes B.
Proof. intros B H. unfold isbytes. rewrite Forall_forall. intros x Hx. destruct (In_nth _ _ 0%N Hx) as (i & _ & E). rewrite <- E. exact (H i). Qed.
Lemma line_a_bytes : forall k, isbytes (line_a k).
Proof.
  intro k. apply bytes_at. intro i. rewrite line_a_at. destruct (_ =? _); [apply land_byte; apply at_byte; apply line_pi_bytes|].
  destruct (_ && _); [apply at_byte; apply line_pi_bytes|reflexivity].
Qed.
Lemma line_a_bit : forall k t, 8 * R <= t < 8 * R + f_p P -> bitat (line_a k) t = bitat (line_pi k) (t - 8 * R).
Proof.
  intros k t Ht. destruct Epm as [E B]. pose proof (Nat.div_mod t 8 ltac:(lia)) as Et. pose proof (Nat.mod_upper_bound t 8 ltac:(lia)) as Bt.
  set (q := t / 8) in *. set (c := t mod 8) in *.
  replace (t - 8 * R) with (8 * (q - R) + c) by lia. unfold bitat. rewrite div8, mod8 by exact Bt. fold q c. rewrite line_a_at.
  destruct (Nat.eqb_spec q (Q + R)) as [EQ|NE].
  - rewrite EQ. replace (Q + R - R) with Q by lia. rewrite N.land_spec, w8_bit.
    assert (M : N.testbit (N.shiftl (N.shiftl 1 (N.of_nat pm) - 1) (8 - N.of_nat pm)) (N.of_nat (7 - c)) = true).
    { rewrite N.shiftl_spec_high by lia. rewrite N.shiftl_1_l, N.sub_1_r, <- N.ones_equiv. apply N.ones_spec_low. lia. }
    rewrite M. assert (E8 : (N.of_nat (7 - c) <? 8)%N = true) by (apply N.ltb_lt; lia). rewrite E8. cbn [andb]. apply andb_true_r.
  - destruct (Nat.leb_spec R q), (Nat.ltb_spec q (R + Q)); try lia. reflexivity.
Qed.
Lemma line0_eq : forall k, fm_line0 P Pi k =
  fold_left (fun L j => upd L j (N.lxor (w8 (N.shiftl (at_ L (Q + j)) (N.of_nat pm))) (N.shiftr (at_ (upd L j (w8 (N.shiftl (at_ L (Q + j)) (N.of_nat pm)))) (Q + j + 1)) (8 - N.of_nat pm)))) (seq 0 R) (line_a k).
Proof.
  intro k. unfold fm_line0. cbv zeta. rewrite Epr, Er8, HQ. fold pm. unfold line_a, line_pi. rewrite HQ.
  match goal with |- fold_left _ _ ?L = _ => assert (LL : R <= length L) by (rewrite upd_length, fill_len, zeros_length; lia); revert LL; generalize L end.
  assert (K : forall s L, (forall j, In j s -> j < length L) ->
    fold_left (fun L j => upd (upd L j (w8 (N.shiftl (at_ L (Q + j)) (N.of_nat pm)))) j
       (N.lxor (at_ (upd L j (w8 (N.shiftl (at_ L (Q + j)) (N.of_nat pm)))) j) (N.shiftr (at_ (upd L j (w8 (N.shiftl (at_ L (Q + j)) (N.of_nat pm)))) (Q + j + 1)) (8 - N.of_nat pm)))) s L =
    fold_left (fun L j => upd L j (N.lxor (w8 (N.shiftl (at_ L (Q + j)) (N.of_nat pm))) (N.shiftr (at_ (upd L j (w8 (N.shiftl (at_ L (Q + j)) (N.of_nat pm)))) (Q + j + 1)) (8 - N.of_nat pm)))) s L).
  { induction s as [|j s IH]; intros L HL; [reflexivity|]. cbn [fold_left]. rewrite upd_upd. rewrite (at_upd L j _ j) by (apply HL; now left). rewrite Nat.eqb_refl.
    apply IH. intros j' Hj'. rewrite upd_length. apply HL. now right. }
  intros L LL. apply K. intros j Hj. apply in_seq in Hj. lia.
Qed.
Lemma line0_at : forall k i, at_ (fm_line0 P Pi k) i =
  if i <? R then N.lxor (w8 (N.shiftl (at_ (line_a k) (Q + i)) (N.of_nat pm))) (N.shiftr (at_ (line_a k) (Q + i + 1)) (N.of_nat (8 - pm))) else at_ (line_a k) i.
Proof.
  intros k i. rewrite line0_eq. pose proof (line_a_len k) as LL.
  rewrite (fill_back (fun L j => N.lxor (w8 (N.shiftl (at_ L (Q + j)) (N.of_nat pm))) (N.shiftr (at_ (upd L j (w8 (N.shiftl (at_ L (Q + j)) (N.of_nat pm)))) (Q + j + 1)) (8 - N.of_nat pm))) R R (line_a k) i).
  - destruct (Nat.ltb_spec i R) as [Hi|Hi]; [|reflexivity]. rewrite at_upd by lia. destruct (Nat.eqb_spec (Q + i + 1) i); [lia|]. do 3 f_equal. destruct Epm; lia.
  - lia.
  - lia.
  - intros L L' j Hj EL HA. assert (U : forall M v, at_ (upd M j v) (Q + j + 1) = at_ M (Q + j + 1)) by (intros; unfold at_; apply nth_upd_other; lia). rewrite !U. rewrite (HA (Q + j)), (HA (Q + j + 1)) by lia. reflexivity.
Qed.
Lemma line0_bytes : forall k, isbytes (fm_line0 P Pi k).
Proof.
  intro k. apply bytes_at. intro i. rewrite line0_at. destruct (i <? R); [|apply at_byte; apply line_a_bytes].
  unfold isbyte. change 256%N with (2 ^ 8)%N. apply lt_pow2_bits. intros n Hn. rewrite N.lxor_spec, w8_bit, N.shiftr_spec by lia.
  rewrite (byte_hi (at_ (line_a k) (Q + i + 1))) by (try apply at_byte; try apply line_a_bytes; lia). destruct (N.ltb_spec n 8); [lia|]. now rewrite andb_false_r.
Qed.
(** firstLine[k][0]: the vector cyclically extended to the left by r bits *)
Lemma line0_bit : forall k t, t < f_p P + f_r P -> bitat (fm_line0 P Pi k) t = bitat (line_pi k) (if t <? f_r P then t + f_p P - f_r P else t - f_r P).
Proof.
  intros k t Ht. destruct Epm as [E B]. rewrite HR in *. destruct (Nat.ltb_spec t (8 * R)) as [H|H].
  - replace (t + f_p P - 8 * R) with ((t + f_p P) - 8 * R) by lia. rewrite <- line_a_bit by lia.
    pose proof (Nat.div_mod t 8 ltac:(lia)) as Et. pose proof (Nat.mod_upper_bound t 8 ltac:(lia)) as Bt.
    unfold bitat at 1. rewrite line0_at. destruct (Nat.ltb_spec (t / 8) R); [|lia].
    rewrite shift_join by (try apply line_a_bytes; lia). f_equal. lia.
  - unfold bitat at 1. rewrite line0_at. pose proof (Nat.div_mod t 8 ltac:(lia)) as Et. pose proof (Nat.mod_upper_bound t 8 ltac:(lia)) as Bt.
    destruct (Nat.ltb_spec (t / 8) R); [lia|]. fold (bitat (line_a k) t). apply line_a_bit. lia.
Qed.

(** firstLine[k][j]: the same shifted right by j bits *)
Lemma linej_at : forall L0 j i, i < Q + R ->
  at_ (fm_linej P L0 j) i = N.lxor (N.shiftr (at_ L0 i) (N.of_nat j)) (match i with O => 0%N | S i' => w8 (N.shiftl (at_ L0 i') (N.of_nat (8 - j))) end).
Proof.
  intros L0 j i Hi. unfold fm_linej. rewrite Epr.
  set (f := fun (L : list N) l => _).
  assert (K : forall n, n <= Q + R -> length (fold_left f (seq 0 n) (zeros (Q + R + 1))) = Q + R + 1 /\
    forall i, at_ (fold_left f (seq 0 n) (zeros (Q + R + 1))) i =
       N.lxor (if i <? n then N.shiftr (at_ L0 i) (N.of_nat j) else 0%N) (match i with O => 0%N | S i' => if i' <? n then w8 (N.shiftl (at_ L0 i') (N.of_nat (8 - j))) else 0%N end)).
  { induction n as [|n IH]; intro Hn.
    - split; [apply zeros_length|]. intro i0. cbn [seq fold_left]. rewrite at_zeros. destruct i0; reflexivity.
    - destruct (IH ltac:(lia)) as [L1 A1]. rewrite seq_S, fold_left_app. cbn [fold_left Nat.add].
      set (L := fold_left f (seq 0 n) (zeros (Q + R + 1))) in *. unfold f. cbv zeta. split; [now rewrite !upd_length|]. intro i0.
      rewrite at_upd by (rewrite upd_length; lia). rewrite !at_upd by lia. rewrite !A1. rewrite Nat.add_1_r.
      destruct (Nat.eqb_spec (S n) n) as [EE|_]; [lia|].
      destruct (Nat.eqb_spec i0 (S n)) as [E1|N1].
      + subst i0. destruct (Nat.ltb_spec (S n) n), (Nat.ltb_spec (S n) (S n)), (Nat.ltb_spec n n), (Nat.ltb_spec n (S n)); try lia. now rewrite !N.lxor_0_l.
      + destruct (Nat.eqb_spec i0 n) as [E2|N2].
        * subst i0. destruct (Nat.ltb_spec n n), (Nat.ltb_spec n (S n)); try lia. rewrite N.lxor_0_l.
          destruct n as [|n']; [now rewrite N.lxor_0_l, N.lxor_0_r|]. destruct (Nat.ltb_spec n' (S n')), (Nat.ltb_spec n' (S (S n'))); try lia. apply N.lxor_comm.
        * destruct i0 as [|i0]; [destruct (Nat.ltb_spec 0 n), (Nat.ltb_spec 0 (S n)); try lia; reflexivity|].
          destruct (Nat.ltb_spec (S i0) n), (Nat.ltb_spec (S i0) (S n)), (Nat.ltb_spec i0 n), (Nat.ltb_spec i0 (S n)); try lia; reflexivity. }
  destruct (K (Q + R) (le_n _)) as [_ A]. rewrite A. destruct (Nat.ltb_spec i (Q + R)); [|lia]. destruct i as [|i']; [reflexivity|]. destruct (Nat.ltb_spec i' (Q + R)); [reflexivity|lia].
Qed.
Lemma linej_bit : forall L0 j t, isbytes L0 -> 0 < j < 8 -> j <= t < 8 * (Q + R) -> bitat (fm_linej P L0 j) t = bitat L0 (t - j).
Proof.
  intros L0 j t HL Hj Ht. pose proof (Nat.div_mod t 8 ltac:(lia)) as Et. pose proof (Nat.mod_upper_bound t 8 ltac:(lia)) as Bt.
  unfold bitat at 1. rewrite linej_at by lia. destruct (t / 8) as [|q] eqn:Eq.
  - rewrite N.lxor_0_r, N.shiftr_spec by lia. replace (t - j) with (8 * 0 + (t - j)) by lia. unfold bitat. rewrite div8, mod8 by lia. f_equal. lia.
  - rewrite N.lxor_comm. replace (N.of_nat j) with (N.of_nat (8 - (8 - j))) by (f_equal; lia). replace (S q) with (q + 1) by lia. rewrite shift_join by (try exact HL; lia). f_equal. lia.
Qed.
Lemma first_bit : forall k j t, j < 8 -> j <= t < 8 * (Q + R) -> bitat (nth j (fm_firstLine P Pi k) []) t = bitat (fm_line0 P Pi k) (t - j).
Proof.
  intros k j t Hj Ht. unfold fm_firstLine. cbv zeta. destruct j as [|j]; [cbn [nth]; f_equal; lia|]. cbn [nth].
  rewrite (nth_indep _ [] (fm_linej P (fm_line0 P Pi k) 1)) by (rewrite map_length, seq_length; lia).
  rewrite (map_nth (fm_linej P (fm_line0 P Pi k)) (seq 1 7) 1 j) || (replace (fm_linej P (fm_line0 P Pi k) 1) with (fm_linej P (fm_line0 P Pi k) 1) by reflexivity; rewrite map_nth).
  rewrite seq_nth by lia. apply linej_bit; [apply line0_bytes|lia|lia].
Qed.
Lemma first_len : forall k j, j < 8 -> length (nth j (fm_firstLine P Pi k) []) = Q + R + 1.
Proof.
  intros k j Hj. unfold fm_firstLine. cbv zeta. destruct j as [|j]; cbn [nth].
  - rewrite line0_eq. rewrite <- (line_a_len k). generalize (line_a k). generalize (seq 0 R). intro s. induction s as [|i s IH]; intro L; [reflexivity|]. cbn [fold_left]. rewrite IH. apply upd_length.
  - rewrite (nth_indep _ [] (fm_linej P (fm_line0 P Pi k) 1)) by (rewrite map_length, seq_length; lia). rewrite map_nth. unfold fm_linej. rewrite Epr. cbv zeta.
    rewrite <- (zeros_length (Q + R + 1)) at 2. generalize (zeros (Q + R + 1)). generalize (seq 0 (Q + R)). intro s. induction s as [|i s IH]; intro L; [reflexivity|]. cbn [fold_left]. rewrite IH. now rewrite !upd_length.
Qed.
Lemma lxor_byte : forall a b, isbyte a -> isbyte b -> isbyte (N.lxor a b).
Proof. intros a b Ha Hb. unfold isbyte in *. change 256%N with (2 ^ 8)%N in *. now apply lxor_lt. Qed.
Lemma w8_byte : forall a, isbyte (w8 a).
Proof. intro a. rewrite w8_mod. apply N.mod_lt. lia. Qed.
Lemma shr_byte : forall a k, isbyte a -> isbyte (N.shiftr a k).
Proof. intros a k H. unfold isbyte in *. rewrite N.shiftr_div_pow2. eapply N.le_lt_trans; [|exact H]. apply N.div_le_upper_bound; [apply N.pow_nonzero; lia|]. pose proof (N.pow_nonzero 2 k ltac:(lia)). nia. Qed.
Lemma upd_bytes : forall l i v, isbytes l -> isbyte v -> isbytes (upd l i v).
Proof. intros l i v H. revert i. induction H as [|x l Hx Hl IH]; intros [|i] Hv; cbn [upd]; try (now constructor). constructor; [exact Hx|]. now apply IH. Qed.
Lemma linej_bytes : forall L0 j, isbytes L0 -> isbytes (fm_linej P L0 j).
Proof.
  intros L0 j HL. unfold fm_linej. cbv zeta. generalize (zeros_isbytes ((f_p P + f_r P) / 8 + 1)). generalize (zeros ((f_p P + f_r P) / 8 + 1)). generalize (seq 0 ((f_p P + f_r P) / 8)). intro s.
  induction s as [|i s IH]; intros L H; [exact H|]. cbn [fold_left]. apply IH.
  assert (H1 : isbytes (upd L i (N.lxor (at_ L i) (N.shiftr (at_ L0 i) (N.of_nat j))))) by (apply upd_bytes; [exact H|]; apply lxor_byte; [now apply at_byte|]; apply shr_byte; now apply at_byte).
  apply upd_bytes; [exact H1|]. apply lxor_byte; [now apply at_byte|]. apply w8_byte.
Qed.
Lemma first_bytes : forall k j, j < 8 -> isbytes (nth j (fm_firstLine P Pi k) []).
Proof.
  intros k j Hj. unfold fm_firstLine. cbv zeta. destruct j as [|j]; cbn [nth]; [apply line0_bytes|].
  rewrite (nth_indep _ [] (fm_linej P (fm_line0 P Pi k) 1)) by (rewrite map_length, seq_length; lia). rewrite map_nth. apply linej_bytes. apply line0_bytes.
Qed.
End Line.

(** ** Columns *)
Lemma bitat_skipn : forall B n t, bitat (skipn n B) t = bitat B (8 * n + t).
Proof.
  intros B n t. unfold bitat. replace (8 * n + t) with (t + n * 8) by lia. rewrite Nat.div_add, Nat.mod_add by lia. f_equal. unfold at_.
  rewrite Nat.add_comm. revert B. induction n as [|n IH]; intro B; [reflexivity|]. destruct B as [|b B]; [rewrite skipn_nil; cbn [Nat.add nth]; now destruct (t / 8)|]. cbn [skipn Nat.add nth]. apply IH.
Qed.
Lemma bitat_firstn : forall B n t, t < 8 * n -> bitat (firstn n B) t = bitat B t.
Proof.
  intros B n t H. unfold bitat. f_equal. unfold at_. assert (L : t / 8 < n) by (apply Nat.div_lt_upper_bound; lia).
  revert L. generalize (t / 8). intro q. revert n B H. intros n B _. revert q B. induction n as [|n IH]; intros q B L; [lia|]. destruct B as [|b B]; [reflexivity|]. cbn [firstn]. destruct q; cbn [nth]; [reflexivity|]. apply IH. lia.
Qed.
Section Col.
Variable P : fsb_par.
Variable Pi : list N.
Hypothesis HPi : isbytes Pi.
Variables W Q : nat.
Hypothesis HW : f_r P = 32 * W.
Hypothesis HW0 : 0 < W.
Hypothesis HQ : f_p P / 8 = Q.
Hypothesis Hpr : 4 * W <= Q.
Hypothesis Hpm : 0 < f_p P mod 8.
Definition colbytes (k ix : nat) : list N := firstn (4 * W) (skipn (4 * W - ix / 8) (nth (ix mod 8) (fm_firstLine P Pi k) [])).
Lemma colbytes_len : forall k ix, length (colbytes k ix) = 4 * W.
Proof.
  intros k ix. unfold colbytes. rewrite firstn_length, skipn_length. rewrite (first_len P Pi (4 * W) Q) by (try apply Nat.mod_upper_bound; lia). lia.
Qed.
Lemma colbytes_bytes : forall k ix, isbytes (colbytes k ix).
Proof. intros. unfold colbytes. apply isbytes_firstn, isbytes_skipn. apply (first_bytes P Pi HPi (4 * W) Q); try lia. apply Nat.mod_upper_bound. lia. Qed.
Lemma colbytes_bits : forall k ix, ix < f_r P -> fs_bits (colbytes k ix) = map (fun u => fs_vec P Pi k ((u + f_p P - ix) mod f_p P)) (seq 0 (f_r P)).
Proof.
  intros k ix Hix. apply (nth_ext _ _ false false); [rewrite bits_length, colbytes_len, map_length, seq_length; lia|].
  intros u Hu. rewrite bits_length, colbytes_len in Hu. rewrite nth_bits.
  rewrite (nth_indep (map _ _) false (fs_vec P Pi k ((0 + f_p P - ix) mod f_p P))) by (rewrite map_length, seq_length; lia).
  rewrite (map_nth (fun u => fs_vec P Pi k ((u + f_p P - ix) mod f_p P))). rewrite seq_nth by lia. cbn [Nat.add].
  unfold colbytes. rewrite bitat_firstn by lia. rewrite bitat_skipn.
  pose proof (Nat.div_mod ix 8 ltac:(lia)) as Ei. pose proof (Nat.mod_upper_bound ix 8 ltac:(lia)) as Bi.
  set (a := ix / 8) in *. set (j := ix mod 8) in *.
  pose proof (Nat.div_mod (f_p P) 8 ltac:(lia)) as Ep. rewrite HQ in Ep. pose proof (Nat.mod_upper_bound (f_p P) 8 ltac:(lia)) as Bp.
  rewrite (first_bit P Pi HPi (4 * W) Q) by lia.
  rewrite (line0_bit P Pi HPi (4 * W) Q) by lia.
  unfold fs_vec. rewrite nth_bits. rewrite <- bitat_skipn. fold (line_pi P Pi k). f_equal.
  destruct (Nat.ltb_spec (8 * (4 * W - a) + u - j) (f_r P)).
  - rewrite Nat.mod_small by lia. lia.
  - replace (u + f_p P - ix) with ((u - ix) + 1 * f_p P) by lia. rewrite Nat.mod_add by lia. rewrite Nat.mod_small by lia. lia.
Qed.
Definition bxor (a b : list N) : list N := map (fun p => N.lxor (fst p) (snd p)) (combine a b).
Lemma bits_bxor : forall a b, length a = length b -> fs_bits (bxor a b) = fs_xor (fs_bits a) (fs_bits b).
Proof.
  induction a as [|x a IH]; intros [|y b] L; try discriminate; [reflexivity|].
  change (map (fun j => N.testbit (N.lxor x y) (N.of_nat (7 - j))) (seq 0 8) ++ fs_bits (bxor a b) = fs_xor (map (fun j => N.testbit x (N.of_nat (7 - j))) (seq 0 8) ++ fs_bits a) (map (fun j => N.testbit y (N.of_nat (7 - j))) (seq 0 8) ++ fs_bits b)).
  rewrite IH by (cbn [length] in L; lia). cbn [seq map]. rewrite !N.lxor_spec. reflexivity.
Qed.
Lemma be4_lxor : forall a b, be_bytes 4 (N.lxor a b) = bxor (be_bytes 4 a) (be_bytes 4 b).
Proof. intros. unfold be_bytes. rewrite le4_lxor, !le4. reflexivity. Qed.
Lemma bxor_app : forall a b c d, length a = length b -> bxor (a ++ c) (b ++ d) = bxor a b ++ bxor c d.
Proof. induction a as [|x a IH]; intros [|y b] c d L; try discriminate; [reflexivity|]. unfold bxor in *. cbn [app combine map fst snd]. rewrite IH by (cbn [length] in L; lia). reflexivity. Qed.
(** the loop over the words of the column *)
Lemma xor_words : forall (ns tmp : list N) n, length ns = n ->
  fold_left (fun ns j => upd ns j (N.lxor (at_ ns j) (at_ tmp j))) (rev (seq 0 n)) ns = map (fun j => N.lxor (at_ ns j) (at_ tmp j)) (seq 0 n).
Proof.
  intros ns tmp n L. apply list_eq_at.
  - rewrite map_length, seq_length, <- L. clear L. generalize (rev (seq 0 (length ns))). intro s. generalize dependent ns. intro ns. revert ns. induction s as [|i s IH]; intros ns; [reflexivity|]. cbn [fold_left]. rewrite IH. apply upd_length.
  - assert (K : forall s ns, NoDup s -> (forall j, In j s -> j < length ns) -> forall i, at_ (fold_left (fun ns j => upd ns j (N.lxor (at_ ns j) (at_ tmp j))) s ns) i = if existsb (Nat.eqb i) s then N.lxor (at_ ns i) (at_ tmp i) else at_ ns i).
    { clear ns n L. induction s as [|j s IH]; intros ns ND HL i; [reflexivity|]. cbn [fold_left existsb]. inversion ND as [|? ? NI ND']; subst.
      rewrite IH; [|exact ND'|intros j' Hj'; rewrite upd_length; apply HL; now right]. rewrite at_upd by (apply HL; now left).
      destruct (Nat.eqb_spec i j) as [->|NE]; cbn [orb]; [|reflexivity].
      destruct (existsb (Nat.eqb j) s) eqn:E; [|reflexivity]. apply existsb_exists in E. destruct E as (x & Hx & Ex). apply Nat.eqb_eq in Ex. subst x. contradiction. }
    intros i Hi. rewrite K.
    + destruct (existsb (Nat.eqb i) (rev (seq 0 n))) eqn:E.
      * apply existsb_exists in E. destruct E as (x & Hx & Ex). apply Nat.eqb_eq in Ex. subst x. apply in_rev in Hx. apply in_seq in Hx. rewrite at_map_seq by lia. reflexivity.
      * exfalso. assert (T : existsb (Nat.eqb i) (rev (seq 0 n)) = true) by (apply existsb_exists; exists i; split; [|apply Nat.eqb_refl]; apply -> in_rev; apply in_seq; 
          assert (LF : forall s ns, length (fold_left (fun ns j => upd ns j (N.lxor (at_ ns j) (at_ tmp j))) s ns) = length ns) by (induction s as [|? ? IHs]; intros; [reflexivity|]; cbn [fold_left]; rewrite IHs; apply upd_length); rewrite LF in Hi; lia). congruence.
    + apply NoDup_rev. apply seq_NoDup.
    + intros j Hj. apply in_rev in Hj. apply in_seq in Hj. lia.
Qed.
Lemma words_bytes : forall n (B : list N), isbytes B -> 4 * n <= length B -> flat_map (be_bytes 4) (map (fun i => be_val (slice B (i * 4) (i * 4 + 4))) (seq 0 n)) = firstn (4 * n) B.
Proof.
  induction n as [|n IH]; intros B HB L; [reflexivity|]. rewrite seq_S, map_app, flat_map_app. rewrite IH by (try exact HB; lia). cbn [map flat_map Nat.add]. rewrite app_nil_r.
  unfold slice. replace (n * 4 + 4 - n * 4) with 4 by lia.
  assert (L4 : length (firstn 4 (skipn (n * 4) B)) = 4) by (rewrite firstn_length, skipn_length; lia).
  pose proof (be_bytes_be_val (firstn 4 (skipn (n * 4) B)) (isbytes_firstn _ _ (isbytes_skipn _ _ HB))) as E. rewrite L4 in E. rewrite E.
  replace (4 * S n) with (4 * n + 4) by lia. replace (n * 4) with (4 * n) by lia.
  rewrite <- (firstn_skipn (4 * n) B) at 3. rewrite firstn_app. rewrite firstn_length. replace (Nat.min (4 * n) (length B)) with (4 * n) by lia.
  rewrite firstn_firstn. replace (Nat.min (4 * n + 4) (4 * n)) with (4 * n) by lia. do 2 f_equal. lia.
Qed.
Lemma flat_xor : forall s (f g : nat -> N), flat_map (be_bytes 4) (map (fun j => N.lxor (f j) (g j)) s) = bxor (flat_map (be_bytes 4) (map f s)) (flat_map (be_bytes 4) (map g s)).
Proof. induction s as [|i s IH]; intros; [reflexivity|]. cbn [map flat_map]. rewrite be4_lxor, IH, bxor_app by (now rewrite !be_bytes_length). reflexivity. Qed.
Lemma xorcol_bytes : forall ns index, length ns = W ->
  length (fm_xorcol P Pi ns index) = W /\
  fs_bits (fm_uintsToBytes (fm_xorcol P Pi ns index)) = fs_xor (fs_bits (fm_uintsToBytes ns)) (fs_col P Pi index).
Proof.
  intros ns index L. unfold fm_xorcol. cbv zeta.
  assert (E32 : f_r P / 32 = W) by (rewrite HW, Nat.mul_comm, Nat.div_mul; lia).
  assert (E8 : f_r P / 8 = 4 * W) by (rewrite HW; replace (32 * W) with (4 * W * 8) by lia; rewrite Nat.div_mul; lia).
  rewrite E32, E8. set (bidx := (index / N.of_nat (f_r P))%N).
  assert (Eix : (index - bidx * N.of_nat (f_r P) = index mod N.of_nat (f_r P))%N) by (unfold bidx; rewrite N.mod_eq by lia; now rewrite N.mul_comm).
  rewrite Eix. set (k := N.to_nat bidx). set (ix := N.to_nat (index mod N.of_nat (f_r P))).
  assert (Hix : ix < f_r P) by (unfold ix; pose proof (N.mod_lt index (N.of_nat (f_r P)) ltac:(lia)); lia).
  rewrite xor_words by exact L. split; [now rewrite map_length, seq_length|]. unfold fm_uintsToBytes. rewrite flat_xor.
  replace (map (at_ ns) (seq 0 W)) with ns.
  2: { rewrite <- L. clear. apply list_eq_at; [now rewrite map_length, seq_length|]. intros i Hi. now rewrite at_map_seq by exact Hi. }
  assert (LB : length (skipn (4 * W - ix / 8) (nth (ix mod 8) (fm_firstLine P Pi k) [])) = Q + 4 * W + 1 - (4 * W - ix / 8)) by (rewrite skipn_length, (first_len P Pi (4 * W) Q) by (try apply Nat.mod_upper_bound; lia); reflexivity).
  assert (ET : map (at_ (fm_bytesToUints (skipn (4 * W - ix / 8) (nth (ix mod 8) (fm_firstLine P Pi k) [])))) (seq 0 W) =
     map (fun i => be_val (slice (skipn (4 * W - ix / 8) (nth (ix mod 8) (fm_firstLine P Pi k) [])) (i * 4) (i * 4 + 4))) (seq 0 W)).
  { apply map_ext_in. intros i Hi. apply in_seq in Hi. unfold fm_bytesToUints. rewrite at_map_seq; [reflexivity|]. rewrite LB. apply Nat.div_le_lower_bound; lia. }
  rewrite ET. rewrite words_bytes; [|apply isbytes_skipn; apply (first_bytes P Pi HPi (4 * W) Q); try lia; apply Nat.mod_upper_bound; lia|rewrite LB; lia].
  fold (colbytes k ix). rewrite bits_bxor.
  - rewrite colbytes_bits by exact Hix. reflexivity.
  - rewrite colbytes_len. rewrite <- L. clear. induction ns as [|x ns IH]; [reflexivity|]. cbn [flat_map length]. rewrite app_length, be_bytes_length, IH. lia.
Qed.
End Col.

(** ** The index of the column *)
Lemma val_acc : forall l v, fold_left (fun v (b : bool) => (2 * v + if b then 1 else 0)%N) l v = (v * 2 ^ N.of_nat (length l) + fs_val l)%N.
Proof.
  unfold fs_val. induction l as [|b l IH]; intro v; cbn [fold_left length]; [change (2 ^ N.of_nat 0)%N with 1%N; lia|].
  rewrite (IH (2 * v + _)%N), (IH (2 * 0 + _)%N). rewrite Nat2N.inj_succ, N.pow_succ_r'. destruct b; lia.
Qed.
Lemma val_cons : forall b l, fs_val (b :: l) = ((if b then 1 else 0) * 2 ^ N.of_nat (length l) + fs_val l)%N.
Proof. intros. unfold fs_val at 1. cbn [fold_left]. rewrite val_acc. now rewrite N.mul_0_r. Qed.
Lemma val_lt : forall l, (fs_val l < 2 ^ N.of_nat (length l))%N.
Proof.
  induction l as [|b l IH]; [reflexivity|]. rewrite val_cons. cbn [length]. rewrite Nat2N.inj_succ, N.pow_succ_r'. destruct b; lia.
Qed.
Lemma land1 : forall a n, N.land (N.shiftr a n) 1 = if N.testbit a n then 1%N else 0%N.
Proof.
  intros. change 1%N with (N.ones 1) at 1. rewrite N.land_ones. change (2 ^ 1)%N with 2%N. rewrite <- N.bit0_mod, N.shiftr_spec by lia. rewrite N.add_0_l. now destruct (N.testbit a n).
Qed.
Lemma bitsum_ok : forall src n from sh ix, fm_bitsum src from n sh ix = N.lxor ix (N.shiftl (fs_val (map (bitat src) (seq from n))) (N.of_nat sh)).
Proof.
  unfold fm_bitsum. induction n as [|n IH]; intros from sh ix.
  - cbn [seq fold_left map]. change (fs_val []) with 0%N. now rewrite N.shiftl_0_l, N.lxor_0_r.
  - cbn [seq fold_left map]. rewrite land1. fold (bitat src from).
    rewrite (fold_left_ext_in _ _ _ (fun ix j => N.lxor ix (N.shiftl (N.land (N.shiftr (at_ src (j / 8)) (N.of_nat (7 - j mod 8))) 1) (N.of_nat (S from + n - j - 1 + sh))))).
    2: { intros a j Hj. apply in_seq in Hj. do 3 f_equal. lia. }
    rewrite IH. rewrite N.lxor_assoc. f_equal. rewrite val_cons, map_length, seq_length.
    rewrite (N.add_comm (_ * _)). rewrite add_shift_lxor by (pose proof (val_lt (map (bitat src) (seq (S from) n))) as V; rewrite map_length, seq_length in V; exact V).
    rewrite N.shiftl_lxor, N.shiftl_shiftl, N.lxor_comm. do 2 f_equal. lia.
Qed.
Lemma sub_bits : forall B from n, from + n <= 8 * length B -> firstn n (skipn from (fs_bits B)) = map (bitat B) (seq from n).
Proof.
  intros B from n L. apply (nth_ext _ _ false false); [rewrite firstn_length, skipn_length, bits_length, map_length, seq_length; lia|].
  intros i Hi. rewrite firstn_length, skipn_length, bits_length in Hi.
  rewrite (nth_indep (map _ _) false (bitat B 0)) by (rewrite map_length, seq_length; lia). rewrite map_nth, seq_nth by lia.
  rewrite <- nth_bits. rewrite <- (firstn_skipn from (fs_bits B)) at 2. rewrite app_nth2 by (rewrite firstn_length, bits_length; lia).
  rewrite firstn_length, bits_length. replace (from + i - Nat.min from (8 * length B)) with i by lia.
  rewrite <- (firstn_skipn n (skipn from (fs_bits B))) at 2. rewrite app_nth1; [reflexivity|]. rewrite firstn_length, skipn_length, bits_length. lia.
Qed.
Lemma byte_val : forall B i, isbytes B -> fs_val (map (bitat B) (seq (8 * i) 8)) = at_ B i.
Proof.
  intros B i HB. rewrite <- (byte_bits (at_ B i) (at_byte B i HB)). unfold fs_val, SpecJh.byte_of_bits. f_equal.
  replace (8 * i) with (8 * i + 0) by lia. unfold bitat. cbn [seq map].
  rewrite <- !(Nat.add_succ_r (8 * i)). rewrite !div8, !mod8 by lia. reflexivity.
Qed.

Section Comp.
Variable P : fsb_par.
Variable Pi : list N.
Hypothesis HPi : isbytes Pi.
Variables W Q : nat.
Hypothesis HW : f_r P = 32 * W.
Hypothesis HW0 : 0 < W.
Hypothesis HQ : f_p P / 8 = Q.
Hypothesis Hpr : 4 * W <= Q.
Hypothesis Hpm : 0 < f_p P mod 8.
Hypothesis Hrw : f_r P = 8 * f_w P.
Hypothesis Hiv : fm_bfiv P = 8.
Hypothesis Hiv' : fs_iv P = 8.
Hypothesis Hm : fm_bfm P = fs_msg P.
Hypothesis Hm56 : fs_msg P = 5 \/ fs_msg P = 6.
Hypothesis Hs : fm_bpc P = fs_s P.
Hypothesis Hs8 : fs_s P = fs_msg P + 8.
Hypothesis Hin : fs_in P = f_w P * fs_msg P.
Hypothesis Hin8 : 8 * (fs_in P / 8) = fs_in P.
Lemma index_ok : forall syn buf i, isbytes syn -> length syn = 4 * W -> length buf = fs_in P / 8 -> i < f_w P ->
  fm_index P syn buf i = fs_select P (fs_bits syn) (fs_bits buf) i.
Proof.
  intros syn buf i HS LS LB Hi. unfold fm_index. cbv zeta. rewrite Hiv, Hm, Hs.
  transitivity (fm_bitsum buf (i * fs_msg P) (fs_msg P) 8 (N.lxor (N.shiftl (N.of_nat i) (N.of_nat (fs_s P))) (at_ syn i))).
  { destruct Hm56 as [E|E]; rewrite E; reflexivity. }
  rewrite bitsum_ok. unfold fs_select. rewrite Hiv'.
  assert (Hi' : i * fs_msg P + fs_msg P <= fs_in P) by (rewrite Hin; nia).
  rewrite sub_bits by lia. rewrite sub_bits by lia. rewrite (Nat.mul_comm i 8), byte_val by exact HS.
  pose proof (val_lt (map (bitat buf) (seq (i * fs_msg P) (fs_msg P)))) as V. rewrite map_length, seq_length in V. revert V.
  generalize (fs_val (map (bitat buf) (seq (i * fs_msg P) (fs_msg P)))). intros v V. pose proof (at_byte syn i HS) as Hb. revert Hb. generalize (at_ syn i). intros b Hb. unfold isbyte in Hb.
  rewrite Hs8. set (mm := fs_msg P) in *.
  change (N.of_nat 8) with 8%N. replace (N.of_nat (mm + 8)) with (N.of_nat mm + 8)%N by lia. set (M := N.of_nat mm) in *.
  rewrite <- N.shiftl_shiftl. rewrite N.pow_add_r.
  rewrite (N.lxor_comm _ b), N.lxor_assoc, <- N.shiftl_lxor. rewrite <- add_shift_lxor by exact Hb. rewrite (N.lxor_comm _ v). rewrite <- add_shift_lxor by exact V.
  lia.
Qed.
Lemma uints_len : forall ns, length (fm_uintsToBytes ns) = 4 * length ns.
Proof. induction ns as [|x ns IH]; [reflexivity|]. unfold fm_uintsToBytes in *. cbn [flat_map length]. rewrite app_length, be_bytes_length, IH. lia. Qed.
Lemma LUI_ok : fm_LUI (f_r P) = W.
Proof. unfold fm_LUI. rewrite HW. replace (32 * W - 1) with (31 + (W - 1) * 32) by lia. rewrite Nat.div_add by lia. change (31 / 32) with 0. lia. Qed.
Lemma bits_zeros : forall n, fs_bits (zeros n) = repeat false (8 * n).
Proof. induction n as [|n IH]; [reflexivity|]. replace (8 * S n) with (8 + 8 * n) by lia. rewrite repeat_app, <- IH. reflexivity. Qed.
Lemma uints_zeros : forall n, fm_uintsToBytes (zeros n) = zeros (4 * n).
Proof. induction n as [|n IH]; [reflexivity|]. replace (4 * S n) with (4 + 4 * n) by lia. unfold zeros. rewrite repeat_app. fold (zeros (4 * n)). rewrite <- IH. reflexivity. Qed.
Lemma performHash_ok : forall syn buf, isbytes syn -> length syn = 4 * W -> length buf = fs_in P / 8 ->
  length (fm_performHash P Pi syn buf) = 4 * W /\ isbytes (fm_performHash P Pi syn buf) /\
  fs_bits (fm_performHash P Pi syn buf) = fs_compress P Pi (fs_bits syn) (fs_bits buf).
Proof.
  intros syn buf HS LS LB. unfold fm_performHash. rewrite LUI_ok.
  assert (K : forall s ns x, length ns = W -> fs_bits (fm_uintsToBytes ns) = x -> (forall i, In i s -> i < f_w P) ->
    length (fold_left (fun ns i => fm_xorcol P Pi ns (fm_index P syn buf i)) s ns) = W /\
    fs_bits (fm_uintsToBytes (fold_left (fun ns i => fm_xorcol P Pi ns (fm_index P syn buf i)) s ns)) =
    fold_left (fun x i => fs_xor x (fs_col P Pi (fs_select P (fs_bits syn) (fs_bits buf) i))) s x).
  { induction s as [|i s IH]; intros ns x L E Hs'; [split; assumption|]. cbn [fold_left].
    rewrite index_ok by (try assumption; apply Hs'; now left).
    destruct (xorcol_bytes P Pi HPi W Q HW HW0 HQ Hpr Hpm ns (fs_select P (fs_bits syn) (fs_bits buf) i) L) as [L' E'].
    apply IH; [exact L'|rewrite E', E; reflexivity|]. intros j Hj. apply Hs'. now right. }
  destruct (K (seq 0 (f_w P)) (zeros W) (repeat false (f_r P))) as [KL KE].
  - apply zeros_length.
  - rewrite uints_zeros, bits_zeros. f_equal. lia.
  - intros i Hi. apply in_seq in Hi. lia.
  - split; [rewrite uints_len, KL; reflexivity|]. split; [|exact KE].
    unfold fm_uintsToBytes. apply Forall_flat_map. apply Forall_forall. intros x _. apply be_bytes_isbytes.
Qed.
(** the column index is in range: firstLine has n / r entries *)
Lemma select_lt : forall iv m i, i < f_w P -> (fs_select P iv m i < N.of_nat (f_w P) * 2 ^ N.of_nat (fs_s P))%N.
Proof.
  intros iv m i Hi. unfold fs_select. rewrite Hiv', Hs8.
  assert (V1 : (fs_val (firstn (fs_msg P) (skipn (i * fs_msg P) m)) < 2 ^ N.of_nat (fs_msg P))%N).
  { eapply N.lt_le_trans; [apply val_lt|]. apply N.pow_le_mono_r; [lia|]. rewrite firstn_length. lia. }
  assert (V2 : (fs_val (firstn 8 (skipn (i * 8) iv)) < 256)%N).
  { eapply N.lt_le_trans; [apply val_lt|]. change 256%N with (2 ^ N.of_nat 8)%N. apply N.pow_le_mono_r; [lia|]. rewrite firstn_length. lia. }
  revert V1 V2. generalize (fs_val (firstn (fs_msg P) (skipn (i * fs_msg P) m))). generalize (fs_val (firstn 8 (skipn (i * 8) iv))). intros a b V1 V2.
  replace (N.of_nat (fs_msg P + 8)) with (N.of_nat (fs_msg P) + 8)%N by lia. rewrite N.pow_add_r. change (2 ^ N.of_nat 8)%N with 256%N. change (2 ^ 8)%N with 256%N.
  set (M := (2 ^ N.of_nat (fs_msg P))%N) in *. assert (Hi' : (N.of_nat i + 1 <= N.of_nat (f_w P))%N) by lia. nia.
Qed.
End Comp.
