(** PropEcho.v -- C103, C104: the echo package. *)
From Coq Require Import List NArith ZArith Arith Lia.
Require Import Verif.Base Verif.Words Verif.HashAPI Verif.Buf Verif.MD Verif.Bytes Verif.Pad Verif.Refine Verif.Stream Verif.SpecAes Verif.Gost3411P Verif.Ascon2 Verif.Kupyna Verif.Md6P Verif.Shavite Verif.ShaviteP Verif.SpecEcho Verif.EchoTab Verif.Echo.
Import ListNotations.
Local Open Scope nat_scope.

(** ** Bytes of words *)
Lemma le8 : forall a, le_bytes 8 a = [w8 a; w8 (N.shiftr a 8); w8 (N.shiftr a 16); w8 (N.shiftr a 24); w8 (N.shiftr a 32); w8 (N.shiftr a 40); w8 (N.shiftr a 48); w8 (N.shiftr a 56)].
Proof. intro a. rewrite le_bytes_map. cbn [seq map N.of_nat N.mul Pos.mul Pos.of_succ_nat Pos.succ]. now rewrite N.shiftr_0_r. Qed.
Lemma le8_lxor : forall a b, le_bytes 8 (N.lxor a b) = map (fun i => N.lxor (at_ (le_bytes 8 a) i) (at_ (le_bytes 8 b) i)) (seq 0 8).
Proof. intros. rewrite (le_bytes_map 8 (N.lxor _ _)). apply map_ext_in. intros i Hi. apply in_seq in Hi. rewrite !at_le_bytes by lia. apply w8_shiftr_lxor. Qed.
Definition pw (a b : N) : list N := le_bytes 8 a ++ le_bytes 8 b.
Lemma pw_length : forall a b, length (pw a b) = 16.
Proof. intros. unfold pw. now rewrite app_length, !le_bytes_length. Qed.
Lemma pw_xor : forall a b c d, echo_xor (pw a b) (pw c d) = pw (N.lxor a c) (N.lxor b d).
Proof. intros. unfold pw. rewrite !le8_lxor, !le8. reflexivity. Qed.
Lemma pw_zeros : zeros 16 = pw 0 0.
Proof. reflexivity. Qed.
Lemma w8_lt : forall x, (w8 x < 256)%N.
Proof. intro. rewrite w8_mod. apply N.mod_lt. discriminate. Qed.
Lemma w8_le4 : forall x0 x1 x2 x3, (x0 < 256 -> x1 < 256 -> x2 < 256 -> x3 < 256 ->
  w8 (le_val [x0; x1; x2; x3]) = x0 /\ w8 (N.shiftr (le_val [x0; x1; x2; x3]) 8) = x1 /\
  w8 (N.shiftr (le_val [x0; x1; x2; x3]) 16) = x2 /\ w8 (N.shiftr (le_val [x0; x1; x2; x3]) 24) = x3)%N.
Proof.
  intros x0 x1 x2 x3 H0 H1 H2 H3. pose proof (le_bytes_le_val [x0; x1; x2; x3] ltac:(repeat constructor; assumption)) as E. cbn [length] in E.
  set (v := le_val [x0; x1; x2; x3]) in *. clearbody v.
  pose proof (at_le_bytes 4 v 0 ltac:(lia)) as E0. pose proof (at_le_bytes 4 v 1 ltac:(lia)) as E1. pose proof (at_le_bytes 4 v 2 ltac:(lia)) as E2. pose proof (at_le_bytes 4 v 3 ltac:(lia)) as E3.
  rewrite E in E0, E1, E2, E3. change (8 * N.of_nat 0)%N with 0%N in E0. rewrite N.shiftr_0_r in E0. rewrite <- E0.
  split; [reflexivity|]. split; [symmetry; exact E1|]. split; [symmetry; exact E2|symmetry; exact E3].
Qed.
Lemma w8_w32 : forall c k, (k <= 24)%N -> w8 (N.shiftr (w32 c) k) = w8 (N.shiftr c k).
Proof.
  intros c k Hk. unfold w8. apply N.bits_inj. intro j. rewrite !N.land_spec, !N.shiftr_spec', w32_bit.
  destruct (N.ltb_spec j 8) as [H|H].
  - destruct (N.ltb_spec (j + k) 32); [|lia]. reflexivity.
  - rewrite (N.bits_above_log2 255 j) by (cbn; lia). now rewrite !Bool.andb_false_r.
Qed.
Lemma w8_w32_0 : forall c, w8 (w32 c) = w8 c.
Proof. intro c. pose proof (w8_w32 c 0 ltac:(lia)) as E. now rewrite !N.shiftr_0_r in E. Qed.
(** ** Two AES rounds *)
Lemma T_eq : echo_T = [sv_AES0; sv_AES1; sv_AES2; sv_AES3].
Proof. vm_compute. reflexivity. Qed.
Definition colb (a b c d : N) : list N :=
  let A := aes_sbox a in let B := aes_sbox b in let C := aes_sbox c in let D := aes_sbox d in
  [N.lxor (N.lxor (gf_mul 2 A) (gf_mul 3 B)) (N.lxor C D); N.lxor (N.lxor (gf_mul 2 B) (gf_mul 3 C)) (N.lxor D A);
   N.lxor (N.lxor (gf_mul 2 C) (gf_mul 3 D)) (N.lxor A B); N.lxor (N.lxor (gf_mul 2 D) (gf_mul 3 A)) (N.lxor B C)].
Lemma eT_col : forall a b c d, N.lxor (N.lxor (N.lxor (eT 0 a) (eT 1 b)) (eT 2 c)) (eT 3 d) = le_val (colb (w8 a) (w8 b) (w8 c) (w8 d)).
Proof. intros. unfold eT. rewrite T_eq. cbn [nth]. apply col_ok; apply w8_lt. Qed.
Lemma colb_ex : forall a b c d, (a < 256)%N -> (b < 256)%N -> (c < 256)%N -> (d < 256)%N ->
  exists x0 x1 x2 x3, colb a b c d = [x0; x1; x2; x3] /\ (x0 < 256)%N /\ (x1 < 256)%N /\ (x2 < 256)%N /\ (x3 < 256)%N.
Proof.
  intros a b c d Ha Hb Hc Hd. do 4 eexists. split; [reflexivity|].
  assert (X : forall x y, (x < 256)%N -> (y < 256)%N -> (N.lxor x y < 256)%N) by (intros; change 256%N with (2 ^ 8)%N; now apply lxor_lt).
  destruct (tab_at a Ha) as (? & ? & ? & _). destruct (tab_at b Hb) as (? & ? & ? & _). destruct (tab_at c Hc) as (? & ? & ? & _). destruct (tab_at d Hd) as (? & ? & ? & _).
  repeat split; repeat match goal with |- (N.lxor _ _ < _)%N => apply X end; assumption.
Qed.
Lemma aes_round_colb : forall a0 a1 a2 a3 b0 b1 b2 b3 c0 c1 c2 c3 d0 d1 d2 d3,
  aes_round [a0; a1; a2; a3; b0; b1; b2; b3; c0; c1; c2; c3; d0; d1; d2; d3] =
  colb a0 b1 c2 d3 ++ colb b0 c1 d2 a3 ++ colb c0 d1 a2 b3 ++ colb d0 a1 b2 c3.
Proof. intros. apply aes_round_explicit. Qed.
Lemma join32 : forall X Y, length X = 4 -> length Y = 4 -> isbytes X -> isbytes Y -> le_bytes 8 (N.lxor (le_val X) (shl64 (le_val Y) 32)) = X ++ Y.
Proof.
  intros X Y LX LY HX HY. replace (N.lxor (le_val X) (shl64 (le_val Y) 32)) with (le_val (X ++ Y)).
  - replace 8 with (length (X ++ Y)) by (rewrite app_length; lia). apply le_bytes_le_val. apply Forall_app. now split.
  - rewrite le_val_app_lxor by exact HX. rewrite LX. f_equal. unfold shl64. rewrite w64_small; [reflexivity|].
    pose proof (le_val_lt Y HY) as BY. rewrite LY in BY. rewrite N.shiftl_mul_pow2. change (2 ^ N.of_nat (8 * 4))%N with 4294967296%N in BY. change (2 ^ 32)%N with 4294967296%N. change (2 ^ 64)%N with 18446744073709551616%N. lia.
Qed.
Lemma aes2_ok : forall s0 s1 c a b, let r := e_aes2 s0 s1 c a b in pw (fst r) (snd r) = echo_word (pw s0 s1) c (pw a b).
Proof.
  intros s0 s1 c a b. cbv zeta. unfold echo_word. unfold pw at 2. rewrite (le8 a), (le8 b). cbn [app]. rewrite aes_round_colb.
  unfold e_aes2. cbv zeta. cbn [fst snd].
  assert (A4 : forall c0 x y z t, N.lxor (N.lxor (N.lxor (N.lxor c0 x) y) z) t = N.lxor c0 (N.lxor (N.lxor (N.lxor x y) z) t)) by (intros; now rewrite !N.lxor_assoc).
  rewrite !(A4 (w32 _)), !eT_col.
  destruct (colb_ex (w8 a) (w8 (N.shiftr a 40)) (w8 (N.shiftr b 16)) (w8 (N.shiftr b 56)) ltac:(apply w8_lt) ltac:(apply w8_lt) ltac:(apply w8_lt) ltac:(apply w8_lt)) as (x0 & x1 & x2 & x3 & -> & Hx0 & Hx1 & Hx2 & Hx3).
  destruct (colb_ex (w8 (N.shiftr a 32)) (w8 (N.shiftr b 8)) (w8 (N.shiftr b 48)) (w8 (N.shiftr a 24)) ltac:(apply w8_lt) ltac:(apply w8_lt) ltac:(apply w8_lt) ltac:(apply w8_lt)) as (y0 & y1 & y2 & y3 & -> & Hy0 & Hy1 & Hy2 & Hy3).
  destruct (colb_ex (w8 b) (w8 (N.shiftr b 40)) (w8 (N.shiftr a 16)) (w8 (N.shiftr a 56)) ltac:(apply w8_lt) ltac:(apply w8_lt) ltac:(apply w8_lt) ltac:(apply w8_lt)) as (z0 & z1 & z2 & z3 & -> & Hz0 & Hz1 & Hz2 & Hz3).
  destruct (colb_ex (w8 (N.shiftr b 32)) (w8 (N.shiftr a 8)) (w8 (N.shiftr a 48)) (w8 (N.shiftr b 24)) ltac:(apply w8_lt) ltac:(apply w8_lt) ltac:(apply w8_lt) ltac:(apply w8_lt)) as (t0 & t1 & t2 & t3 & -> & Ht0 & Ht1 & Ht2 & Ht3).
  assert (W0 : forall u v, w8 (N.lxor u v) = N.lxor (w8 u) (w8 v)) by (intros u v; pose proof (w8_shiftr_lxor u v 0) as E; now rewrite !N.shiftr_0_r in E).
  rewrite !W0, !w8_shiftr_lxor. rewrite !w8_w32, !w8_w32_0 by lia. rewrite !N.shiftr_shiftr. cbn [N.add Pos.add Pos.succ Pos.add_carry].
  destruct (w8_le4 x0 x1 x2 x3 Hx0 Hx1 Hx2 Hx3) as (-> & -> & -> & ->). destruct (w8_le4 y0 y1 y2 y3 Hy0 Hy1 Hy2 Hy3) as (-> & -> & -> & ->).
  destruct (w8_le4 z0 z1 z2 z3 Hz0 Hz1 Hz2 Hz3) as (-> & -> & -> & ->). destruct (w8_le4 t0 t1 t2 t3 Ht0 Ht1 Ht2 Ht3) as (-> & -> & -> & ->).
  assert (ER : echo_xor ([x0; x1; x2; x3] ++ [y0; y1; y2; y3] ++ [z0; z1; z2; z3] ++ [t0; t1; t2; t3]) (le_bytes 8 c ++ zeros 8) =
    [N.lxor (w8 c) x0; N.lxor (w8 (N.shiftr c 8)) x1; N.lxor (w8 (N.shiftr c 16)) x2; N.lxor (w8 (N.shiftr c 24)) x3;
     N.lxor (w8 (N.shiftr c 32)) y0; N.lxor (w8 (N.shiftr c 40)) y1; N.lxor (w8 (N.shiftr c 48)) y2; N.lxor (w8 (N.shiftr c 56)) y3;
     z0; z1; z2; z3; t0; t1; t2; t3]).
  { rewrite le8. unfold echo_xor. cbn [app zeros repeat seq map]. unfold at_. cbn [nth]. rewrite !N.lxor_0_r. rewrite (N.lxor_comm x0), (N.lxor_comm x1), (N.lxor_comm x2), (N.lxor_comm x3), (N.lxor_comm y0), (N.lxor_comm y1), (N.lxor_comm y2), (N.lxor_comm y3). reflexivity. }
  rewrite ER, aes_round_colb. clear ER.
  assert (X : forall x y, (x < 256)%N -> (y < 256)%N -> (N.lxor x y < 256)%N) by (intros; change 256%N with (2 ^ 8)%N; now apply lxor_lt).
  match goal with |- context [colb ?p ?q ?r ?s ++ colb ?p' ?q' ?r' ?s' ++ colb ?p2 ?q2 ?r2 ?s2 ++ colb ?p3 ?q3 ?r3 ?s3] =>
    destruct (colb_ex p q r s) as (e0 & e1 & e2 & e3 & EE & ? & ? & ? & ?); [try apply X; auto using w8_lt ..|];
    destruct (colb_ex p' q' r' s') as (f0 & f1 & f2 & f3 & EF & ? & ? & ? & ?); [try apply X; auto using w8_lt ..|];
    destruct (colb_ex p2 q2 r2 s2) as (g0 & g1 & g2 & g3 & EG & ? & ? & ? & ?); [try apply X; auto using w8_lt ..|];
    destruct (colb_ex p3 q3 r3 s3) as (h0 & h1 & h2 & h3 & EH & ? & ? & ? & ?); [try apply X; auto using w8_lt ..|] end.
  rewrite EE, EF, EG, EH. rewrite <- pw_xor. unfold pw at 1. rewrite !join32 by (reflexivity || (repeat constructor; assumption)). reflexivity.
Qed.
Opaque e_aes2 echo_word pw.
(** ** The state *)
Definition est (n : nat) (w : list N) : list (list N) := map (fun i => pw (at_ w (2 * i)) (at_ w (2 * i + 1))) (seq 0 n).
Lemma list32w : forall w : list N, length w = 32 -> exists x0 x1 x2 x3 x4 x5 x6 x7 x8 x9 x10 x11 x12 x13 x14 x15 x16 x17 x18 x19 x20 x21 x22 x23 x24 x25 x26 x27 x28 x29 x30 x31,
  w = [x0; x1; x2; x3; x4; x5; x6; x7; x8; x9; x10; x11; x12; x13; x14; x15; x16; x17; x18; x19; x20; x21; x22; x23; x24; x25; x26; x27; x28; x29; x30; x31].
Proof.
  intros w H. do 32 (destruct w as [|? w]; [discriminate H|]). destruct w; [|discriminate H]. do 32 eexists. reflexivity.
Qed.
Ltac l32 w H := destruct (list32w w H) as (?x0 & ?x1 & ?x2 & ?x3 & ?x4 & ?x5 & ?x6 & ?x7 & ?x8 & ?x9 & ?x10 & ?x11 & ?x12 & ?x13 & ?x14 & ?x15 & ?x16 & ?x17 & ?x18 & ?x19 & ?x20 & ?x21 & ?x22 & ?x23 & ?x24 & ?x25 & ?x26 & ?x27 & ?x28 & ?x29 & ?x30 & ?x31 & ->); clear H.
Fixpoint addn (n : nat) (c : N) : N := match n with O => c | S k => add64 (addn k c) 1 end.
Lemma addn_ok : forall n c, (c < 2 ^ 64)%N -> addn n c = ((c + N.of_nat n) mod 2 ^ 64)%N.
Proof.
  induction n as [|n IH]; intros c Hc; cbn [addn].
  - rewrite N.add_0_r. symmetry. now apply N.mod_small.
  - rewrite IH by exact Hc. unfold add64. rewrite w64_mod, N.add_mod_idemp_l by discriminate. f_equal. lia.
Qed.
Lemma sub_ok : forall s0 s1 w c, length w = 32 -> (c < 2 ^ 64)%N ->
  est 16 (fst (e_sub s0 s1 (w, c))) = echo_sub (pw s0 s1) c (est 16 w) /\ length (fst (e_sub s0 s1 (w, c))) = 32 /\ snd (e_sub s0 s1 (w, c)) = ((c + 16) mod 2 ^ 64)%N.
Proof.
  intros s0 s1 w c H Hc. l32 w H.
  set (d := e_sub _ _ _). unfold e_sub in d. cbv -[e_aes2 add64] in d. split; [|split].
  - subst d. unfold est, echo_sub. apply map_ext_in. intros i Hi. apply in_seq in Hi. rewrite <- addn_ok by exact Hc.
    do 16 (destruct i as [|i]; [cbn [fst Nat.mul Nat.add at_ nth map seq addn]; unfold at_; cbn [nth]; refine (aes2_ok s0 s1 _ _ _)|]). exfalso; lia.
  - reflexivity.
  - subst d. cbn [snd]. rewrite <- (addn_ok 16) by exact Hc. reflexivity.
Qed.
Lemma shift_ok : forall w, length w = 32 -> est 16 (e_shift w) = echo_shift (est 16 w) /\ length (e_shift w) = 32.
Proof.
  intros w H. l32 w H. set (d := e_shift _). cbv in d. subst d. split; reflexivity.
Qed.
Lemma dbl_byte : forall a i, i < 8 -> w8 (N.shiftr (e_dbl a) (8 * N.of_nat i)) = xtime (w8 (N.shiftr a (8 * N.of_nat i))).
Proof.
  intros a i Hi. unfold e_dbl. rewrite w8_shiftr_lxor.
  assert (T : forall v j, N.testbit (w8 v) j = if (j <? 8)%N then N.testbit v j else false).
  { intros v j. unfold w8. change 255%N with (N.ones 8). rewrite N.land_spec. destruct (N.ltb_spec j 8) as [H|H].
    - rewrite (N.ones_spec_low 8 j) by exact H. apply Bool.andb_true_r.
    - rewrite (N.ones_spec_high 8 j) by exact H. apply Bool.andb_false_r. }
  set (v := N.shiftr a (8 * N.of_nat i)).
  assert (E1 : w8 (N.shiftr (N.land (shl64 a 1) 0xfefefefefefefefe) (8 * N.of_nat i)) = w8 (2 * w8 v)).
  { apply N.bits_inj. intro j. rewrite !T. destruct (N.ltb_spec j 8) as [H|H]; [|reflexivity].
    rewrite N.shiftr_spec', N.land_spec. unfold shl64. rewrite w64_bit. destruct (N.ltb_spec (j + 8 * N.of_nat i) 64); [|lia].
    assert (F : N.testbit 0xfefefefefefefefe (j + 8 * N.of_nat i) = negb (j =? 0)%N).
    { assert (Ej : (j = 0 \/ j = 1 \/ j = 2 \/ j = 3 \/ j = 4 \/ j = 5 \/ j = 6 \/ j = 7)%N) by lia.
      do 8 (destruct i as [|i]; [destruct Ej as [->|[->|[->|[->|[->|[->|[->| ->]]]]]]]; reflexivity|]). lia. }
    rewrite F. destruct (N.eqb_spec j 0) as [->|Hj].
    - rewrite Bool.andb_false_r. symmetry. apply N.testbit_even_0.
    - rewrite Bool.andb_true_r. replace j with (N.succ (j - 1)) by lia. rewrite N.testbit_even_succ by lia. rewrite T. destruct (N.ltb_spec (j - 1) 8); [|lia].
      rewrite N.shiftl_spec_high' by lia. unfold v. rewrite N.shiftr_spec'. f_equal. lia. }
  set (y := N.land (N.shiftr a 7) 0x0101010101010101).
  assert (E2 : forall k, k < 8 -> w8 (N.shiftr y (8 * N.of_nat k)) = N.b2n (N.testbit (N.shiftr a (8 * N.of_nat k)) 7)).
  { intros k Hk. apply N.bits_inj. intro j. rewrite T. unfold y. rewrite N.shiftr_spec', N.land_spec, N.shiftr_spec'.
    destruct (N.eqb_spec j 0) as [->|Hj].
    - change (0 <? 8)%N with true. cbv iota. rewrite N.b2n_bit0, N.shiftr_spec'. 
      replace (N.testbit 0x0101010101010101 (0 + 8 * N.of_nat k)) with true by (do 8 (destruct k as [|k]; [reflexivity|]); lia).
      rewrite Bool.andb_true_r. f_equal. lia.
    - replace (N.testbit (N.b2n _) j) with false.
      2:{ symmetry. rewrite N.bits_above_log2; [reflexivity|]. destruct (N.testbit _ _); cbn [N.b2n N.log2]; lia. }
      destruct (N.ltb_spec j 8); [|reflexivity].
      replace (N.testbit 0x0101010101010101 (j + 8 * N.of_nat k)) with false; [apply Bool.andb_false_r|].
      assert (Ej : (j = 1 \/ j = 2 \/ j = 3 \/ j = 4 \/ j = 5 \/ j = 6 \/ j = 7)%N) by lia.
      do 8 (destruct k as [|k]; [destruct Ej as [->|[->|[->|[->|[->|[->| ->]]]]]]; reflexivity|]). lia. }
  assert (By : (y < 2 ^ 64)%N).
  { unfold y. apply lt_pow2_bits. intros j Hj. rewrite N.land_spec. rewrite (N.bits_above_log2 0x0101010101010101 j) by (cbn; lia). apply Bool.andb_false_r. }
  assert (E3 : w8 (N.shiftr (mul64 y 0x1b) (8 * N.of_nat i)) = (27 * w8 (N.shiftr y (8 * N.of_nat i)))%N).
  { assert (Ey : y = le_val (le_bytes 8 y)) by (rewrite le_val_le_bytes; symmetry; now apply N.mod_small).
    rewrite le_bytes_map in Ey. cbn [seq map] in Ey.
    pose proof (E2 0 ltac:(lia)) as B0. pose proof (E2 1 ltac:(lia)) as B1. pose proof (E2 2 ltac:(lia)) as B2. pose proof (E2 3 ltac:(lia)) as B3.
    pose proof (E2 4 ltac:(lia)) as B4. pose proof (E2 5 ltac:(lia)) as B5. pose proof (E2 6 ltac:(lia)) as B6. pose proof (E2 7 ltac:(lia)) as B7.
    clear E2. clearbody y. revert Ey B0 B1 B2 B3 B4 B5 B6 B7.
    generalize (N.testbit (N.shiftr a (8 * N.of_nat 0)) 7) (N.testbit (N.shiftr a (8 * N.of_nat 1)) 7) (N.testbit (N.shiftr a (8 * N.of_nat 2)) 7) (N.testbit (N.shiftr a (8 * N.of_nat 3)) 7).
    generalize (N.testbit (N.shiftr a (8 * N.of_nat 4)) 7) (N.testbit (N.shiftr a (8 * N.of_nat 5)) 7) (N.testbit (N.shiftr a (8 * N.of_nat 6)) 7) (N.testbit (N.shiftr a (8 * N.of_nat 7)) 7).
    intros b4 b5 b6 b7 b0 b1 b2 b3 Ey B0 B1 B2 B3 B4 B5 B6 B7. rewrite B0, B1, B2, B3, B4, B5, B6, B7 in Ey.
    assert (Em : mul64 y 27 = le_val (map (N.mul 27) (map N.b2n [b0; b1; b2; b3; b4; b5; b6; b7]))).
    { unfold mul64. rewrite Ey. cbn [map le_val]. destruct b0, b1, b2, b3, b4, b5, b6, b7; reflexivity. }
    assert (Hb : forall b, (27 * N.b2n b < 256)%N) by (intros []; reflexivity).
    pose proof (le_bytes_le_val (map (N.mul 27) (map N.b2n [b0; b1; b2; b3; b4; b5; b6; b7])) ltac:(cbn [map]; repeat constructor; apply Hb)) as EL. rewrite <- Em in EL.
    rewrite <- (at_le_bytes 8 (mul64 y 27)) by exact Hi. change (length _) with 8 in EL. rewrite EL.
    do 8 (destruct i as [|i]; [rewrite ?B0, ?B1, ?B2, ?B3, ?B4, ?B5, ?B6, ?B7; reflexivity|]). lia. }
  rewrite E1, E3, E2 by exact Hi. fold v. clear. unfold xtime. replace (N.testbit (w8 v) 7) with (N.testbit v 7).
  2:{ unfold w8. rewrite N.land_spec. symmetry. apply Bool.andb_true_r. }
  destruct (N.testbit v 7) eqn:E7; cbn [N.b2n]; [reflexivity|]. rewrite N.lxor_0_r. rewrite w8_mod. apply N.mod_small.
  assert (w8 v < 128)%N; [|lia]. change 128%N with (2 ^ 7)%N. apply lt_pow2_bits. intros j Hj. unfold w8. change 255%N with (N.ones 8). rewrite N.land_spec.
  destruct (N.eqb_spec j 7) as [->|]; [now rewrite E7|]. rewrite (N.ones_spec_high 8 j) by lia. apply Bool.andb_false_r.
Qed.
Definition mixw (a b c d : N) : N := N.lxor (N.lxor (N.lxor (N.lxor (e_dbl a) (e_dbl b)) b) c) d.
Lemma gf2 : forall b, (b < 256)%N -> gf_mul 2 b = xtime b /\ gf_mul 3 b = N.lxor b (xtime b).
Proof.
  assert (E : forallb (fun b => (gf_mul 2 (N.of_nat b) =? xtime (N.of_nat b))%N && (gf_mul 3 (N.of_nat b) =? N.lxor (N.of_nat b) (xtime (N.of_nat b)))%N)%bool (seq 0 256) = true) by (vm_compute; reflexivity).
  intros b Hb. rewrite forallb_forall in E. specialize (E (N.to_nat b) ltac:(apply in_seq; lia)). rewrite N2Nat.id in E.
  apply andb_prop in E. destruct E as [E1 E2]. split; now apply N.eqb_eq.
Qed.
Lemma at_pw : forall a b i, i < 16 -> at_ (pw a b) i = if i <? 8 then w8 (N.shiftr a (8 * N.of_nat i)) else w8 (N.shiftr b (8 * N.of_nat (i - 8))).
Proof.
  Transparent pw. intros a b i Hi. unfold pw, at_. destruct (Nat.ltb_spec i 8).
  - rewrite app_nth1 by (rewrite le_bytes_length; lia). now apply at_le_bytes.
  - rewrite app_nth2 by (rewrite le_bytes_length; lia). rewrite le_bytes_length. apply at_le_bytes. lia.
  Opaque pw.
Qed.
Lemma mix_byte : forall a b c d i, i < 8 -> w8 (N.shiftr (mixw a b c d) (8 * N.of_nat i)) =
  let e x := w8 (N.shiftr x (8 * N.of_nat i)) in N.lxor (N.lxor (gf_mul 2 (e a)) (gf_mul 3 (e b))) (N.lxor (e c) (e d)).
Proof.
  intros a b c d i Hi. cbv zeta. unfold mixw. rewrite !w8_shiftr_lxor, !dbl_byte by exact Hi.
  destruct (gf2 _ (w8_lt (N.shiftr a (8 * N.of_nat i)))) as [-> _]. destruct (gf2 _ (w8_lt (N.shiftr b (8 * N.of_nat i)))) as [_ ->]. xorac.
Qed.
Lemma mix_pair : forall a0 a1 b0 b1 c0 c1 d0 d1,
  pw (mixw a0 b0 c0 d0) (mixw a1 b1 c1 d1) = map (fun b => let e x y := at_ (pw x y) b in N.lxor (N.lxor (gf_mul 2 (e a0 a1)) (gf_mul 3 (e b0 b1))) (N.lxor (e c0 c1) (e d0 d1))) (seq 0 16).
Proof.
  intros. apply list_eq_at; [now rewrite pw_length, map_length, seq_length|]. intros i Hi. rewrite pw_length in Hi.
  rewrite at_map_seq by exact Hi. cbv zeta. rewrite !at_pw by exact Hi. destruct (Nat.ltb_spec i 8); rewrite mix_byte by lia; reflexivity.
Qed.
Lemma mix_ok : forall w, length w = 32 -> est 16 (e_mix w) = echo_mix (est 16 w) /\ length (e_mix w) = 32.
Proof.
  intros w H. l32 w H. set (d := e_mix _). cbv -[e_dbl N.lxor] in d. split; [|reflexivity].
  unfold est, echo_mix. apply map_ext_in. intros i Hi. apply in_seq in Hi. subst d.
  assert (M : forall a b c d, N.lxor (N.lxor (N.lxor (N.lxor (e_dbl a) (e_dbl b)) b) c) d = mixw a b c d) by reflexivity. rewrite !M.
  do 16 (destruct i as [|i]; [apply mix_pair|]). exfalso; lia.
Qed.
(** The rounds. *)
Lemma round_ok : forall s0 s1 w c l, length w = 32 -> (c < 2 ^ 64)%N ->
  let r := e_round s0 s1 (w, c) l in
  est 16 (fst r) = echo_mix (echo_shift (echo_sub (pw s0 s1) c (est 16 w))) /\ length (fst r) = 32 /\ snd r = ((c + 16) mod 2 ^ 64)%N.
Proof.
  intros s0 s1 w c l Hw Hc. cbv zeta. unfold e_round. destruct (sub_ok s0 s1 w c Hw Hc) as (E1 & L1 & C1).
  destruct (e_sub s0 s1 (w, c)) as [w1 c1]. cbn [fst snd] in *. destruct (shift_ok w1 L1) as [E2 L2]. destruct (mix_ok _ L2) as [E3 L3].
  rewrite E3, E2, E1. auto.
Qed.
Opaque e_round echo_mix echo_shift echo_sub.
Lemma sub_mod : forall salt k st, echo_sub salt (k mod 2 ^ 64)%N st = echo_sub salt k st.
Proof. intros. Transparent echo_sub. unfold echo_sub. apply map_ext. intro i. now rewrite N.add_mod_idemp_l by discriminate. Opaque echo_sub. Qed.
Lemma rounds_ok : forall s0 s1 n w c, length w = 32 -> (c < 2 ^ 64)%N ->
  let r := fold_left (e_round s0 s1) (seq 0 n) (w, c) in
  est 16 (fst r) = fold_left (echo_round (pw s0 s1) c) (seq 0 n) (est 16 w) /\ length (fst r) = 32 /\ snd r = ((c + 16 * N.of_nat n) mod 2 ^ 64)%N.
Proof.
  intros s0 s1 n. induction n as [|n IH]; intros w c Hw Hc; cbv zeta.
  - cbn [seq fold_left fst snd]. rewrite N.mul_0_r, N.add_0_r, N.mod_small by exact Hc. auto.
  - rewrite seq_S, !fold_left_app. cbn [fold_left]. destruct (IH w c Hw Hc) as (E & L & C). destruct (fold_left (e_round s0 s1) (seq 0 n) (w, c)) as [w1 c1]. cbn [fst snd] in *.
    assert (Hc1 : (c1 < 2 ^ 64)%N) by (rewrite C; apply N.mod_lt; discriminate).
    destruct (round_ok s0 s1 w1 c1 (0 + n) L Hc1) as (E2 & L2 & C2). split; [|split; [exact L2|]].
    + rewrite E2, E, C. unfold echo_round. now rewrite sub_mod.
    + rewrite C2, C, N.add_mod_idemp_l by discriminate. f_equal. lia.
Qed.
(** The end of the compression function. *)
Definition e_par (hs : Z) : echo_par := if (256 <? hs)%Z then echo_big else echo_small.
Lemma final_ok : forall hs h w, length h = 32 -> length w = 32 ->
  est (e_v (e_par hs)) (e_final hs h w) =
  map (fun i => fold_left (fun a j => echo_xor a (echo_xor (nth (i + e_v (e_par hs) * j) (est 16 h) []) (nth (i + e_v (e_par hs) * j) (est 16 w) [])))
                          (seq 0 (16 / e_v (e_par hs))) (zeros 16)) (seq 0 (e_v (e_par hs))) /\ length (e_final hs h w) = 32.
Proof.
  intros hs h w Hh Hw. unfold e_final, e_par. destruct (Z.leb_spec hs 256), (Z.ltb_spec 256 hs); try lia.
  - cbn [e_v echo_small]. set (r := fold_left _ (seq 0 8) h). l32 h Hh. l32 w Hw. cbv -[N.lxor] in r. split; [|reflexivity].
    unfold est at 1. apply map_ext_in. intros i Hi. apply in_seq in Hi. subst r. change (16 / 4) with 4. rewrite pw_zeros.
    do 4 (destruct i as [|i]; [cbv -[N.lxor pw echo_xor]; rewrite !pw_xor; f_equal; rewrite !N.lxor_0_l; xorac|]). exfalso; lia.
  - cbn [e_v echo_big]. set (r := fold_left _ (seq 0 16) h). l32 h Hh. l32 w Hw. cbv -[N.lxor] in r. split; [|reflexivity].
    unfold est at 1. apply map_ext_in. intros i Hi. apply in_seq in Hi. subst r. change (16 / 8) with 2. rewrite pw_zeros.
    do 8 (destruct i as [|i]; [cbv -[N.lxor pw echo_xor]; rewrite !pw_xor; f_equal; rewrite !N.lxor_0_l; xorac|]). exfalso; lia.
Qed.
(** The message words. *)
Lemma chunks_words : forall k x, length x = 16 * k -> isbytes x -> map (fun i => pw (at_ (ewords x) (2 * i)) (at_ (ewords x) (2 * i + 1))) (seq 0 k) = chunks 16 x.
Proof.
  intros k x L B. unfold chunks. replace (length x / 16) with k by (rewrite L, Nat.mul_comm; symmetry; apply Nat.div_mul; discriminate).
  apply map_ext_in. intros i Hi. apply in_seq in Hi. unfold ewords.
  assert (LD : length x / 8 = 2 * k) by (rewrite L; replace (16 * k) with (2 * k * 8) by lia; apply Nat.div_mul; discriminate). rewrite LD.
  rewrite !at_map_seq by lia.
  assert (W : forall a, a + 8 <= length x -> le_bytes 8 (le_val (slice x a (a + 8))) = firstn 8 (skipn a x)).
  { intros a Ha. unfold slice. replace (a + 8 - a) with 8 by lia. assert (LL : length (firstn 8 (skipn a x)) = 8) by (rewrite firstn_length, skipn_length; lia).
    rewrite <- LL at 1. apply le_bytes_le_val. now apply isbytes_firstn, isbytes_skipn. }
  Transparent pw. unfold pw. Opaque pw. rewrite !W by lia. replace (8 * (2 * i)) with (i * 16) by lia. replace (8 * (2 * i + 1)) with (i * 16 + 8) by lia.
  rewrite <- (firstn_skipn 8 (firstn 16 (skipn (i * 16) x))). rewrite firstn_firstn. f_equal. rewrite skipn_firstn_comm, skipn_skipn. reflexivity.
Qed.
Lemma est_join : forall v s ws, v <= 16 -> length s = 32 -> length ws = 32 - 2 * v ->
  est 16 (copy_at s (2 * v) ws) = est v s ++ map (fun i => pw (at_ ws (2 * i)) (at_ ws (2 * i + 1))) (seq 0 (16 - v)) /\ length (copy_at s (2 * v) ws) = 32.
Proof.
  intros v s ws Hv Ls Lw. rewrite copy_at_full by lia. rewrite (firstn_all2 ws) by lia. split; [|rewrite app_length, firstn_length; lia].
  assert (NF : forall (l : list N) k i, i < k -> nth i (firstn k l) 0%N = nth i l 0%N).
  { intros l k. revert l. induction k as [|k IH]; intros l i H; [lia|]. destruct l; [reflexivity|]. destruct i; [reflexivity|]. cbn [firstn nth]. apply IH. lia. }
  unfold est. replace 16 with (v + (16 - v)) at 1 by lia. rewrite seq_app, map_app. f_equal.
  - apply map_ext_in. intros i Hi. apply in_seq in Hi. unfold at_. rewrite !app_nth1 by (rewrite firstn_length; lia). rewrite !NF by lia. reflexivity.
  - change (0 + v) with v. rewrite (seq_shift_map v), map_map. apply map_ext. intro i. unfold at_. rewrite !app_nth2 by (rewrite firstn_length; lia). rewrite firstn_length, Ls. f_equal; f_equal; lia.
Qed.
Opaque e_final echo_round.
Section Digest.
Variable hs : Z.
Variables s0 s1 : N.
Notation p := (e_par hs).
Notation salt := (pw s0 s1).
Notation lim := (e_lim hs).
Lemma dims : lim = echo_bs p /\ lim = 16 * (16 - e_v p) /\ e_v p <= 8 /\ 4 <= e_v p /\ e_rounds hs = e_r p /\ 128 <= lim /\ lim <= 192.
Proof. unfold e_par, e_lim, e_rounds, echo_bs. destruct (256 <? hs)%Z; cbn [e_v e_r echo_big echo_small]; repeat split; lia. Qed.
Lemma transform_ok : forall s x c, length s = 32 -> length x = lim -> isbytes x -> (c < 2 ^ 64)%N ->
  est (e_v p) (e_transform hs s0 s1 s x c) = echo_compress p salt c (est (e_v p) s) x /\ length (e_transform hs s0 s1 s x c) = 32.
Proof.
  intros s x c Ls Lx Bx Hc. destruct dims as (_ & EL & V8 & V4 & ER & _). unfold e_transform. cbv zeta. rewrite ER.
  assert (LW : length (ewords x) = 32 - 2 * e_v p).
  { unfold ewords. rewrite map_length, seq_length, Lx, EL. replace (16 * (16 - e_v p)) with ((32 - 2 * e_v p) * 8) by lia. apply Nat.div_mul. discriminate. }
  rewrite LW. replace (32 - (32 - 2 * e_v p)) with (2 * e_v p) by lia.
  destruct (est_join (e_v p) s (ewords x) ltac:(lia) Ls LW) as [EJ LJ]. rewrite (chunks_words (16 - e_v p) x) in EJ by (lia || assumption).
  destruct (rounds_ok s0 s1 (e_r p) _ c LJ Hc) as (E2 & L2 & _). destruct (final_ok hs _ _ LJ L2) as [EF LF]. split; [|exact LF].
  rewrite EF, E2, EJ. reflexivity.
Qed.
Opaque e_transform echo_compress.
(** The chain over full blocks, counting. *)
Definition estep (st : list (list N) * N) (b : list N) : list (list N) * N :=
  let c := (snd st + 8 * N.of_nat lim)%N in (echo_compress p salt c (fst st) b, c).
Lemma estep_count : forall bl V c, snd (fold_left estep bl (V, c)) = (c + 8 * N.of_nat lim * N.of_nat (length bl))%N.
Proof.
  induction bl as [|b bl IH]; intros V c; cbn [fold_left length]; [cbn [snd]; lia|]. unfold estep at 2. cbn [fst snd]. rewrite IH. lia.
Qed.
Lemma chain_full : forall len bl k V, (forall i, k <= i < k + length bl -> lim * (i + 1) <= len) ->
  fold_left (fun V '(b, c) => echo_compress p salt c V b) (combine bl (map (echo_ctr p len) (seq k (length bl)))) V =
  fst (fold_left estep bl (V, 8 * N.of_nat (lim * k)))%N.
Proof.
  intros len. induction bl as [|b bl IH]; intros k V H; [reflexivity|]. cbn [length seq map combine fold_left].
  rewrite IH by (intros i Hi; apply H; cbn [length]; lia). unfold estep at 2. cbn [fst snd].
  assert (E : echo_ctr p len k = (8 * N.of_nat (lim * k) + 8 * N.of_nat lim)%N).
  { unfold echo_ctr. destruct dims as (<- & _ & _ & _ & _ & L1 & _). specialize (H k ltac:(cbn [length]; lia)). destruct (Nat.ltb_spec (lim * k) len); [|nia]. rewrite Nat.min_l by lia. lia. }
  rewrite E. replace (8 * N.of_nat (lim * S k))%N with (8 * N.of_nat (lim * k) + 8 * N.of_nat lim)%N by (rewrite Nat.mul_succ_r; lia). reflexivity.
Qed.
(** ** Objects and messages *)
Definition erel (V0 : list (list N)) (d : dig (list N)) (m : list N) : Prop :=
  isbytes m /\ length (ds d) = 32 /\ buf_ok lim lim (dx d) (dnx d) m /\ dlen d = w64 (8 * N.of_nat (length m)) /\
  ((8 * N.of_nat (length m) < 2 ^ 64)%N -> est (e_v p) (ds d) = fst (fold_left estep (chunks lim m) (V0, 0%N))).
Lemma erel_write : forall V0 d m q, isbytes q -> (8 * N.of_nat (length (m ++ q)) < 2 ^ 64)%N -> erel V0 d m -> erel V0 (fst (e_write hs s0 s1 d q)) (m ++ q).
Proof.
  intros V0 d m q Hq HB (Bm & Ls & Hb & El & Es). pose proof dims as (_ & _ & _ & _ & _ & HL & _). unfold e_write.
  destruct (writeA_ok lim lim (fun s b xx => (e_transform hs s0 s1 (fst s) b (add64 (snd s) (8 * N.of_nat xx)), add64 (snd s) (8 * N.of_nat xx)))
    (fun st h => isbytes h -> (8 * N.of_nat (length h) < 2 ^ 64)%N ->
       length (fst st) = 32 /\ snd st = (8 * N.of_nat (length h))%N /\ est (e_v p) (fst st) = fst (fold_left estep (chunks lim h) (V0, 0%N))) ltac:(lia) (le_n _))
    with (s := (ds d, dlen d)) (x := dx d) (nx := dnx d) (p := q) (m := m)
    as (st & x' & nx' & r & c & E & Ep & II & Hlt & Hb').
  - intros st h c b HI Lb Fb Hc Bh Hh. cbn [fst snd]. rewrite app_length in Hh. apply Forall_app in Bh. destruct Bh as [Bh Bc].
    destruct (HI Bh ltac:(lia)) as (L & C & EE).
    assert (A : add64 (snd st) (8 * N.of_nat (length c)) = (8 * N.of_nat (length (h ++ c)))%N) by (rewrite C, app_length; unfold add64; rewrite w64_small by lia; lia).
    rewrite A. rewrite (firstn_all2 b) in Fb by lia.
    assert (Bb : isbytes b) by (rewrite Fb; apply Forall_app; split; [now apply isbytes_rest|exact Bc]).
    destruct (transform_ok (fst st) b (8 * N.of_nat (length (h ++ c))) L Lb Bb ltac:(rewrite app_length; lia)) as [ET LT].
    split; [exact LT|]. split; [reflexivity|]. rewrite ET, absorb_snoc by lia. rewrite <- Fb. unfold estep at 1. cbn [fst]. rewrite <- EE. f_equal.
    pose proof (estep_count (chunks lim h) V0 0) as EC. rewrite EC. rewrite (chunks_length _ lim h). rewrite rest_length in Hc by lia.
    pose proof (Nat.div_mod (length h) lim ltac:(lia)). rewrite app_length. lia.
  - intros _ _. cbn [fst snd]. rewrite app_length in HB. split; [exact Ls|]. split; [rewrite El; apply w64_small; lia|]. apply Es. lia.
  - exact Hb.
  - rewrite E. cbn [fst snd]. rewrite Ep in Hq, HB. apply Forall_app in Hq. destruct Hq as [Bc Br]. rewrite !app_length in HB.
    destruct II as (L' & C' & E'); [apply Forall_app; now split|rewrite app_length; lia|].
    split; [rewrite Ep; repeat (apply Forall_app; split); assumption|]. cbn [ds dx dnx dlen]. split; [exact L'|]. split; [exact Hb'|]. split.
    + rewrite C', Ep. unfold add64. f_equal. rewrite !app_length. lia.
    + intros _. rewrite E', Ep, app_assoc, (absorb_short _ estep lim _ (m ++ c) r) by lia. reflexivity.
Qed.

Lemma fields3 : forall (X A B : list N), length X = lim -> length A = 2 -> length B = 8 ->
  copy_at (copy_at (copy_at X (lim - 18) A) (lim - 16) B) (lim - 8) (zeros lim) = copy_at X (lim - 18) (A ++ B ++ zeros 8).
Proof.
  intros X A B LX LA LB. pose proof dims as (_ & _ & _ & _ & _ & HL & _).
  assert (EZ : forall y : list N, length y = lim -> copy_at y (lim - 8) (zeros lim) = copy_at y (lim - 8) (zeros 8)).
  { intros y Ly. rewrite (copy_at_full _ y (lim - 8) (zeros lim)) by (rewrite ?zeros_length; lia). rewrite (copy_at_full _ y (lim - 8) (zeros 8)) by (rewrite ?zeros_length; lia).
    rewrite Ly, !firstn_zeros. f_equal. f_equal. lia. }
  rewrite EZ by (repeat (rewrite copy_at_length; [|try lia]); lia).
  rewrite <- (firstn_skipn (lim - 18) X). set (P := firstn (lim - 18) X). set (Q := skipn (lim - 18) X).
  assert (LP : length P = lim - 18) by (unfold P; rewrite firstn_length; lia). assert (LQ : length Q = 18) by (unfold Q; rewrite skipn_length; lia). clearbody P Q.
  rewrite !(copy_at_app' _ P _ (lim - 18) 0) by lia. rewrite (copy_at_app' _ P _ (lim - 16) 2) by lia. rewrite (copy_at_app' _ P _ (lim - 8) 10) by lia. f_equal.
  clear - LA LB LQ. do 2 (destruct A as [|? A]; [discriminate LA|]). destruct A; [|discriminate LA]. do 8 (destruct B as [|? B]; [discriminate LB|]). destruct B; [|discriminate LB].
  do 18 (destruct Q as [|? Q]; [discriminate LQ|]). destruct Q; [|discriminate LQ]. reflexivity.
Qed.
Lemma combine_app' : forall (a b : list (list N)) (c d : list N), length a = length c -> combine (a ++ b) (c ++ d) = combine a c ++ combine b d.
Proof. induction a as [|x a IH]; intros b c d H; destruct c; try discriminate H; [reflexivity|]. cbn [app combine]. f_equal. apply IH. now injection H. Qed.
Variable out : nat.
Hypothesis Hout : 1 <= out <= 64.
Hypothesis Hhs : hs = (8 * Z.of_nat out)%Z.
Lemma last_ok : forall V0 d m, (8 * N.of_nat (length m) < 2 ^ 64)%N -> erel V0 d m ->
  est (e_v p) (e_last hs s0 s1 d) =
  (let bl := chunks (echo_bs p) (echo_pad p out m) in
   fold_left (fun V '(b, k) => echo_compress p salt k V b) (combine bl (map (echo_ctr p (length m)) (seq 0 (length bl)))) V0) /\ length (e_last hs s0 s1 d) = 32.
Proof.
  intros V0 d m HB (Bm & Ls & Hb & El & Es). specialize (Es HB). pose proof dims as (EB & _ & _ & _ & _ & HL & HL2).
  rewrite w64_small in El by exact HB.
  assert (E16 : le_bytes 16 (8 * N.of_nat (length m)) = le_bytes 8 (8 * N.of_nat (length m)) ++ zeros 8).
  { change 16 with (8 + 8). rewrite le_bytes_app. f_equal. replace (N.shiftr _ _) with 0%N; [reflexivity|]. symmetry. rewrite N.shiftr_div_pow2. apply N.div_small. exact HB. }
  assert (EH : le_bytes 2 (e_u16 hs) = le_bytes 2 (8 * N.of_nat out)).
  { f_equal. unfold e_u16. rewrite Hhs, Z.mod_small by (change (2 ^ 16)%Z with 65536%Z; lia). lia. }
  cbv zeta. rewrite <- EB. unfold echo_pad. rewrite <- EB, E16, <- EH, <- El.
  set (lenb := le_bytes 2 (e_u16 hs) ++ le_bytes 8 (dlen d) ++ zeros 8).
  assert (LL : length lenb = 18) by (unfold lenb; rewrite !app_length, !le_bytes_length, zeros_length; reflexivity).
  rewrite (finish_blocks_ok lim 0x80 (dx d) (dnx d) lenb m) by (lia || exact Hb).
  rewrite app_length, seq_app, map_app. rewrite combine_app' by (now rewrite map_length, seq_length). rewrite fold_left_app.
  pose proof (buf_ok_nx_lt lim lim _ _ _ ltac:(lia) Hb) as Hnx. destruct Hb as (Lx & En & Ex). rewrite rest_length in En by lia.
  pose proof (Nat.div_mod (length m) lim ltac:(lia)) as DM.
  rewrite (chain_full (length m) (chunks lim m) 0) by (intros i Hi; rewrite chunks_length in Hi; assert (lim * (i + 1) <= lim * (length m / lim)) by (apply Nat.mul_le_mono_l; rewrite Nat.add_1_r; exact (proj2 Hi)); lia).
  rewrite Nat.mul_0_r. change (8 * N.of_nat 0)%N with 0%N. rewrite <- Es.
  assert (CQ : echo_ctr p (length m) (length (chunks lim m)) = if 1 <? dnx d + 1 then dlen d else 0%N).
  { unfold echo_ctr. rewrite <- EB, chunks_length. destruct (Nat.ltb_spec (lim * (length m / lim)) (length m)), (Nat.ltb_spec 1 (dnx d + 1)); lia. }
  assert (CQ2 : echo_ctr p (length m) (S (length (chunks lim m))) = 0%N).
  { unfold echo_ctr. rewrite <- EB, chunks_length. destruct (Nat.ltb_spec (lim * S (length m / lim)) (length m)); [nia|reflexivity]. }
  assert (Bx : isbytes (copy_at (upd (dx d) (dnx d) 0x80%N) (dnx d + 1) (zeros lim))).
  { rewrite copy_at_full by (rewrite ?upd_length, ?zeros_length; lia). rewrite upd_split by lia. apply Forall_app. split; [|apply isbytes_firstn, zeros_isbytes].
    replace (dnx d + 1) with (length (firstn (dnx d) (dx d) ++ [0x80%N])) by (rewrite app_length, firstn_length; cbn [length]; lia).
    change (0x80%N :: skipn (S (dnx d)) (dx d)) with ([0x80%N] ++ skipn (S (dnx d)) (dx d)). rewrite app_assoc, firstn_app_len by reflexivity.
    apply Forall_app. split; [rewrite Ex; now apply isbytes_rest|]. constructor; [reflexivity|constructor]. }
  assert (Bl : isbytes lenb) by (unfold lenb; repeat (apply Forall_app; split); first [apply le_bytes_isbytes|apply zeros_isbytes]).
  assert (Hd : (dlen d < 2 ^ 64)%N) by (rewrite El; exact HB).
  unfold e_last. cbv zeta. unfold finish_blocks. cbv zeta. rewrite LL.
  set (x2 := copy_at (upd (dx d) (dnx d) 0x80%N) (dnx d + 1) (zeros lim)) in *.
  assert (L2 : length x2 = lim) by (unfold x2; rewrite copy_at_length; rewrite upd_length; lia).
  assert (Hlast : forall X, length X = lim -> isbytes X -> isbytes (copy_at X (lim - 18) lenb)) by (intros X LX BX; now apply copy_at_isbytes).
  destruct (Nat.ltb_spec (lim - 18) (dnx d + 1)) as [Hlong|Hshort].
  - cbv iota beta. rewrite fields3 by (rewrite ?le_bytes_length; try reflexivity; rewrite copy_at_length; lia). fold lenb.
    assert (EZ : copy_at x2 0 (zeros lim) = zeros lim).
    { rewrite copy_at_over by (rewrite zeros_length; lia). rewrite zeros_length, skipn_all2 by lia. apply app_nil_r. }
    rewrite EZ. cbn [Nat.ltb Nat.leb length seq map combine fold_left]. cbn [Nat.add]. rewrite CQ, CQ2. destruct (Nat.ltb_spec 1 (dnx d + 1)); [|lia].
    destruct (transform_ok (ds d) x2 (dlen d) Ls L2 Bx Hd) as [E1 L1].
    destruct (transform_ok _ (copy_at (zeros lim) (lim - 18) lenb) 0 L1 ltac:(rewrite copy_at_length; rewrite zeros_length; lia) (Hlast _ (zeros_length _) (zeros_isbytes _)) ltac:(reflexivity)) as [E2 L3].
    split; [|exact L3]. rewrite E2, E1. reflexivity.
  - cbv iota beta. fold x2. rewrite fields3 by (rewrite ?le_bytes_length; try reflexivity; exact L2). fold lenb.
    cbn [length seq map combine fold_left]. cbn [Nat.add]. rewrite CQ.
    apply transform_ok; [exact Ls|rewrite copy_at_length; lia|now apply Hlast|]. destruct (1 <? dnx d + 1); [exact Hd|reflexivity].
Qed.

Lemma new_ok : erel (repeat (le_bytes 16 (8 * N.of_nat out)) (e_v p)) (e_reset hs) [].
Proof.
  pose proof dims as (_ & _ & _ & _ & _ & HL & _).
  split; [constructor|]. unfold e_reset. cbn [ds dx dnx dlen].
  assert (EU : e_u64 hs = (8 * N.of_nat out)%N) by (unfold e_u64; rewrite Hhs, Z.mod_small by (change (2 ^ 64)%Z with 18446744073709551616%Z; lia); lia).
  rewrite EU.
  assert (E16 : le_bytes 16 (8 * N.of_nat out) = pw (8 * N.of_nat out) 0).
  { Transparent pw. unfold pw. Opaque pw. change 16 with (8 + 8). rewrite le_bytes_app. f_equal. replace (N.shiftr _ _) with 0%N; [reflexivity|]. symmetry. rewrite N.shiftr_div_pow2. apply N.div_small. change (2 ^ N.of_nat (8 * 8))%N with 18446744073709551616%N. lia. }
  split; [unfold e_par; destruct (256 <? hs)%Z; reflexivity|]. split; [apply buf_ok_nil; [lia|now rewrite zeros_length]|]. split; [reflexivity|].
  intros _. rewrite E16. rewrite chunks_short by (cbn [length]; lia). cbn [fold_left fst]. generalize (8 * N.of_nat out)%N. intro u. unfold e_par. destruct (256 <? hs)%Z; reflexivity.
Qed.
Lemma est_concat : forall s, length s = 32 -> concat (est (e_v p) s) = firstn (16 * e_v p) (ebytes s).
Proof.
  intros s H. l32 s H. Transparent pw. unfold e_par, ebytes. destruct (256 <? hs)%Z; cbn [e_v echo_big echo_small]; reflexivity. Opaque pw.
Qed.
Lemma par_out : e_par hs = if out <=? 32 then echo_small else echo_big.
Proof. unfold e_par. rewrite Hhs. destruct (Nat.leb_spec out 32), (Z.ltb_spec 256 (8 * Z.of_nat out)); try lia; reflexivity. Qed.
Lemma checkSum_ok : forall d m, (8 * N.of_nat (length m) < 2 ^ 64)%N -> erel (repeat (le_bytes 16 (8 * N.of_nat out)) (e_v p)) d m ->
  e_checkSum hs s0 s1 d = Some (echo salt out m) /\ length (echo salt out m) = out.
Proof.
  intros d m HB R. unfold e_checkSum, echo. cbv zeta. rewrite <- par_out. unfold echo_hash. cbv zeta. destruct (last_ok _ d m HB R) as [E L]. cbv zeta in E. rewrite <- E.
  set (s := e_last hs s0 s1 d) in *. clearbody s. rewrite est_concat by exact L.
  assert (Q : Z.quot hs 8 = Z.of_nat out) by (rewrite Hhs, Z.mul_comm; apply Z.quot_mul; discriminate). rewrite Q.
  destruct (Z.leb_spec 0 (Z.of_nat out)); [|lia]. destruct (Z.leb_spec (Z.of_nat out) 256); [|lia]. cbn [andb]. rewrite Nat2Z.id.
  assert (V : out <= 16 * e_v p) by (rewrite par_out; destruct (Nat.leb_spec out 32); cbn [e_v echo_small echo_big]; lia).
  assert (LE : length (ebytes s) = 256) by (unfold ebytes; rewrite concat_le_length, L; reflexivity).
  rewrite firstn_firstn, Nat.min_l by exact V. split; [reflexivity|]. rewrite firstn_length. lia.
Qed.
End Digest.
Lemma write_count : forall hs s0 s1 d q, snd (e_write hs s0 s1 d q) = length q.
Proof. intros. unfold e_write. destruct (writeA _ _ _ _ _ _) as [[[? ?] ?] ?]. reflexivity. Qed.
Lemma salt_ok : forall salt, isbytes salt -> length salt = 16 -> let s := copy_at (zeros 2) 0 (ewords salt) in pw (at_ s 0) (at_ s 1) = salt.
Proof.
  intros salt B L. cbv zeta. pose proof (chunks_words 1 salt ltac:(lia) B) as E. rewrite chunks_one in E by lia. cbn [seq map] in E. 
  assert (L2 : length (ewords salt) = 2) by (unfold ewords; now rewrite map_length, seq_length, L).
  rewrite copy_at_over by (rewrite zeros_length; lia). rewrite L2. change (skipn 2 (zeros 2)) with (@nil N). rewrite app_nil_r. change (2 * 0) with 0 in E. cbn [Nat.add] in E.
  exact (f_equal (fun l => nth 0 l []) E).
Qed.
(** C103: every object New or NewWithSalt returns (1..64 bytes, no salt or 16 bytes of salt), on every history
    that hashes fewer than 2^64 bits; without a salt the salt of the specification is zero. *)
Theorem C103_echo_histories : forall out salt ops, 1 <= out <= 64 -> isbytes salt -> length salt = 0 \/ length salt = 16 -> Forall op_bytes ops -> (8 * ops_total ops < 2 ^ 64)%N ->
  exists s0 s1, e_New (8 * Z.of_nat out) salt = Some (s0, s1, e_reset (8 * Z.of_nat out)) /\
  run (e_impl (8 * Z.of_nat out) s0 s1) (e_reset (8 * Z.of_nat out)) ops = ideal_run (echo (if length salt =? 0 then zeros 16 else salt) out) [] ops.
Proof.
  intros out salt ops Ho Bs Ls HF HB. set (hs := (8 * Z.of_nat out)%Z).
  assert (EN : exists s0 s1, e_New hs salt = Some (s0, s1, e_reset hs) /\ pw s0 s1 = if length salt =? 0 then zeros 16 else salt).
  { unfold e_New. destruct (Z.eqb_spec hs 0); [lia|]. replace (Z.rem hs 8) with 0%Z by (unfold hs; rewrite Z.mul_comm, Z.rem_mul by discriminate; reflexivity). cbn [Z.ltb Z.compare].
    destruct (Z.ltb_spec 512 hs); [lia|]. destruct Ls as [Ls|Ls].
    - rewrite Ls. cbn [Nat.ltb Nat.leb Nat.eqb]. exists 0%N, 0%N. split; reflexivity.
    - pose proof (salt_ok salt Bs Ls) as ES. cbv zeta in *. rewrite Ls. cbn [Nat.ltb Nat.leb Nat.eqb negb]. do 2 eexists. split; [reflexivity|exact ES]. }
  destruct EN as (s0 & s1 & EN & <-). exists s0, s1. split; [exact EN|].
  set (V0 := repeat (le_bytes 16 (8 * N.of_nat out)) (e_v (e_par hs))).
  apply run_refines_total with (R := fun d m => erel hs s0 s1 V0 d m) (B := 2305843009213693952%N).
  - intros d m q Hq HL R. apply erel_write; [exact Hq| |exact R]. change (2 ^ 64)%N with 18446744073709551616%N. lia.
  - intros d m q _ _ R. apply write_count.
  - intros d m i R. exact R.
  - intros d m i HL R. cbn [i_sum e_impl]. unfold e_sum. cbn [snd]. destruct (checkSum_ok hs s0 s1 out Ho eq_refl d m ltac:(change (2 ^ 64)%N with 18446744073709551616%N; lia) R) as [-> _]. reflexivity.
  - intros d m R. apply new_ok; [exact Ho|reflexivity].
  - exact HF.
  - change (2 ^ 64)%N with 18446744073709551616%N in HB. cbn [length]. lia.
  - apply new_ok; [exact Ho|reflexivity].
Qed.
(** The one-shot functions Sum224 (28), Sum256 (32), Sum384 (48), Sum512 (64). *)
Theorem C103_echo_oneshot : forall out data, 1 <= out <= 64 -> isbytes data -> (8 * N.of_nat (length data) < 2 ^ 64)%N ->
  e_Sum out data = Some (echo (zeros 16) out data).
Proof.
  intros out data Ho HF HB. unfold e_Sum. cbv zeta. set (hs := (8 * Z.of_nat out)%Z).
  destruct (checkSum_ok hs 0 0 out Ho eq_refl (fst (e_write hs 0 0 (e_reset hs) data)) data HB) as [E L].
  { apply (erel_write hs 0 0 _ _ [] data HF HB). apply new_ok; [exact Ho|reflexivity]. }
  rewrite E. change (pw 0 0) with (zeros 16) in *. set (g := echo (zeros 16) out data) in *. clearbody g. rewrite L, Nat.leb_refl. f_equal. rewrite firstn_all2 by lia.
  rewrite copy_at_over by (rewrite zeros_length; lia). rewrite skipn_all2 by (rewrite zeros_length; lia). apply app_nil_r.
Qed.
Theorem C103_echo_sizes : forall out, 1 <= out <= 64 ->
  e_Size (8 * Z.of_nat out) = Z.of_nat out /\ e_BlockSize (8 * Z.of_nat out) = (if out <=? 32 then 192 else 128).
Proof.
  intros out Ho. split.
  - unfold e_Size. rewrite Z.mul_comm. apply Z.quot_mul. discriminate.
  - unfold e_BlockSize, e_lim. destruct (Nat.leb_spec out 32), (Z.ltb_spec 256 (8 * Z.of_nat out)); try lia; reflexivity.
Qed.
(** Exactly which non-negative sizes and which salts are accepted. *)
Theorem C103_echo_new_exact : forall hs salt, (0 <= hs)%Z ->
  ((exists d, e_New hs salt = Some d) <-> (exists out, 1 <= out <= 64 /\ hs = (8 * Z.of_nat out)%Z) /\ (length salt = 0 \/ length salt = 16)).
Proof.
  intros hs salt H. unfold e_New. assert (R : (Z.rem hs 8 = hs mod 8)%Z) by (apply Z.rem_mod_nonneg; lia). rewrite R. pose proof (Z.mod_pos_bound hs 8 ltac:(lia)) as MB. pose proof (Z.div_mod hs 8 ltac:(lia)) as DM.
  split.
  - intros [d E]. destruct (Z.eqb_spec hs 0); [discriminate|]. destruct (Z.ltb_spec 0 (hs mod 8)); [discriminate|]. destruct (Z.ltb_spec 512 hs); [discriminate|].
    split; [exists (Z.to_nat (hs / 8)); lia|]. destruct (Nat.ltb_spec 0 (length salt)); [|lia]. destruct (Nat.eqb_spec (length salt) 16); [lia|discriminate].
  - intros [(out & Ho & ->) Hs]. destruct (Z.eqb_spec (8 * Z.of_nat out) 0); [lia|]. destruct (Z.ltb_spec 0 ((8 * Z.of_nat out) mod 8)); [rewrite Z.mul_comm, Z.mod_mul in *; lia|]. destruct (Z.ltb_spec 512 (8 * Z.of_nat out)); [lia|].
    destruct (Nat.ltb_spec 0 (length salt)); [|eexists; reflexivity]. destruct (Nat.eqb_spec (length salt) 16); [eexists; reflexivity|lia].
Qed.
Example echo_new_hyp : (exists d, e_New 256 (zeros 16) = Some d) /\ ~ (exists d, e_New 256 (zeros 8) = Some d).
Proof. split; [eexists; reflexivity|]. intros [d E]. discriminate E. Qed.
(** C104 (refuted): New rejects every size that is not a multiple of 8 between 8 and 512 -- false: every
    negative size is accepted; from -8 down every call of Sum on such an object panics, whatever was written. *)
Theorem C104_echo_negative_refuted : forall hs, (hs < 0)%Z ->
  e_New hs [] = Some (0%N, 0%N, e_reset hs) /\ ((hs <= -8)%Z -> forall d, e_checkSum hs 0 0 d = None).
Proof.
  intros hs H. split.
  - unfold e_New. destruct (Z.eqb_spec hs 0); [lia|]. assert (Z.rem hs 8 <= 0)%Z by (apply Z.rem_nonpos; lia).
    destruct (Z.ltb_spec 0 (Z.rem hs 8)); [lia|]. destruct (Z.ltb_spec 512 hs); [lia|]. reflexivity.
  - intros H8 d. unfold e_checkSum. cbv zeta.
    assert (Q : (Z.quot hs 8 <= -1)%Z) by (replace hs with (- (- hs))%Z by lia; rewrite Z.quot_opp_l by discriminate; pose proof (Z.quot_le_mono 8 (- hs) 8 ltac:(lia) ltac:(lia)) as Q; rewrite Z.quot_same in Q by discriminate; lia).
    destruct (Z.leb_spec 0 (Z.quot hs 8)); [lia|]. reflexivity.
Qed.
(** Known answer of echo_test.go. *)
From Coq Require Import String.
Open Scope string_scope.
Transparent e_aes2 e_transform e_round e_final echo_compress echo_round echo_mix echo_shift echo_sub echo_word pw.
Example C103_kat_code : e_Sum 28 (hex "1f877c") = Some (hex "ed7a2952cbc3068c58ff4c870ab850afa0a499fe64fb2e943655ab88").
Proof. vm_compute. reflexivity. Qed.
Example C103_kat_spec : echo (zeros 16) 28 (hex "1f877c") = hex "ed7a2952cbc3068c58ff4c870ab850afa0a499fe64fb2e943655ab88".
Proof. vm_compute. reflexivity. Qed.
Print Assumptions C103_echo_histories.
Print Assumptions C104_echo_negative_refuted.
