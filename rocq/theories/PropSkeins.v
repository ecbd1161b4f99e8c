(** PropSkeins.v -- C97, C98, C99: the skeins package against SpecSkein.v. *)
From Coq Require Import List NArith Arith Lia Bool.
From Verif Require Import Base Words HashAPI Buf MD Refine Bytes Pad SpecCmac SpecSkein SpecSkeins ThreefishTab Threefish Skein SkeinsTab Skeins.
Import ListNotations.

Transparent Encrypt threefish.
(** *** The unrolled cores are Threefish *)
Lemma xrot_ok : forall x r, is64 x -> (0 < r < 64)%N -> xrot x r = rotl64 x r.
Proof.
  intros x r Hx Hr. unfold xrot, rotl64, shl64. apply N.lxor_lor. apply N.bits_inj. intro i. rewrite N.land_spec, N.bits_0. unfold w64. change 18446744073709551615%N with (N.ones 64). rewrite N.land_spec.
  destruct (N.ltb_spec i r) as [L|L]; [rewrite N.shiftl_spec_low by exact L; reflexivity|]. rewrite N.shiftr_spec'. rewrite (proj1 (lt_pow2_bits 64 x) Hx) by lia. now rewrite !andb_false_r.
Qed.
Definition to_mix (m : nat * nat * N) : ins := let '(i, j, r) := m in SMix i j r.
Lemma mixes_eq : forall keys tw s n l b, wf64 n b -> forallb (mix_ok n) l = true -> fold_left (sk_ins keys tw s) (map to_mix l) b = fold_left go_mix l b.
Proof.
  intros keys tw s n l. induction l as [|[[i j] r] l IH]; intros b Hb Hl; [reflexivity|]. cbn [forallb] in Hl. apply andb_true_iff in Hl. destruct Hl as [H1 Hl]. destruct (mix_okD _ _ _ _ H1) as (A & B & C & D).
  assert (E : sk_ins keys tw s b (to_mix (i, j, r)) = go_mix b (i, j, r)).
  { cbn [sk_ins to_mix go_mix]. rewrite xrot_ok; [reflexivity|apply (wf64_at n); apply wf64_upd; [exact Hb|apply add64_is64]|exact D]. }
  cbn [map fold_left]. rewrite E. apply IH; [|exact Hl]. unfold go_mix. apply wf64_upd; [apply wf64_upd; [exact Hb|apply add64_is64]|].
  apply lxor_is64; [apply rotl64_is64|]; apply (wf64_at n); apply wf64_upd; auto using add64_is64.
Qed.
Lemma inj_wf : forall v k t r b, wf64 (nw v) (tf_inj add64 v k t r b).
Proof. intros. split; [apply tf_inj_len|]. unfold tf_inj. apply Forall_map, Forall_forall. intros. apply add64_is64. Qed.
Lemma mix_wf : forall n l b, wf64 n b -> wf64 n (fold_left go_mix l b).
Proof.
  intros n l. induction l as [|[[i j] r] l IH]; intros b Hb; [exact Hb|]. cbn [fold_left]. apply IH. unfold go_mix. apply wf64_upd; [apply wf64_upd; [exact Hb|apply add64_is64]|].
  apply lxor_is64; [apply rotl64_is64|]; apply (wf64_at n); apply wf64_upd; auto using add64_is64.
Qed.
(** digest256.go *)
Definition row256 (r : nat) : list ins := [SInj 0 (r mod 5) S0; SInj 1 ((r + 1) mod 5) (St (r mod 3)); SInj 2 ((r + 2) mod 5) (St ((r + 1) mod 3)); SInj 3 ((r + 3) mod 5) (Sc (N.of_nat r))].
Lemma add64_0r : forall x y, add64 x (add64 y 0) = add64 x y.
Proof. intros. unfold add64. rewrite N.add_0_r. apply w64_add_r. Qed.
Lemma add64_c : forall x a b, add64 (add64 x a) b = add64 x (a + b).
Proof. intros. unfold add64. rewrite w64_add_l. f_equal. lia. Qed.
Lemma row256_ok : forall keys tw r b, length b = 4 -> fold_left (sk_ins keys tw 0) (row256 r) b = tf_inj add64 V256 keys tw r b.
Proof.
  intros keys tw r b L. do 4 (destruct b as [|? b]; [discriminate L|]). destruct b; [|discriminate L].
  unfold row256, tf_inj, inj_term. cbn [fold_left sk_ins upd at_ nth map seq nw Nat.eqb Nat.sub Nat.add]. rewrite !add64_c. change (N.of_nat 0) with 0%N. rewrite N.add_0_l. rewrite ?Nat.add_0_r. reflexivity.
Qed.
Definition eloop (v : variant) (keys tw : list N) (b : list N) (k : nat) : list N :=
  fold_left go_mix (enc_b v) (tf_inj add64 v keys tw (2 * k + 1) (fold_left go_mix (enc_a v) (tf_inj add64 v keys tw (2 * k) b))).
Lemma Encrypt_loop : forall v b keys tw, Encrypt v b keys tw = tf_fin add64 (enc_fin v) keys tw (fold_left (eloop v keys tw) (seq 0 (iters v)) b).
Proof. reflexivity. Qed.
Lemma eloop_len : forall v keys tw b k, length (eloop v keys tw b k) = nw v.
Proof. intros. unfold eloop. rewrite go_mix_len. apply tf_inj_len. Qed.
Lemma eloops_len : forall v keys tw l b, length b = nw v -> length (fold_left (eloop v keys tw) l b) = nw v.
Proof. intros v keys tw l. induction l as [|k l IH]; intros b Lb; [exact Lb|]. cbn [fold_left]. apply IH, eloop_len. Qed.
Definition body256 (k : nat) : list ins := row256 (2 * k) ++ map to_mix (enc_a V256) ++ row256 (2 * k + 1) ++ map to_mix (enc_b V256).
Lemma body256_ok : forall keys tw k c, length c = 4 -> fold_left (sk_ins keys tw 0) (body256 k) c = eloop V256 keys tw c k.
Proof.
  intros keys tw k c Lc. unfold body256, eloop. rewrite !fold_left_app. rewrite (row256_ok _ _ (2 * k) c) by exact Lc.
  rewrite (mixes_eq _ _ _ 4 (enc_a V256)) by (apply (inj_wf V256) || reflexivity). rewrite (row256_ok _ _ (2 * k + 1)) by (rewrite go_mix_len; apply (tf_inj_len _ V256)).
  rewrite (mixes_eq _ _ _ 4 (enc_b V256)) by (apply (inj_wf V256) || reflexivity). reflexivity.
Qed.
Lemma fold_flat : forall A B C (f : A -> B -> A) (g : C -> list B) (h : A -> C -> A) (P : A -> Prop), (forall k c, P c -> fold_left f (g k) c = h c k /\ P (h c k)) ->
  forall l c, P c -> fold_left f (flat_map g l) c = fold_left h l c.
Proof.
  intros A B C f g h P H l. induction l as [|k l IH]; intros c Hc; [reflexivity|]. cbn [flat_map fold_left]. rewrite fold_left_app. destruct (H k c Hc) as [E1 E2]. rewrite E1. now apply IH.
Qed.
Lemma bodies256 : forall keys tw l c, length c = 4 -> fold_left (sk_ins keys tw 0) (flat_map body256 l) c = fold_left (eloop V256 keys tw) l c.
Proof.
  intros keys tw l c Lc. apply (fold_flat _ _ _ _ _ _ (fun c => length c = 4)); [|exact Lc]. intros k d Ld. split; [now apply body256_ok|apply (eloop_len V256)].
Qed.
Lemma fin256 : forall keys tw b, tf_inj add64 V256 keys tw 18 b = tf_fin add64 (enc_fin V256) keys tw b.
Proof. reflexivity. Qed.
Lemma prog256_ok : prog256 = flat_map body256 (seq 0 9) ++ row256 18.
Proof. reflexivity. Qed.
Lemma core256 : forall keys tw b, length b = 4 -> fold_left (sk_ins keys tw 0) prog256 b = Encrypt V256 b keys tw.
Proof.
  intros keys tw b L. rewrite prog256_ok. rewrite Encrypt_loop. rewrite fold_left_app. rewrite bodies256 by exact L. rewrite row256_ok by (apply (eloops_len V256); exact L). apply fin256.
Qed.
(** digest512.go *)
Definition row512 (o : nat) : list ins :=
  [SInj 0 o S0; SInj 1 (o + 1) S0; SInj 2 (o + 2) S0; SInj 3 (o + 3) S0; SInj 4 (o + 4) S0; SInj 5 (o + 5) (St o); SInj 6 (o + 6) (St (o + 1)); SInj 7 (o + 7) (Sc (N.of_nat o))].
Lemma prog512_ok : prog512 = row512 0 ++ map to_mix (enc_a V512) ++ row512 1 ++ map to_mix (enc_b V512).
Proof. reflexivity. Qed.
Definition hh27 (keys hh : list N) : Prop := forall j, j < 27 -> at_ hh j = at_ keys (j mod 9).
Definition rot3 (tw : list N) (u : nat) (tu : list N) : Prop := length tu = 3 /\ forall j, j < 3 -> at_ tu j = at_ tw ((2 * u + j) mod 3).
Lemma row512_ok : forall keys hh tw tu u o b, hh27 keys hh -> rot3 tw u tu -> u < 9 -> o < 2 -> length b = 8 -> fold_left (sk_ins hh tu (2 * u)) (row512 o) b = tf_inj add64 V512 keys tw (2 * u + o) b.
Proof.
  intros keys hh tw tu u o b HH [_ HT] Hu Ho L. do 8 (destruct b as [|? b]; [discriminate L|]). destruct b; [|discriminate L].
  unfold row512. cbn [fold_left sk_ins upd at_ nth].
  assert (HA : forall j, j < 9 -> at_ hh (2 * u + (o + j)) = at_ keys ((2 * u + o + j) mod 9)) by (intros j Hj; rewrite <- (HH (2 * u + o + j)) by lia; unfold at_; f_equal; lia).
  assert (HA0 : at_ hh (2 * u + o) = at_ keys ((2 * u + o + 0) mod 9)) by (rewrite <- (HH (2 * u + o + 0)) by lia; unfold at_; f_equal; lia).
  rewrite !HA by lia. rewrite HA0. rewrite !HT by lia. rewrite !add64_c.
  unfold tf_inj, inj_term. cbn [map seq nw Nat.eqb Nat.sub at_ nth]. change (8 + 1) with 9. replace (2 * u + o + 1) with (2 * u + (o + 1)) by lia. replace (N.of_nat (2 * u) + N.of_nat o)%N with (N.of_nat (2 * u + o)) by lia.
  replace (2 * u + (o + 1)) with (2 * u + o + 1) by lia. reflexivity.
Qed.
Definition body512 (hh : list N) (st : list N * list N) (u : nat) : list N * list N :=
  let '(p, tu) := st in (fold_left (sk_ins hh tu (2 * u)) prog512 p, [at_ tu 2; at_ tu 0; at_ tu 1]).
Lemma body512_ok : forall keys hh tw tu u c, hh27 keys hh -> rot3 tw u tu -> u < 9 -> length c = 8 -> fold_left (sk_ins hh tu (2 * u)) prog512 c = eloop V512 keys tw c u.
Proof.
  intros keys hh tw tu u c HH HT Hu Lc. rewrite prog512_ok. unfold eloop. rewrite !fold_left_app. rewrite (row512_ok keys hh tw tu u 0 c) by (assumption || lia). rewrite Nat.add_0_r.
  rewrite (mixes_eq _ _ _ 8 (enc_a V512)) by (apply (inj_wf V512) || reflexivity).
  rewrite (row512_ok keys hh tw tu u 1); try (assumption || lia); [|rewrite go_mix_len; apply (tf_inj_len _ V512)]. now rewrite (mixes_eq _ _ _ 8 (enc_b V512)) by (apply (inj_wf V512) || reflexivity).
Qed.
Lemma rot3_step : forall tw u tu, rot3 tw u tu -> rot3 tw (S u) [at_ tu 2; at_ tu 0; at_ tu 1].
Proof.
  intros tw u tu [Lt HT]. split; [reflexivity|]. intros j Hj. assert (M : forall a b, a = b + 3 -> a mod 3 = b mod 3) by (intros a b' ->; replace (b' + 3) with (b' + 1 * 3) by lia; apply Nat.mod_add; lia).
  destruct j as [|[|[|j]]]; [| | |lia]; cbn [at_ nth]; change (nth ?i tu 0%N) with (at_ tu i); rewrite HT by lia; apply f_equal; [f_equal; lia|symmetry; apply M; lia|symmetry; apply M; lia].
Qed.
Lemma fold_two : forall A T (f : A * T -> nat -> A * T) (h : A -> nat -> A) (P : A -> Prop) (R : nat -> T -> Prop),
  (forall u c t, u < 9 -> P c -> R u t -> exists t', f (c, t) u = (h c u, t') /\ P (h c u) /\ R (S u) t') ->
  forall n u c t, u + n = 9 -> P c -> R u t -> exists t', fold_left f (seq u n) (c, t) = (fold_left h (seq u n) c, t') /\ R (u + n) t'.
Proof.
  intros A T f h P R H. induction n as [|n IH]; intros u c t Hu Hc Ht; [exists t; split; [reflexivity|now rewrite Nat.add_0_r]|]. cbn [seq fold_left]. destruct (H u c t) as (t' & E & P' & R'); [lia|exact Hc|exact Ht|].
  rewrite E. replace (u + S n) with (S u + n) by lia. apply IH; [lia|exact P'|exact R'].
Qed.
Lemma bodies512 : forall keys hh tw n u c tu, hh27 keys hh -> u + n = 9 -> length c = 8 -> rot3 tw u tu ->
  exists tu', fold_left (body512 hh) (seq u n) (c, tu) = (fold_left (eloop V512 keys tw) (seq u n) c, tu') /\ rot3 tw (u + n) tu'.
Proof.
  intros keys hh tw n u c tu HH Hu Lc HT. apply (fold_two _ _ (body512 hh) (eloop V512 keys tw) (fun c => length c = 8) (rot3 tw)); try assumption.
  intros w d t Hw Ld Ht. exists [at_ t 2; at_ t 0; at_ t 1]. unfold body512. rewrite (body512_ok keys hh tw t w d HH Ht) by (lia || exact Ld). split; [reflexivity|]. split; [apply (eloop_len V512)|now apply rot3_step].
Qed.
Lemma core512 : forall keys hh tw b, length b = 8 -> length tw = 3 -> hh27 keys hh -> fold_left (body512 hh) (seq 0 9) (b, tw) = (fold_left (eloop V512 keys tw) (seq 0 9) b, tw).
Proof.
  intros keys hh tw b L LT HH.
  destruct (bodies512 keys hh tw 9 0 b tw HH eq_refl L) as (tu' & E & R); [split; [exact LT|]; intros j Hj; cbn [Nat.mul Nat.add]; now rewrite Nat.mod_small|].
  rewrite E. apply f_equal. clear E. destruct R as [Lt R]. pose proof (R 0 ltac:(lia)) as R0. pose proof (R 1 ltac:(lia)) as R1. pose proof (R 2 ltac:(lia)) as R2.
  do 3 (destruct tu' as [|? tu']; [discriminate Lt|]). destruct tu'; [|discriminate Lt]. do 3 (destruct tw as [|? tw]; [discriminate LT|]). destruct tw; [|discriminate LT]. cbn in R0, R1, R2. now subst.
Qed.
Ltac bxor := apply N.bits_inj; intro; rewrite !N.lxor_spec; repeat match goal with |- context [N.testbit ?a ?i] => generalize (N.testbit a i); intro end; repeat match goal with b : bool |- _ => destruct b end; reflexivity.
Lemma h4_ok : forall a b c d k, N.lxor (N.lxor (N.lxor a b) (N.lxor c d)) k = fold_left N.lxor [a; b; c; d] k.
Proof. intros. cbn [fold_left]. bxor. Qed.
Lemma h8_ok : forall a b c d e f g h k, N.lxor (N.lxor (N.lxor (N.lxor a b) (N.lxor c d)) (N.lxor (N.lxor e f) (N.lxor g h))) k = fold_left N.lxor [a; b; c; d; e; f; g; h] k.
Proof.
  intros. change [a; b; c; d; e; f; g; h] with ([a; b; c; d] ++ [e; f; g; h]). rewrite fold_left_app, <- !h4_ok. generalize (N.lxor (N.lxor a b) (N.lxor c d)) (N.lxor (N.lxor e f) (N.lxor g h)). intros. bxor.
Qed.
Lemma xor_out : forall n a b, length a = n -> length b = n -> map (fun i => N.lxor (at_ a i) (at_ b i)) (seq 0 n) = xorblk b a.
Proof.
  induction n as [|n IH]; intros [|x a] [|y b] La Lb; try discriminate La; try discriminate Lb; [reflexivity|]. cbn [seq map]. unfold xorblk. cbn [combine map]. f_equal; [apply N.lxor_comm|].
  rewrite <- seq_shift, map_map. apply IH; [now injection La|now injection Lb].
Qed.
Lemma ubi256_ok : forall h bc x et ex, length h = 4 -> length x = 32 ->
  ubi256 h bc x et ex = xorblk (threefish V256 h (add64 (shl64 bc 5) ex, add64 (N.shiftr bc 59) (shl64 et 55)) (to_words x)) (to_words x).
Proof.
  intros h bc x et ex Lh Lx. unfold ubi256. cbv zeta. generalize (add64 (shl64 bc 5) ex) (add64 (N.shiftr bc 59) (shl64 et 55)). intros t0 t1.
  change (map (fun i => le_val (slice x (8 * i) (8 * i + 8))) (seq 0 4)) with (bytesToBlock V256 x). rewrite bytesToBlock_ok by exact Lx. assert (LW : length (to_words x) = 4) by (rewrite to_words_len, Lx; reflexivity).
  rewrite core256 by exact LW. assert (EK : [at_ h 0; at_ h 1; at_ h 2; at_ h 3; N.lxor (N.lxor (N.lxor (at_ h 0) (at_ h 1)) (N.lxor (at_ h 2) (at_ h 3))) 2004413935125273122] = tf_k h).
  { unfold tf_k. do 4 (destruct h as [|? h]; [discriminate Lh|]). destruct h; [|discriminate Lh]. rewrite <- h4_ok. reflexivity. }
  rewrite EK. change [t0; t1; N.lxor t0 t1] with (tf_t (t0, t1)). rewrite Encrypt_ok by exact Lh. apply xor_out; [exact LW|apply (threefish_len V256)].
Qed.
Lemma hh_ok : forall h, length h = 8 ->
  let h8 := N.lxor (N.lxor (N.lxor (N.lxor (at_ h 0) (at_ h 1)) (N.lxor (at_ h 2) (at_ h 3))) (N.lxor (N.lxor (at_ h 4) (at_ h 5)) (N.lxor (at_ h 6) (at_ h 7)))) 0x1BD11BDAA9FC1A22 in
  hh27 (tf_k h) (fold_left (fun hh u => upd (upd (upd hh (u + 9) (at_ hh (u + 0))) (u + 10) (at_ hh (u + 1))) (u + 11) (at_ hh (u + 2))) [0; 3; 6; 9; 12; 15] (firstn 8 h ++ h8 :: zeros 18)).
Proof.
  intros h Lh h8. assert (E8 : h8 = fold_left N.lxor h C240). { unfold h8. do 8 (destruct h as [|? h]; [discriminate Lh|]). destruct h; [|discriminate Lh]. cbn [at_ nth]. rewrite h8_ok. reflexivity. }
  unfold tf_k. rewrite <- E8. clearbody h8. clear E8. do 8 (destruct h as [|? h]; [discriminate Lh|]). destruct h; [|discriminate Lh].
  intros j Hj. do 27 (destruct j as [|j]; [reflexivity|]). lia.
Qed.
Lemma fin512 : forall keys hh tw b, hh27 keys hh -> length keys = 9 ->
  let k i := at_ hh (18 + i) in
  [add64 (at_ b 0) (k 0); add64 (at_ b 1) (k 1); add64 (at_ b 2) (k 2); add64 (at_ b 3) (k 3); add64 (at_ b 4) (k 4);
   add64 (at_ b 5) (add64 (k 5) (at_ tw 0)); add64 (at_ b 6) (add64 (k 6) (at_ tw 1)); add64 (at_ b 7) (add64 (k 7) 18)] = tf_fin add64 (enc_fin V512) keys tw b.
Proof. intros keys hh tw b HH _ k. unfold k. rewrite !HH by lia. reflexivity. Qed.
Lemma ubi512_ok : forall h bc x et ex, length h = 8 -> length x = 64 ->
  ubi512 h bc x et ex = xorblk (threefish V512 h (add64 (shl64 bc 6) ex, add64 (N.shiftr bc 58) (shl64 et 55)) (to_words x)) (to_words x).
Proof.
  intros h bc x et ex Lh Lx. unfold ubi512. cbv zeta. generalize (add64 (shl64 bc 6) ex) (add64 (N.shiftr bc 58) (shl64 et 55)). intros t0 t1.
  change (map (fun i => le_val (slice x (8 * i) (8 * i + 8))) (seq 0 8)) with (bytesToBlock V512 x). rewrite bytesToBlock_ok by exact Lx. assert (LW : length (to_words x) = 8) by (rewrite to_words_len, Lx; reflexivity).
  pose proof (hh_ok h Lh) as HH. cbv zeta in HH. match goal with |- context [fold_left ?F ?l (firstn 8 h ++ ?q)] => set (hh := fold_left F l (firstn 8 h ++ q)) in * end. clearbody hh.
  change (fold_left (fun '(p, tw) u => (fold_left (sk_ins hh tw (2 * u)) prog512 p, [at_ tw 2; at_ tw 0; at_ tw 1])) (seq 0 9) (to_words x, [t0; t1; N.lxor t0 t1])) with (fold_left (body512 hh) (seq 0 9) (to_words x, [t0; t1; N.lxor t0 t1])).
  rewrite (core512 (tf_k h) hh) by (assumption || reflexivity). cbv beta iota.
  pose proof (fin512 (tf_k h) hh [t0; t1; N.lxor t0 t1] (fold_left (eloop V512 (tf_k h) [t0; t1; N.lxor t0 t1]) (seq 0 9) (to_words x)) HH) as F. cbv zeta in F. rewrite F by (unfold tf_k; rewrite app_length, Lh; reflexivity).
  clear F. assert (EN : tf_fin add64 (enc_fin V512) (tf_k h) [t0; t1; N.lxor t0 t1] (fold_left (eloop V512 (tf_k h) [t0; t1; N.lxor t0 t1]) (seq 0 9) (to_words x)) = threefish V512 h (t0, t1) (to_words x)).
  { rewrite <- Encrypt_ok by exact Lh. symmetry. apply (Encrypt_loop V512). }
  rewrite EN. apply xor_out; [exact LW|apply (threefish_len V512)].
Qed.
(** *** The digest *)
Global Opaque threefish Encrypt.
Section Dg.
Variable v : variant.
Variable u : list N -> N -> list N -> N -> N -> list N.
Variable lg : N.
Hypothesis Hlg : N.of_nat (nb v) = (2 ^ lg)%N.
Hypothesis Hlg6 : (lg <= 6)%N.
Hypothesis u_ok : forall h bc x et ex, length h = nw v -> length x = nb v ->
  u h bc x et ex = xorblk (threefish v h (add64 (shl64 bc lg) ex, add64 (N.shiftr bc (64 - lg)) (shl64 et 55)) (to_words x)) (to_words x).
Lemma u_block : forall h bc x et ex typ a b, length h = nw v -> length x = nb v -> (N.of_nat (bc * nb v + ex) < 2 ^ 64)%N -> shl64 et 55 = tw1 typ a b ->
  u h (N.of_nat bc) x et (N.of_nat ex) = ubi_block v h (tweak_of (N.of_nat (bc * nb v + ex)) typ a b) x.
Proof.
  intros h bc x et ex typ a b Lh Lx HB HT. rewrite u_ok by assumption. unfold ubi_block. rewrite tw_words_ok by exact HB.
  assert (P : (N.of_nat bc * 2 ^ lg < 2 ^ 64)%N) by (rewrite <- Hlg; lia).
  assert (E0 : add64 (shl64 (N.of_nat bc) lg) (N.of_nat ex) = N.of_nat (bc * nb v + ex)).
  { unfold shl64, add64. rewrite N.shiftl_mul_pow2. rewrite (w64_small (N.of_nat bc * 2 ^ lg)) by exact P. rewrite w64_small by (rewrite <- Hlg; lia). rewrite <- Hlg. lia. }
  assert (E1 : add64 (N.shiftr (N.of_nat bc) (64 - lg)) (shl64 et 55) = tw1 typ a b).
  { rewrite N.shiftr_div_pow2. rewrite N.div_small.
    - rewrite HT. unfold add64. rewrite N.add_0_l. rewrite <- HT. unfold shl64. rewrite !w64_mod. apply N.mod_mod. discriminate.
    - apply (N.mul_lt_mono_pos_r (2 ^ lg)); [apply N.neq_0_lt_0, N.pow_nonzero; discriminate|]. rewrite <- N.pow_add_r. replace (64 - lg + lg)%N with 64%N by lia. exact P. }
  rewrite E0, E1. reflexivity.
Qed.
Lemma blocks_ok : forall iv bl, length iv = nw v -> Forall (fun b => length b = nb v) bl -> (N.of_nat (length bl * nb v) < 2 ^ 64)%N ->
  fold_left (sks_block u) bl (iv, 0%N) = (chain v iv 48 bl, N.of_nat (length bl)) /\ length (chain v iv 48 bl) = nw v.
Proof.
  intros iv bl Li. induction bl as [|b bl IH] using rev_ind; intros F HB; [split; [reflexivity|exact Li]|].
  apply Forall_app in F. destruct F as [F Fb]. apply Forall_cons_iff in Fb. destruct Fb as [Lb _]. rewrite app_length in HB |- *. cbn [length] in HB |- *. pose proof (nb_pos v) as NP.
  destruct IH as [E L]; [exact F|nia|]. rewrite fold_left_app, E. cbn [fold_left]. rewrite chain_snoc. split; [|now apply ubi_block_len]. unfold sks_block. cbn [fst snd].
  assert (EB : add64 (N.of_nat (length bl)) 1 = N.of_nat (length bl + 1)) by (unfold add64; rewrite w64_small; [lia|change (2 ^ 64)%N with 18446744073709551616%N in *; nia]).
  rewrite EB. f_equal. pose proof (u_block (chain v iv 48 bl) (length bl + 1) b (if (N.of_nat (length bl) =? 0)%N then 224%N else 96%N) 0 48%N (length bl =? 0) false) as UB. rewrite Nat.add_0_r in UB. apply UB; try assumption.
  destruct (N.eqb_spec (N.of_nat (length bl)) 0); destruct (Nat.eqb_spec (length bl) 0); try lia; reflexivity.
Qed.
Lemma checkSum_ok : forall hs iv d m, length iv = nw v -> (N.of_nat (length m) < 2 ^ 64)%N -> dig_rel (nb v) (sks_block u) (iv, 0%N) 1 d m ->
  sks_checkSum (nb v) u hs d = eager_skein v iv hs m.
Proof.
  intros hs iv d m Li HB (Es & (Lx & En & Ef) & _). pose proof (nb_pos v) as NP. pose proof (rest_length N (nb v) m ltac:(lia)) as LR. pose proof (Nat.mod_upper_bound (length m) (nb v) ltac:(lia)) as MU.
  pose proof (Nat.div_mod (length m) (nb v) ltac:(lia)) as DM. pose proof (chunks_length N (nb v) m) as LC.
  destruct (blocks_ok iv (chunks (nb v) m) Li (chunks_all_length N (nb v) m NP)) as [EB LB]; [rewrite LC; nia|].
  rewrite EB in Es. unfold sks_checkSum, eager_skein, eager_ubi. cbv zeta. rewrite Ef, En, Es. cbn [fst snd].
  set (lst := rest (nb v) m ++ zeros (nb v - length (rest (nb v) m))). assert (LL : length lst = nb v) by (unfold lst; rewrite app_length, zeros_length; lia).
  change (fold_left _ _ iv) with (chain v iv 48 (chunks (nb v) m)).
  assert (EM : length (chunks (nb v) m) * nb v + length (rest (nb v) m) = length m) by (rewrite LC, LR; lia).
  assert (F1 : (if (N.of_nat (length (chunks (nb v) m)) =? 0)%N then u (chain v iv 48 (chunks (nb v) m)) (N.of_nat (length (chunks (nb v) m))) lst 480 (N.of_nat (length (rest (nb v) m)))
     else u (chain v iv 48 (chunks (nb v) m)) (N.of_nat (length (chunks (nb v) m))) lst 352 (N.of_nat (length (rest (nb v) m)))) =
     ubi_block v (chain v iv 48 (chunks (nb v) m)) (tweak_of (N.of_nat (length m)) 48 (length (chunks (nb v) m) =? 0) true) lst).
  { rewrite <- EM. destruct (N.eqb_spec (N.of_nat (length (chunks (nb v) m))) 0); destruct (Nat.eqb_spec (length (chunks (nb v) m)) 0); try lia; apply u_block; try assumption; try (rewrite EM; exact HB); reflexivity. }
  rewrite F1. set (G := ubi_block v _ _ lst). assert (LG : length G = nw v) by (apply ubi_block_len; exact LL).
  assert (F2 : u G 0%N (zeros (nb v)) 510%N 8%N = ubi v G (zeros 8) 63).
  { change 0%N with (N.of_nat 0). change 8%N with (N.of_nat 8). rewrite (u_block G 0 (zeros (nb v)) 510%N 8 63%N true true); [|exact LG|apply zeros_length|reflexivity|reflexivity].
    pose proof (ubi_split v G 63%N [] (zeros 8)) as US. cbn [app] in US. rewrite US; [|apply Nat.mod_0_l; lia|apply nb_8|discriminate].
    rewrite (chunks_short N (nb v) []) by exact NP. unfold chain. cbn [length seq fold_left]. rewrite zeros_app. change (length (zeros 8)) with 8. replace (8 + (nb v - 8)) with (nb v) by (pose proof (nb_8 v); lia). reflexivity. }
  rewrite F2. set (O := ubi v G (zeros 8) 63).
  assert (LO : length O = nw v) by (unfold O; rewrite <- F2; rewrite u_ok by (exact LG || apply zeros_length); rewrite xorblk_len', threefish_len, to_words_len, zeros_length; unfold nb; rewrite Nat.mul_comm, Nat.div_mul by lia; apply Nat.min_id).
  assert (EO : flat_map (fun i => le_bytes 8 (at_ O i)) (seq 0 (nb v / 8)) = to_bytes O).
  { unfold nb. rewrite Nat.mul_comm, Nat.div_mul by lia. unfold to_bytes. rewrite !flat_map_concat_map. f_equal. rewrite <- LO. rewrite <- (map_map (fun i => at_ O i) (le_bytes 8)). f_equal. rewrite at_seq_firstn by lia. apply firstn_all. }
  rewrite EO. generalize (to_bytes O). intro l. unfold copy_at. rewrite zeros_length, Nat.sub_0_r. cbn [firstn app]. f_equal. rewrite skipn_zeros. f_equal. lia.
Qed.
Theorem digest_history : forall hs iv ops, length iv = nw v -> Forall op_bytes ops -> (ops_total ops < 2 ^ 64)%N ->
  run (sks_impl (nb v) u hs iv) (sks_new (nb v) iv) ops = ideal_run (eager_skein v iv hs) [] ops.
Proof.
  intros hs iv ops Li HF HT. apply (run_refines_total _ (sks_impl (nb v) u hs iv) (eager_skein v iv hs) (dig_rel (nb v) (sks_block u) (iv, 0%N) 1) (2 ^ 64)%N); cbn [i_write i_sum i_reset sks_impl fst snd]; auto.
  - intros d m p _ _ H. apply write_pre_rel; [apply nb_pos|exact H].
  - intros d m p _ _ H. apply write_pre_count.
  - intros d m i Hm H. f_equal. now apply checkSum_ok.
  - intros. apply dig_rel_new; [apply nb_pos|apply zeros_length].
  - apply dig_rel_new; [apply nb_pos|apply zeros_length].
Qed.
End Dg.
(** The eager variant is Skein unless the message is a nonempty multiple of the block size. *)
Lemma eager_ubi_ok : forall v G m typ, m = [] \/ length m mod nb v <> 0 -> eager_ubi v G m typ = ubi v G m typ.
Proof.
  intros v G m typ H. pose proof (nb_pos v) as NP. pose proof (rest_length N (nb v) m ltac:(lia)) as LR. pose proof (Nat.mod_upper_bound (length m) (nb v) ltac:(lia)) as MU.
  set (a := firstn (length m / nb v * nb v) m). assert (EM : a ++ rest (nb v) m = m) by apply firstn_skipn.
  pose proof (Nat.div_mod (length m) (nb v) ltac:(lia)) as DM.
  assert (LA : length a = length m / nb v * nb v) by (unfold a; rewrite firstn_length; lia). assert (MA : length a mod nb v = 0) by (rewrite LA; apply Nat.mod_mul; lia).
  assert (RA : rest (nb v) a = []) by (apply length_zero_iff_nil; rewrite rest_length; lia).
  assert (CA : chunks (nb v) a = chunks (nb v) m).
  { transitivity (chunks (nb v) (a ++ rest (nb v) m)); [|now rewrite EM]. rewrite chunks_app, RA by exact NP. cbn [app]. rewrite (chunks_short N (nb v) (rest (nb v) m)) by (apply rest_length_lt; exact NP). now rewrite app_nil_r. }
  pose proof (ubi_split v G typ a (rest (nb v) m) MA) as US. rewrite EM in US. rewrite US; [|lia|].
  - unfold eager_ubi. cbv zeta. rewrite CA. unfold chain. do 2 f_equal. rewrite <- app_length, EM. reflexivity.
  - intro R0. destruct H as [->|H]; [apply firstn_nil|]. rewrite R0 in LR. cbn [length] in LR. lia.
Qed.
Lemma to_bytes_len : forall w, length (to_bytes w) = 8 * length w.
Proof. intro w. unfold to_bytes. induction w as [|x w IH]; [reflexivity|]. cbn [flat_map length]. rewrite app_length, IH, le_bytes_length. lia. Qed.
Lemma ubi8_len : forall v G, length G = nw v -> length (ubi v G (zeros 8) 63) = nw v.
Proof.
  intros v G L. pose proof (ubi_split v G 63%N [] (zeros 8)) as US. cbn [app] in US. pose proof (nb_8 v) as N8. rewrite US; [|apply Nat.mod_0_l; lia|exact N8|discriminate]. apply ubi_block_len. rewrite app_length, !zeros_length. lia.
Qed.
Lemma eager_skein_ok : forall v G m hs, length G = nw v -> hs <= nb v -> m = [] \/ length m mod nb v <> 0 -> eager_skein v G hs m = skein_output v (ubi v G m 48) hs.
Proof.
  intros v G m hs LG Hh Hm. unfold eager_skein. cbv zeta. rewrite eager_ubi_ok by exact Hm. set (U := ubi v G m 48).
  assert (LU : length U = nw v).
  { unfold U. rewrite <- eager_ubi_ok by exact Hm. unfold eager_ubi. cbv zeta. apply ubi_block_len. pose proof (rest_length_lt N (nb v) m (nb_pos v)). rewrite app_length, zeros_length. lia. }
  assert (LO : length (to_bytes (ubi v U (zeros 8) 63)) = nb v) by (rewrite to_bytes_len, ubi8_len by exact LU; reflexivity).
  rewrite LO. replace (hs - nb v) with 0 by lia. cbn [zeros repeat]. rewrite app_nil_r. unfold skein_output. destruct hs as [|k]; [reflexivity|].
  replace ((S k + nb v - 1) / nb v) with 1 by (apply (Nat.div_unique _ _ _ k); lia). cbn [seq flat_map]. change (le_bytes 8 (N.of_nat 0)) with (zeros 8). now rewrite app_nil_r.
Qed.
(** At every Sum the number of bytes written since the last Reset is zero or not a multiple of [bs]. *)
Fixpoint partial_at_sums (bs n : nat) (ops : list op) : Prop :=
  match ops with
  | [] => True
  | Write p :: t => partial_at_sums bs (n + length p) t
  | Sum _ :: t => (n = 0 \/ n mod bs <> 0) /\ partial_at_sums bs n t
  | Reset :: t => partial_at_sums bs 0 t
  end.
Lemma ideal_partial : forall bs F H, (forall m, m = [] \/ length m mod bs <> 0 -> F m = H m) -> forall ops m, partial_at_sums bs (length m) ops -> ideal_run F m ops = ideal_run H m ops.
Proof.
  intros bs F H E. induction ops as [|o ops IH]; intros m HP; [reflexivity|]. destruct o as [p|i|]; cbn [ideal_run partial_at_sums] in *.
  - f_equal. apply IH. now rewrite app_length.
  - destruct HP as [H0 HP]. rewrite E, IH; [reflexivity|exact HP|]. destruct H0 as [H0|H0]; [left; now apply length_zero_iff_nil|now right].
  - now apply IH.
Qed.
Definition sk_size (hs : nat) : Prop := hs = 28 \/ hs = 32 \/ hs = 48 \/ hs = 64.
Lemma iv_ok : forall hs, sk_size hs -> sk_variant hs = skein_chain V512 hs no_config.
Proof. intros hs [->|[->|[->| ->]]]; vm_compute; reflexivity. Qed.
(** C97: skeins.New224 ... New512 on the histories where no Sum is taken at a nonempty multiple of 64 bytes. *)
Theorem C97_skeins_histories : forall hs ops, sk_size hs -> Forall op_bytes ops -> (ops_total ops < 2 ^ 64)%N -> partial_at_sums 64 0 ops ->
  run (sk512_impl hs) (sk512_new hs) ops = ideal_run (skein V512 hs no_config) [] ops.
Proof.
  intros hs ops Hs HF HT HP. unfold sk512_impl, sk512_new. rewrite iv_ok by exact Hs. set (iv := skein_chain V512 hs no_config).
  assert (Li : length iv = 8) by (unfold iv; rewrite <- iv_ok by exact Hs; unfold sk_variant; destruct (hs =? 28); [reflexivity|]; destruct (hs =? 32); [reflexivity|]; destruct (hs =? 48); reflexivity).
  transitivity (ideal_run (eager_skein V512 iv hs) [] ops); [exact (digest_history V512 ubi512 6 eq_refl ltac:(lia) ubi512_ok hs iv ops Li HF HT)|]. apply (ideal_partial 64 _ _); [|exact HP].
  intros m Hm. unfold skein. fold iv. apply (eager_skein_ok V512); [exact Li|destruct Hs as [->|[->|[->| ->]]]; cbn; lia|exact Hm].
Qed.
(** On all histories the digest is the eager variant: in particular it does not depend on how the message is cut into Writes. *)
Theorem C97_skeins_all_histories : forall hs ops, sk_size hs -> Forall op_bytes ops -> (ops_total ops < 2 ^ 64)%N ->
  run (sk512_impl hs) (sk512_new hs) ops = ideal_run (eager_skein V512 (skein_chain V512 hs no_config) hs) [] ops.
Proof.
  intros hs ops Hs HF HT. unfold sk512_impl, sk512_new. rewrite iv_ok by exact Hs. apply (digest_history V512 ubi512 6 eq_refl ltac:(lia) ubi512_ok); try assumption.
  rewrite <- iv_ok by exact Hs. unfold sk_variant. destruct (hs =? 28); [reflexivity|]; destruct (hs =? 32); [reflexivity|]; destruct (hs =? 48); reflexivity.
Qed.
(** The one-shot functions. *)
Theorem C97_skeins_oneshot : forall hs data, sk_size hs -> isbytes data -> (N.of_nat (length data) < 2 ^ 64)%N -> data = [] \/ length data mod 64 <> 0 -> sk512_Sum hs data = skein V512 hs no_config data.
Proof.
  intros hs data Hs HB HL HP. pose proof (C97_skeins_histories hs [Write data; Sum []] Hs) as H. cbn [run ideal_run app] in H. unfold sk512_Sum.
  assert (HF : Forall op_bytes [Write data; Sum []]) by (constructor; [exact HB|constructor; [constructor|constructor]]). specialize (H HF).
  assert (HT : (ops_total [Write data; Sum []] < 2 ^ 64)%N) by (cbn [ops_total]; lia). specialize (H HT).
  assert (HQ : partial_at_sums 64 0 [Write data; Sum []]) by (cbn [partial_at_sums Nat.add]; split; [|exact I]; destruct HP as [->|HP]; [now left|now right]). specialize (H HQ).
  destruct (i_write (sk512_impl hs) (sk512_new hs) data) as [d n]. cbn [fst snd]. destruct (i_sum (sk512_impl hs) d []) as [d' o]. cbn [snd]. injection H as _ ->.
  assert (LS : length (skein V512 hs no_config data) = hs).
  { unfold skein. assert (Li : length (skein_chain V512 hs no_config) = nw V512) by (rewrite <- iv_ok by exact Hs; unfold sk_variant; destruct (hs =? 28); [reflexivity|]; destruct (hs =? 32); [reflexivity|]; destruct (hs =? 48); reflexivity).
    assert (LH : hs <= nb V512) by (destruct Hs as [->|[->|[->| ->]]]; cbn; lia). rewrite <- (eager_skein_ok V512 _ data hs Li LH HP). unfold eager_skein. cbv zeta. rewrite app_length, firstn_length, zeros_length. lia. }
  rewrite copy_at_over by (rewrite zeros_length; lia). rewrite LS, zeros_skip, Nat.sub_diag. apply app_nil_r.
Qed.
(** C98: on a nonempty multiple of 64 bytes the digest is not the Skein digest. *)
Theorem C98_skeins_full_blocks_refuted : exists m, isbytes m /\ length m = 64 /\ sk512_Sum 64 m <> skein V512 64 no_config m.
Proof. exists (zeros 64). split; [apply zeros_isbytes|]. split; [reflexivity|]. intro H. apply (f_equal (fun l => at_ l 0)) in H. revert H. vm_compute. discriminate. Qed.
(** C99: NewHS256 with the chaining value G and size hs <= 32. *)
Theorem C99_hs256_histories : forall hs G ops, hs <= 32 -> length G = 4 -> Forall op_bytes ops -> (ops_total ops < 2 ^ 64)%N -> partial_at_sums 32 0 ops ->
  run (hs256_impl hs G) (hs256_new G) ops = ideal_run (fun m => skein_output V256 (ubi V256 G m 48) hs) [] ops.
Proof.
  intros hs G ops Hh Li HF HT HP. transitivity (ideal_run (eager_skein V256 G hs) [] ops); [exact (digest_history V256 ubi256 5 eq_refl ltac:(lia) ubi256_ok hs G ops Li HF HT)|].
  apply (ideal_partial 32 _ _); [|exact HP]. intros m Hm. apply (eager_skein_ok V256); [exact Li|exact Hh|exact Hm].
Qed.
(** With the configuration chaining value this is Skein-256-(8 hs). *)
Theorem C99_hs256_skein : forall hs ops, hs <= 32 -> Forall op_bytes ops -> (ops_total ops < 2 ^ 64)%N -> partial_at_sums 32 0 ops ->
  run (hs256_impl hs (skein_chain V256 hs no_config)) (hs256_new (skein_chain V256 hs no_config)) ops = ideal_run (skein V256 hs no_config) [] ops.
Proof.
  intros hs ops Hh HF HT HP. apply C99_hs256_histories; try assumption. unfold skein_chain. cbn [opt_ubi cKey cPersonal cPublicKey cKeyID cNonce no_config].
  pose proof (ubi_split V256 (zeros (nw V256)) 4%N [] (cfg_string hs)) as US. cbn [app] in US. rewrite US; [|reflexivity|rewrite cfg_len; cbn; lia|intro E; apply (f_equal (@length N)) in E; rewrite cfg_len in E; discriminate E].
  apply (ubi_block_len V256). rewrite app_length, cfg_len. reflexivity.
Qed.
(** A size above 32 bytes is accepted, but every byte after the 32nd of every digest is zero (Skein-256 has an output of any length). *)
Theorem C99_hs256_long_output_refuted : forall hs G ops, 32 < hs -> length G = 4 -> Forall op_bytes ops -> (ops_total ops < 2 ^ 64)%N ->
  exists H, run (hs256_impl hs G) (hs256_new G) ops = ideal_run H [] ops /\ forall m, length (H m) = hs /\ skipn 32 (H m) = zeros (hs - 32).
Proof.
  intros hs G ops Hh Li HF HT. exists (eager_skein V256 G hs). split; [exact (digest_history V256 ubi256 5 eq_refl ltac:(lia) ubi256_ok hs G ops Li HF HT)|].
  intro m. unfold eager_skein. cbv zeta. assert (LO : length (to_bytes (ubi V256 (eager_ubi V256 G m 48) (zeros 8) 63)) = 32).
  { rewrite to_bytes_len, (ubi8_len V256); [reflexivity|]. unfold eager_ubi. cbv zeta. apply (ubi_block_len V256). pose proof (rest_length_lt N 32 m ltac:(lia)). rewrite app_length, zeros_length. change (nb V256) with 32. lia. }
  rewrite LO. rewrite firstn_all2 by lia. split; [rewrite app_length, LO, zeros_length; lia|]. rewrite skipn_app, LO, Nat.sub_diag, skipn_all2 by lia. reflexivity.
Qed.
Example C97_kat : sk512_Sum 64 [255]%N = skein V512 64 no_config [255]%N /\ partial_at_sums 64 0 [Write (zeros 40); Sum []; Write (zeros 40); Sum [1]%N; Reset; Sum []].
Proof. split; [apply C97_skeins_oneshot; [unfold sk_size; auto|repeat constructor|reflexivity|right; cbn; lia]|]. cbn. repeat split; auto. Qed.
