(** Blake512P.v -- proofs about the model of package blake512. *)
From Coq Require Import List NArith Arith Lia Bool.
From Verif Require Import Base Words HashAPI Buf MD Refine SpecBlake BlakeP Blake512 Blake256P.
Import ListNotations.

Local Notation compress64 := (blake_compress 8 add64 rotr64 32 25 16 11 16 blake64_cst).
Local Notation round64 := (blake_round add64 rotr64 32 25 16 11 blake64_cst).
Local Notation quarter64 := (blake_quarter add64 rotr64 32 25 16 11).

Lemma add64_acc : forall a b x, add64 a (add64 b x) = add64 (add64 a b) x.
Proof. intros. unfold add64. rewrite w64_add_r, w64_add_l. f_equal. lia. Qed.

(** quarter step with the additions associated as in the code *)
Definition quarter2 (cst m : list N) (o : nat -> nat) (v : list N) (x : nat * (nat * nat * nat * nat)) : list N :=
  let '(i, (pa, pb, pc, pd)) := x in
  let j := o (2 * i) in let k := o (2 * i + 1) in
  let a := at_ v pa in let b := at_ v pb in let c := at_ v pc in let d := at_ v pd in
  let a := add64 a (add64 b (N.lxor (at_ m j) (at_ cst k))) in
  let d := rotr64 (N.lxor d a) 32 in
  let c := add64 c d in
  let b := rotr64 (N.lxor b c) 25 in
  let a := add64 a (add64 b (N.lxor (at_ m k) (at_ cst j))) in
  let d := rotr64 (N.lxor d a) 16 in
  let c := add64 c d in
  let b := rotr64 (N.lxor b c) 11 in
  upd (upd (upd (upd v pa a) pb b) pc c) pd d.
Lemma quarter2_ok : forall cst m sg v q, quarter2 cst m (fun k => nth k sg 0) v q = quarter64 cst m sg v q.
Proof.
  intros cst m sg v [i [[[a b] c] d]]. unfold quarter2, blake_quarter. cbv zeta. unfold blake_G. cbv zeta. rewrite !add64_acc. reflexivity.
Qed.
Ltac q_ok := intros m o v L; do 16 (destruct v as [|? v]; [discriminate L|]); destruct v; [|discriminate L]; clear L; lazy -[add64 rotr64 N.lxor b512_cb]; reflexivity.
Lemma q0_ok : forall m o v, length v = 16 -> b512_q0 m o v = quarter2 b512_cb m o v (0, (0, 4, 8, 12)). Proof. q_ok. Qed.
Lemma q1_ok : forall m o v, length v = 16 -> b512_q1 m o v = quarter2 b512_cb m o v (1, (1, 5, 9, 13)). Proof. q_ok. Qed.
Lemma q2_ok : forall m o v, length v = 16 -> b512_q2 m o v = quarter2 b512_cb m o v (2, (2, 6, 10, 14)). Proof. q_ok. Qed.
Lemma q3_ok : forall m o v, length v = 16 -> b512_q3 m o v = quarter2 b512_cb m o v (3, (3, 7, 11, 15)). Proof. q_ok. Qed.
Lemma q4_ok : forall m o v, length v = 16 -> b512_q4 m o v = quarter2 b512_cb m o v (4, (0, 5, 10, 15)). Proof. q_ok. Qed.
Lemma q5_ok : forall m o v, length v = 16 -> b512_q5 m o v = quarter2 b512_cb m o v (5, (1, 6, 11, 12)). Proof. q_ok. Qed.
Lemma q6_ok : forall m o v, length v = 16 -> b512_q6 m o v = quarter2 b512_cb m o v (6, (2, 7, 8, 13)). Proof. q_ok. Qed.
Lemma q7_ok : forall m o v, length v = 16 -> b512_q7 m o v = quarter2 b512_cb m o v (7, (3, 4, 9, 14)). Proof. q_ok. Qed.
Lemma quarter2_len : forall cst m o v q, length (quarter2 cst m o v q) = length v.
Proof. intros cst m o v [i [[[a b] c] d]]. unfold quarter2. cbv zeta. now rewrite !upd_length. Qed.
Lemma quarter2_ext : forall cst m o o' v i q, (forall k, k < 16 -> o k = o' k) -> i < 8 -> quarter2 cst m o v (i, q) = quarter2 cst m o' v (i, q).
Proof. intros cst m o o' v i [[[a b] c] d] H Hi. unfold quarter2. cbv zeta. rewrite (H (2 * i)), (H (2 * i + 1)) by lia. reflexivity. Qed.
Opaque quarter2 blake_quarter b512_q0 b512_q1 b512_q2 b512_q3 b512_q4 b512_q5 b512_q6 b512_q7.
Lemma b512_sigma_ok : forall r k, r < 16 -> k < 16 -> nth (r * 16 + k) b512_sigma 0 = nth k (nth (r mod 10) blake_sigma []) 0.
Proof.
  intros r k Hr Hk. assert (K : forallb (fun r => forallb (fun k => Nat.eqb (nth (r * 16 + k) b512_sigma 0) (nth k (nth (r mod 10) blake_sigma []) 0)) (seq 0 16)) (seq 0 16) = true) by (vm_compute; reflexivity).
  rewrite forallb_forall in K. specialize (K r). rewrite in_seq in K. specialize (K ltac:(lia)). rewrite forallb_forall in K. apply Nat.eqb_eq, K, in_seq. lia.
Qed.
Lemma quarter64_len : forall cst m sg v q, length (quarter64 cst m sg v q) = length v.
Proof. intros. rewrite <- quarter2_ok. apply quarter2_len. Qed.
Lemma b512_round_ok : forall m v r, r < 16 -> length v = 16 -> b512_round m v r = round64 m v r.
Proof.
  intros m v r Hr L. unfold b512_round, b512_rnd, blake_round. set (sg := nth (r mod 10) blake_sigma []). set (o := fun k => nth (r * 16 + k) b512_sigma 0).
  assert (Ho : forall k, k < 16 -> o k = nth k sg 0) by (intros; now apply b512_sigma_ok). clearbody sg o. change blake64_cst with b512_cb.
  assert (E : forall v i q, i < 8 -> quarter2 b512_cb m o v (i, q) = quarter64 b512_cb m sg v (i, q)).
  { intros v' i q Hi. rewrite <- quarter2_ok. now apply quarter2_ext. }
  assert (LQ : forall v q, length (quarter64 b512_cb m sg v q) = length v) by (intros; apply quarter64_len).
  rewrite q0_ok by exact L. rewrite E by lia. rewrite q1_ok by (now rewrite ?LQ). rewrite E by lia. rewrite q2_ok by (now rewrite ?LQ). rewrite E by lia.
  rewrite q3_ok by (now rewrite ?LQ). rewrite E by lia. rewrite q4_ok by (now rewrite ?LQ). rewrite E by lia. rewrite q5_ok by (now rewrite ?LQ). rewrite E by lia.
  rewrite q6_ok by (now rewrite ?LQ). rewrite E by lia. rewrite q7_ok by (now rewrite ?LQ). rewrite E by lia. unfold blake_quads. cbn [fold_left]. reflexivity.
Qed.
Lemma round64_len : forall m v i, length v = 16 -> length (round64 m v i) = 16.
Proof.
  intros m v i L. unfold blake_round. apply (fold_inv _ _ _ (fun v => length v = 16)); [|exact L]. intros a b H. rewrite quarter64_len. exact H.
Qed.
Definition rounds64_ok (m : list N) := rounds_gen _ _ (b512_round m) (round64 m) (fun v => length v = 16) (fun i => i < 16) (fun v i Hi Hv => b512_round_ok m v i Hi Hv) (round64_len m).

(** ** The 128-bit counter *)
Definition inc (t : N * N) : N * N :=
  let t0 := add64 (fst t) 1024 in (t0, if N.eqb (N.land t0 b512_mask) 0 then add64 (snd t) 1 else snd t).
Definition tw (t : N) : N * N := (t mod 18446744073709551616, t / 18446744073709551616 mod 18446744073709551616)%N.
Lemma mask_zero : forall x, (x < 18446744073709551616)%N -> (N.land x b512_mask = 0 <-> x < 1024)%N.
Proof.
  intros x Hx.
  assert (E : N.land x b512_mask = N.shiftl (N.shiftr x 10) 10).
  { apply N.bits_inj. intros i. rewrite N.land_spec. change b512_mask with (N.shiftl (N.ones 54) 10).
    destruct (N.lt_ge_cases i 10) as [L|L].
    - rewrite !N.shiftl_spec_low by lia. apply andb_false_r.
    - rewrite !N.shiftl_spec_high' by lia. rewrite N.shiftr_spec'. replace (i - 10 + 10)%N with i by lia.
      destruct (N.lt_ge_cases (i - 10) 54) as [M|M]; [rewrite N.ones_spec_low by lia; apply andb_true_r|].
      rewrite N.ones_spec_high by lia. rewrite andb_false_r. symmetry. apply (proj1 (lt_pow2_bits 64 x)); [exact Hx|lia]. }
  rewrite E, N.shiftl_mul_pow2, N.shiftr_div_pow2. change (2 ^ 10)%N with 1024%N. split; intros H.
  - assert (x / 1024 = 0)%N by lia. apply N.div_small_iff in H0; [exact H0|discriminate].
  - rewrite N.div_small by exact H. reflexivity.
Qed.
Lemma tw_split : forall q c, (c < 1024)%N ->
  tw (1024 * q + c) = ((1024 * (q mod 18014398509481984) + c)%N, (q / 18014398509481984 mod 18446744073709551616)%N).
Proof.
  intros q c Hc. unfold tw. pose proof (N.div_mod q 18014398509481984 ltac:(discriminate)) as D. pose proof (N.mod_lt q 18014398509481984 ltac:(discriminate)) as M.
  set (a := (q mod 18014398509481984)%N) in *. set (b := (q / 18014398509481984)%N) in *. clearbody a b. subst q.
  replace (1024 * (18014398509481984 * b + a) + c)%N with ((1024 * a + c) + b * 18446744073709551616)%N by lia.
  rewrite N.mod_add by discriminate. rewrite N.mod_small by lia. rewrite N.div_add by discriminate. rewrite N.div_small by lia. reflexivity.
Qed.
Lemma inc_gen : forall a b c, (a < 18014398509481984)%N -> (c < 1024)%N ->
  inc (1024 * a + c, b)%N = if (a + 1 =? 18014398509481984)%N then (c, add64 b 1) else ((1024 * (a + 1) + c)%N, b).
Proof.
  intros a b c Ha Hc. unfold inc. cbn [fst snd]. destruct (N.eqb_spec (a + 1) 18014398509481984) as [E|E].
  - assert (T : add64 (1024 * a + c) 1024 = c).
    { unfold add64. replace (1024 * a + c + 1024)%N with (c + 1 * 18446744073709551616)%N by lia. rewrite w64_shift. apply w64_small. lia. }
    rewrite T. replace (N.land c b512_mask =? 0)%N with true; [reflexivity|]. symmetry. apply N.eqb_eq, mask_zero; lia.
  - assert (T : add64 (1024 * a + c) 1024 = (1024 * (a + 1) + c)%N) by (unfold add64; rewrite w64_small; lia).
    rewrite T. replace (N.land _ b512_mask =? 0)%N with false; [reflexivity|]. symmetry. apply N.eqb_neq. rewrite mask_zero by lia. lia.
Qed.
Lemma inc_full : forall q, inc (tw (1024 * q)) = tw (1024 * (q + 1)).
Proof.
  intros q. pose proof (tw_split q 0 ltac:(reflexivity)) as T0. pose proof (tw_split (q + 1) 0 ltac:(reflexivity)) as T1. rewrite N.add_0_r in T0, T1. rewrite T0, T1. clear T0 T1.
  pose proof (N.mod_lt q 18014398509481984 ltac:(discriminate)) as M. rewrite inc_gen by (exact M || reflexivity).
  pose proof (N.div_mod q 18014398509481984 ltac:(discriminate)) as D. set (a := (q mod 18014398509481984)%N) in *. set (b := (q / 18014398509481984)%N) in *. clearbody a b. subst q.
  destruct (N.eqb_spec (a + 1) 18014398509481984) as [E|E].
  - replace (18014398509481984 * b + a + 1)%N with ((b + 1) * 18014398509481984)%N by lia. rewrite N.mod_mul, N.div_mul by discriminate. rewrite N.mul_0_r. f_equal. unfold add64. rewrite w64_mod. rewrite N.add_mod_idemp_l by discriminate. reflexivity.
  - replace (18014398509481984 * b + a + 1)%N with ((a + 1) + b * 18014398509481984)%N by lia. rewrite N.mod_add, N.div_add by discriminate. rewrite (N.mod_small (a + 1) 18014398509481984), (N.div_small (a + 1)) by lia. rewrite N.add_0_l, N.add_0_r. reflexivity.
Qed.
(** the adjustment made by checkSum before the block with the last message bits *)
Definition adjust (t : N * N) (c : N) : N * N :=
  if N.eqb (fst t) 0 then (add64 0xFFFFFFFFFFFFFC00 c, sub64 (snd t) 1) else (sub64 (fst t) (sub64 1024 c), snd t).
Lemma inc_adjust : forall q c, (0 < c < 1024)%N -> inc (adjust (tw (1024 * q)) c) = tw (1024 * q + c).
Proof.
  intros q c Hc. rewrite tw_split by lia. pose proof (tw_split q 0 ltac:(reflexivity)) as T0. rewrite N.add_0_r in T0. rewrite T0. clear T0.
  pose proof (N.mod_lt q 18014398509481984 ltac:(discriminate)) as M. pose proof (N.mod_lt (q / 18014398509481984) 18446744073709551616 ltac:(discriminate)) as M1.
  set (a := (q mod 18014398509481984)%N) in *. set (b := (q / 18014398509481984 mod 18446744073709551616)%N) in *. clearbody a b. unfold adjust. cbn [fst snd]. rewrite N.add_0_r.
  destruct (N.eqb_spec (1024 * a) 0) as [E|E].
  - assert (a = 0)%N by lia. subst a. assert (T : add64 0xFFFFFFFFFFFFFC00 c = (1024 * 18014398509481983 + c)%N) by (unfold add64; rewrite w64_small; lia). rewrite T. rewrite inc_gen by lia.
    change (18014398509481983 + 1 =? 18014398509481984)%N with true. cbv iota. rewrite N.mul_0_r, N.add_0_l. f_equal. rewrite sub_add by lia. rewrite N.add_0_r. apply w64_small. exact M1.
  - assert (S1 : sub64 1024 c = (1024 - c)%N). { unfold sub64. replace (1024 + 18446744073709551616 - c)%N with ((1024 - c) + 1 * 18446744073709551616)%N by lia. rewrite w64_shift. apply w64_small. lia. }
    assert (S2 : sub64 (1024 * a) (1024 - c) = (1024 * (a - 1) + c)%N). { unfold sub64. replace (1024 * a + 18446744073709551616 - (1024 - c))%N with ((1024 * (a - 1) + c) + 1 * 18446744073709551616)%N by lia. rewrite w64_shift. apply w64_small. lia. }
    rewrite S1, S2. rewrite inc_gen by lia. replace (a - 1 + 1)%N with a by lia. destruct (N.eqb_spec a 18014398509481984) as [K|_]; [lia|]. reflexivity.
Qed.
Lemma inc_null : inc (0xFFFFFFFFFFFFFC00, 0xFFFFFFFFFFFFFFFF)%N = tw 0.
Proof. reflexivity. Qed.

(** ** Compression *)
Lemma b512_words_ok : forall p, b512_words p = map be_val (chunks 8 p).
Proof. intros p. unfold b512_words, chunks. rewrite map_map. apply map_ext. intros i. unfold slice. f_equal. f_equal. lia. Qed.
Lemma data_words : forall p, length p = 128 -> map (fun i => be_val (firstn 8 (skipn (8 * i) p))) (seq 0 16) = map be_val (chunks 8 p).
Proof. intros p L. unfold chunks. rewrite L. change (128 / 8) with 16. rewrite map_map. apply map_ext. intros i. now rewrite (Nat.mul_comm i 8). Qed.
Lemma fin64 : forall (h s v : list N),
  [N.lxor (at_ h 0) (N.lxor (N.lxor (at_ s 0) (at_ v 0)) (at_ v 8)); N.lxor (at_ h 1) (N.lxor (N.lxor (at_ s 1) (at_ v 1)) (at_ v 9));
   N.lxor (at_ h 2) (N.lxor (N.lxor (at_ s 2) (at_ v 2)) (at_ v 10)); N.lxor (at_ h 3) (N.lxor (N.lxor (at_ s 3) (at_ v 3)) (at_ v 11));
   N.lxor (at_ h 4) (N.lxor (N.lxor (at_ s 0) (at_ v 4)) (at_ v 12)); N.lxor (at_ h 5) (N.lxor (N.lxor (at_ s 1) (at_ v 5)) (at_ v 13));
   N.lxor (at_ h 6) (N.lxor (N.lxor (at_ s 2) (at_ v 6)) (at_ v 14)); N.lxor (at_ h 7) (N.lxor (N.lxor (at_ s 3) (at_ v 7)) (at_ v 15))]
  = map (fun i => N.lxor (N.lxor (N.lxor (at_ h i) (at_ s (i mod 4))) (at_ v i)) (at_ v (i + 8))) (seq 0 8).
Proof.
  intros h s v. rewrite <- !N.lxor_assoc. change (seq 0 8) with [0;1;2;3;4;5;6;7]. cbn [map]. reflexivity.
Qed.
Lemma b512_compress_ok : forall s st p t, length p = 128 -> inc (ct0 st, ct1 st) = tw t ->
  b512_compress s st p = mkb512 (compress64 s (ch st) t p) (fst (tw t)) (snd (tw t)).
Proof.
  intros s [h t0 t1] p t L E. cbn [ch ct0 ct1] in *. unfold b512_compress. cbv zeta. cbn [ch ct0 ct1]. unfold inc in E. cbn [fst snd] in E.
  set (T0 := add64 t0 1024) in *. set (T1 := if (N.land T0 b512_mask =? 0)%N then add64 t1 1 else t1) in *. clearbody T0 T1. rewrite <- E. cbn [fst snd]. f_equal.
  unfold tw in E. assert (E0 : T0 = (t mod 18446744073709551616)%N) by congruence. assert (E1 : T1 = (t / 18446744073709551616 mod 18446744073709551616)%N) by congruence. clear E.
  rewrite fin64. unfold blake_compress. cbv zeta. change (2 ^ (8 * N.of_nat 8))%N with 18446744073709551616%N. rewrite <- E0, <- E1. rewrite data_words by exact L.
  rewrite rounds64_ok by (try reflexivity; intros i Hi; apply in_seq in Hi; lia).
  reflexivity.
Qed.

Local Notation chain64 := (chain (blake_compress 8 add64 rotr64 32 25 16 11 16 blake64_cst)).
Lemma compress64_len : forall s h t p, length (compress64 s h t p) = 8.
Proof. intros. unfold blake_compress. cbv zeta. now rewrite map_length, seq_length. Qed.
Opaque blake_compress b512_compress tw.
Lemma chain64_len : forall c s bl i h, length h = 8 -> length (chain64 c s bl i h) = 8.
Proof.
  intros c s bl. induction bl as [|b bl IH]; intros i h L; [exact L|]. unfold chain. cbn [length seq combine fold_left]. apply IH, compress64_len.
Qed.
Definition st512 (h : list N) (t : N) : b512st := mkb512 h (fst (tw t)) (snd (tw t)).
Lemma tw_pair : forall t, (fst (tw t), snd (tw t)) = tw t. Proof. intros. now destruct (tw t). Qed.
Lemma fold_chain64 : forall s iv bl, Forall (fun b : list N => length b = 128) bl ->
  fold_left (b512_compress s) bl (st512 iv 0) = st512 (chain64 (fullcnt 8) s bl 0 iv) (1024 * N.of_nat (length bl)).
Proof.
  intros s iv bl. induction bl as [|b bl IH] using rev_ind; [reflexivity|]. intros F. apply Forall_app in F. destruct F as [F1 F2]. rewrite fold_left_app, IH, chain_snoc by exact F1. cbn [fold_left].
  rewrite (b512_compress_ok s _ b (1024 * (N.of_nat (length bl) + 1))).
  - unfold st512. cbn [ch]. rewrite app_length. cbn [length]. assert (E1 : fullcnt 8 (length bl) = (1024 * (N.of_nat (length bl) + 1))%N) by (unfold fullcnt; lia). rewrite E1.
    replace (N.of_nat (length bl + 1)) with (N.of_nat (length bl) + 1)%N by lia. reflexivity.
  - now inversion F2.
  - unfold st512. cbn [ct0 ct1]. rewrite tw_pair. apply inc_full.
Qed.
Lemma st512_0 : forall iv, mkb512 iv 0 0 = st512 iv 0. Proof. reflexivity. Qed.

Definition b512_rel (s iv : list N) (d : b512) (m : list N) : Prop :=
  fst d = s /\ dig_rel 128 (b512_compress s) (st512 iv 0) 1 (snd d) m.
Lemma b512_new_rel : forall iv, b512_rel (zeros 4) iv (b512_new iv) [].
Proof. intros. split; [reflexivity|]. apply dig_rel_new; [lia|reflexivity]. Qed.
Lemma b512_write_rel : forall s iv d m p, b512_rel s iv d m -> b512_rel s iv (fst (b512_write d p)) (m ++ p).
Proof.
  intros s iv d m p [E H]. unfold b512_write. rewrite E. pose proof (write_pre_rel 128 (b512_compress s) ltac:(lia) _ _ _ p H) as K.
  destruct (write_pre 128 (b512_compress s) (snd d) p) as [d' n]. cbn [fst snd] in *. split; [reflexivity|exact K].
Qed.
Lemma b512_write_count : forall d p, snd (b512_write d p) = length p.
Proof. intros d p. unfold b512_write. pose proof (write_pre_count 128 (b512_compress (fst d)) (snd d) p) as K. destruct (write_pre _ _ _ _). exact K. Qed.
Lemma w_full512 : forall s st x nx len r p, length r < 128 -> length r + length p = 128 -> buf_ok 128 128 x nx r ->
  exists x' len', b512_w p (s, mkdig st x nx len) = (s, mkdig (b512_compress s st (r ++ p)) x' 0 len') /\ buf_ok 128 128 x' 0 [].
Proof.
  intros s st x nx len r p L0 L H. destruct (push_full 128 (b512_compress s) ltac:(lia) st x nx len r p L0 L H) as (x' & E & H').
  unfold b512_w, b512_write. cbn [fst snd]. destruct (write_pre _ _ _ _) as [d' n]. cbn [fst] in *. subst d'. eauto.
Qed.

(** buffer facts *)
Lemma upd_self : forall (l : list N) i, at_ l i = 0%N -> upd l i 0%N = l.
Proof. induction l as [|a l IH]; intros [|i] H; try reflexivity; cbn [upd]; f_equal; [exact (eq_sym H)|now apply IH]. Qed.
Lemma zeroing : forall l (b : list N), (forall i, In i l -> at_ b i = 0%N) -> fold_left (fun b i => upd b i 0%N) l b = b.
Proof.
  induction l as [|i l IH]; intros b H; [reflexivity|]. cbn [fold_left]. rewrite upd_self by (apply H; now left). apply IH. intros; apply H; now right.
Qed.
Lemma upd_zeros : forall p, p < 128 -> upd (zeros 128) p 128%N = zeros p ++ [128%N] ++ zeros (127 - p).
Proof.
  intros p H. replace 128 with (p + S (127 - p)) at 1 by lia. rewrite <- zeros_app. change (zeros (S (127 - p))) with (0%N :: zeros (127 - p)).
  pose proof (upd_app_at _ (zeros p) 0%N (zeros (127 - p)) 128%N) as U. rewrite zeros_length in U. exact U.
Qed.
Lemma at_zeros : forall n i, at_ (zeros n) i = 0%N.
Proof. intros. unfold at_, zeros. apply nth_repeat. Qed.
Lemma at_mark : forall p z i, i <> p -> at_ (zeros p ++ [128%N] ++ zeros z) i = 0%N.
Proof.
  intros p z i H. unfold at_. destruct (Nat.lt_ge_cases i p) as [L|L]; [rewrite app_nth1 by (rewrite zeros_length; lia); apply nth_repeat|].
  rewrite app_nth2 by (rewrite zeros_length; lia). rewrite zeros_length. destruct (i - p) as [|k] eqn:E; [lia|]. cbn [app nth]. apply nth_repeat.
Qed.
Lemma two_copies : forall (b u v : list N), length b = 128 -> length u = 8 -> length v = 8 -> copy_at (copy_at b 112 u) 120 v = firstn 112 b ++ u ++ v.
Proof.
  intros b u v Lb Lu Lv. rewrite (copy_at_full _ (copy_at b 112 u)) by (rewrite ?copy_at_length; lia). rewrite copy_at_length by lia. rewrite Lb. change (128 - 120) with 8. rewrite (firstn_all2 v) by lia.
  pose proof (copy_at_firstn _ b 112 u ltac:(lia) ltac:(lia)) as K. rewrite Lu in K. change (112 + 8) with 120 in K. rewrite K. now rewrite <- app_assoc.
Qed.
Lemma skipn_zeros_app : forall n l, skipn n (zeros n ++ l) = l.
Proof. intros. apply skipn_app_len. apply zeros_length. Qed.
Definition b512_flag (hs : nat) : N := if hs =? 64 then 1%N else 0%N.

(** tail written when there is room for the length *)
Lemma buf_one : forall hs p u v, p < 112 -> length u = 8 -> length v = 8 ->
  skipn p (let buf := fold_left (fun b i => upd b i 0%N) (seq (p + 1) (112 - (p + 1))) (upd (zeros 128) p 0x80%N) in
           let buf := if hs =? 64 then upd buf 111 (N.lor (at_ buf 111) 1) else buf in
           copy_at (copy_at buf 112 u) 120 v)
  = (if 112 - p =? 1 then [(128 + b512_flag hs)%N] else [128%N] ++ zeros (112 - p - 2) ++ [b512_flag hs]) ++ u ++ v.
Proof.
  intros hs p u v Hp Lu Lv. cbv zeta. rewrite upd_zeros by lia. rewrite zeroing by (intros i Hi; apply in_seq in Hi; apply at_mark; lia).
  assert (Lb : length (zeros p ++ [128%N] ++ zeros (127 - p)) = 128) by (rewrite !app_length, !zeros_length; cbn [length]; lia).
  assert (E : forall b, length b = 128 -> firstn 112 b = zeros p ++ (if 112 - p =? 1 then [(128 + b512_flag hs)%N] else [128%N] ++ zeros (112 - p - 2) ++ [b512_flag hs]) ->
     skipn p (copy_at (copy_at b 112 u) 120 v) = (if 112 - p =? 1 then [(128 + b512_flag hs)%N] else [128%N] ++ zeros (112 - p - 2) ++ [b512_flag hs]) ++ u ++ v).
  { intros b L F. rewrite two_copies by assumption. rewrite F, <- app_assoc. apply skipn_zeros_app. }
  unfold b512_flag in *. destruct (hs =? 64).
  - apply E; [rewrite upd_length; exact Lb|]. destruct (Nat.eqb_spec (112 - p) 1) as [K|K].
    + assert (p = 111) by lia. subst p. reflexivity.
    + assert (S1 : zeros p ++ [128%N] ++ zeros (127 - p) = (zeros p ++ [128%N] ++ zeros (110 - p)) ++ 0%N :: zeros 16).
      { replace (127 - p) with ((110 - p) + 17) by lia. rewrite <- zeros_app. rewrite <- !app_assoc. reflexivity. }
      assert (L1 : length (zeros p ++ [128%N] ++ zeros (110 - p)) = 111) by (rewrite !app_length, !zeros_length; cbn [length]; lia).
      assert (A : at_ (zeros p ++ [128%N] ++ zeros (127 - p)) 111 = 0%N) by (apply at_mark; lia). rewrite A. change (N.lor 0 1) with 1%N. rewrite S1.
      pose proof (upd_app_at _ (zeros p ++ [128%N] ++ zeros (110 - p)) 0%N (zeros 16) 1%N) as U. rewrite L1 in U. rewrite U. clear U A S1.
      change (1%N :: zeros 16) with ([1%N] ++ zeros 16). rewrite app_assoc. rewrite firstn_app_len by (rewrite app_length, L1; reflexivity).
      replace (112 - p - 2) with (110 - p) by lia. rewrite <- !app_assoc. reflexivity.
  - apply E; [exact Lb|]. destruct (Nat.eqb_spec (112 - p) 1) as [K|K].
    + assert (p = 111) by lia. subst p. reflexivity.
    + replace (127 - p) with ((111 - p) + 16) by lia. rewrite <- zeros_app. rewrite !app_assoc. rewrite firstn_app_len by (rewrite !app_length, !zeros_length; cbn [length]; lia).
      replace (111 - p) with ((112 - p - 2) + 1) by lia. rewrite <- zeros_app. rewrite <- !app_assoc. reflexivity.
Qed.
Lemma buf_two : forall hs p u v, 112 <= p < 128 -> length u = 8 -> length v = 8 ->
  (let buf := fold_left (fun b i => upd b i 0%N) (seq 0 112) (zeros p ++ [128%N] ++ zeros (127 - p)) in
   let buf := if hs =? 64 then upd buf 111 1%N else buf in
   copy_at (copy_at buf 112 u) 120 v) = zeros 111 ++ [b512_flag hs] ++ u ++ v.
Proof.
  intros hs p u v Hp Lu Lv. cbv zeta. rewrite zeroing by (intros i Hi; apply in_seq in Hi; apply at_mark; lia).
  assert (Lb : length (zeros p ++ [128%N] ++ zeros (127 - p)) = 128) by (rewrite !app_length, !zeros_length; cbn [length]; lia).
  assert (S1 : exists tl, zeros p ++ [128%N] ++ zeros (127 - p) = zeros 111 ++ 0%N :: tl).
  { exists (zeros (p - 112) ++ [128%N] ++ zeros (127 - p)). replace p with (111 + (1 + (p - 112))) at 1 by lia. rewrite <- (zeros_app 111), <- (zeros_app 1). rewrite <- !app_assoc. reflexivity. }
  destruct S1 as [tl S1]. rewrite S1 in *. unfold b512_flag. destruct (hs =? 64).
  - pose proof (upd_app_at _ (zeros 111) 0%N tl 1%N) as U. rewrite zeros_length in U. rewrite U.
    rewrite two_copies by (try assumption; rewrite app_length, zeros_length in *; cbn [length] in *; lia). change (zeros 111 ++ 1%N :: tl) with (zeros 111 ++ [1%N] ++ tl). rewrite (app_assoc (zeros 111) [1%N] tl). rewrite (firstn_app_len _ 112 (zeros 111 ++ [1%N])) by reflexivity. now rewrite <- app_assoc.
  - rewrite two_copies by assumption. change (zeros 111 ++ 0%N :: tl) with (zeros 111 ++ [0%N] ++ tl). rewrite (app_assoc (zeros 111) [0%N] tl). rewrite (firstn_app_len _ 112 (zeros 111 ++ [0%N])) by reflexivity. now rewrite <- app_assoc.
Qed.

Lemma b512_final_ok : forall s iv hs d m, length iv = 8 -> b512_rel s iv d m ->
  ch (ds (snd (b512_final hs d))) = chain64 (blake_counter 8 m) s (chunks 128 (blake_pad 8 (b512_flag hs) m)) 0 iv.
Proof.
  intros s iv hs [s' d] m Li [E H]. cbn [fst snd] in E, H. subst s'. pose proof H as (Hs & Hb & _). rewrite fold_chain64 in Hs by (apply chunks_all_length; lia).
  apply buf_rest in Hb; [|lia]. pose proof (rest_length_lt _ 128 m ltac:(lia)) as Lr. destruct d as [st x nx len]. cbn [ds dx dnx dlen] in *. subst st. clear H.
  assert (En : nx = length (rest 128 m)) by (destruct Hb as (_ & En & _); rewrite En; now rewrite rest_short).
  pose proof (chain_cases 8 (blake_compress 8 add64 rotr64 32 25 16 11 16 blake64_cst) ltac:(lia) (b512_flag hs) s iv m) as CC. change (16 * 8) with 128 in CC. change (128 - 2 * 8) with 112 in CC. rewrite CC. clear CC.
  pose proof (len_div 8 ltac:(lia) m) as LD. change (16 * 8) with 128 in LD.
  set (h := chain64 (fullcnt 8) s (chunks 128 m) 0 iv). clearbody h.
  unfold one_block, two_blocks. change (16 * 8) with 128. change (128 - 2 * 8) with 112. cbv zeta. cbn [fst snd].
  set (r := rest 128 m) in *. set (q := length (chunks 128 m)) in *. set (n := length m) in *. clearbody r q n.
  assert (E8 : shl64 (N.of_nat nx) 3 = (8 * N.of_nat nx)%N) by (unfold shl64; rewrite N.shiftl_mul_pow2; change (2 ^ 3)%N with 8%N; rewrite w64_small; lia).
  assert (N8 : (8 * N.of_nat n = 1024 * N.of_nat q + 8 * N.of_nat nx)%N) by lia.
  unfold b512_final. unfold st512. cbn [fst snd ds dx dnx dlen ct0 ct1]. rewrite E8.
  (* the length field *)
  assert (EL : be_bytes 8 (snd (tw (1024 * N.of_nat q))) ++ be_bytes 8 (add64 (fst (tw (1024 * N.of_nat q))) (8 * N.of_nat nx)) = be_bytes (2 * 8) (8 * N.of_nat n)).
  { change (2 * 8) with (8 + 8). rewrite be_bytes_app. change (8 * N.of_nat 8)%N with 64%N. rewrite N8. rewrite N.shiftr_div_pow2. change (2 ^ 64)%N with 18446744073709551616%N.
    pose proof (tw_split (N.of_nat q) (8 * N.of_nat nx) ltac:(lia)) as T1. pose proof (tw_split (N.of_nat q) 0 ltac:(reflexivity)) as T0. rewrite N.add_0_r in T0.
    rewrite T0. cbn [fst snd]. rewrite N.add_0_r. Transparent tw. unfold tw in T1. Opaque tw.
    assert (T1a : ((1024 * N.of_nat q + 8 * N.of_nat nx) mod 18446744073709551616)%N = (1024 * (N.of_nat q mod 18014398509481984) + 8 * N.of_nat nx)%N) by congruence.
    assert (T1b : ((1024 * N.of_nat q + 8 * N.of_nat nx) / 18446744073709551616 mod 18446744073709551616)%N = (N.of_nat q / 18014398509481984 mod 18446744073709551616)%N) by congruence.
    rewrite <- T1b. unfold add64. rewrite <- T1a. rewrite <- !w64_mod, !be_bytes8_w64. reflexivity. }
  set (lb := be_bytes (2 * 8) (8 * N.of_nat n)) in *. assert (Llb : length lb = 16) by apply be_bytes_length. clearbody lb.
  set (u := be_bytes 8 (snd (tw (1024 * N.of_nat q)))) in *. set (v := be_bytes 8 (add64 (fst (tw (1024 * N.of_nat q))) (8 * N.of_nat nx))) in *.
  assert (Lu : length u = 8) by apply be_bytes_length. assert (Lv : length v = 8) by apply be_bytes_length. clearbody u v.
  (* the counter set before the last message block *)
  set (ta := if nx =? 0 then (0xFFFFFFFFFFFFFC00, 0xFFFFFFFFFFFFFFFF)%N else adjust (tw (1024 * N.of_nat q)) (8 * N.of_nat nx)).
  assert (ED : (if nx =? 0 then b512_sett 0xFFFFFFFFFFFFFC00 0xFFFFFFFFFFFFFFFF (s, mkdig (mkb512 h (fst (tw (1024 * N.of_nat q))) (snd (tw (1024 * N.of_nat q)))) x nx len)
     else if (fst (tw (1024 * N.of_nat q)) =? 0)%N then b512_sett (add64 0xFFFFFFFFFFFFFC00 (8 * N.of_nat nx)) (sub64 (snd (tw (1024 * N.of_nat q))) 1) (s, mkdig (mkb512 h (fst (tw (1024 * N.of_nat q))) (snd (tw (1024 * N.of_nat q)))) x nx len)
     else b512_sett (sub64 (fst (tw (1024 * N.of_nat q))) (sub64 1024 (8 * N.of_nat nx))) (snd (tw (1024 * N.of_nat q))) (s, mkdig (mkb512 h (fst (tw (1024 * N.of_nat q))) (snd (tw (1024 * N.of_nat q)))) x nx len))
     = (s, mkdig (mkb512 h (fst ta) (snd ta)) x nx len)).
  { unfold ta, adjust. destruct (nx =? 0); [reflexivity|]. destruct (fst (tw (1024 * N.of_nat q)) =? 0)%N; reflexivity. }
  cbv zeta. rewrite ED. clear ED.
  assert (IT : inc (fst ta, snd ta) = tw (if length r =? 0 then 0%N else (8 * N.of_nat n)%N)).
  { replace (fst ta, snd ta) with ta by (now destruct ta). unfold ta. rewrite <- En. destruct (Nat.eqb_spec nx 0) as [Z|Z]; [exact inc_null|]. rewrite N8. apply inc_adjust. lia. }
  clearbody ta. rewrite <- En. rewrite <- En in IT.
  destruct (Nat.ltb_spec nx 112) as [C|C].
  - pose proof (buf_one hs nx u v C Lu Lv) as B1. cbv zeta in B1. rewrite B1. clear B1. rewrite EL.
    set (tail := (if 112 - nx =? 1 then _ else _) ++ lb). assert (LT : length r + length tail = 128).
    { unfold tail. rewrite app_length. destruct (Nat.eqb_spec (112 - nx) 1); [cbn [length]; lia|]. rewrite !app_length, zeros_length. cbn [length]. lia. }
    destruct (w_full512 s (mkb512 h (fst ta) (snd ta)) x nx len r tail Lr LT Hb) as (x1 & len1 & E1 & _). rewrite E1. cbn [snd ds].
    assert (LP : length (r ++ tail) = 128) by (rewrite app_length; exact LT).
    rewrite (b512_compress_ok s (mkb512 h (fst ta) (snd ta)) (r ++ tail) _ LP IT). reflexivity.
  - assert (E0 : (nx =? 0) = false) by (apply Nat.eqb_neq; lia). rewrite E0 in IT.
    rewrite upd_zeros by lia. rewrite (zeroing (seq (nx + 1) (128 - (nx + 1)))) by (intros i Hi; apply in_seq in Hi; apply at_mark; lia). rewrite skipn_zeros_app.
    destruct (w_full512 s (mkb512 h (fst ta) (snd ta)) x nx len r ([128%N] ++ zeros (127 - nx)) Lr ltac:(rewrite app_length, zeros_length; cbn [length]; lia) Hb) as (x1 & len1 & E1 & Hb1). rewrite E1.
    assert (LP : length (r ++ [128%N] ++ zeros (127 - nx)) = 128) by (rewrite !app_length, zeros_length; cbn [length]; lia).
    rewrite (b512_compress_ok s (mkb512 h (fst ta) (snd ta)) (r ++ [128%N] ++ zeros (127 - nx)) _ LP IT). cbn [ch]. unfold b512_sett. cbn [fst snd ds dx dnx dlen ch].
    pose proof (buf_two hs nx u v ltac:(lia) Lu Lv) as B2. cbv zeta in B2. rewrite B2. clear B2. rewrite EL.
    match goal with |- context [b512_w ?p (s, mkdig ?st x1 0 len1)] => destruct (w_full512 s st x1 0 len1 [] p ltac:(cbn [length]; lia) ltac:(rewrite !app_length, zeros_length, Llb; reflexivity) Hb1) as (x2 & len2 & E2 & _) end.
    rewrite E2. cbn [snd ds app]. rewrite (b512_compress_ok _ _ _ 0%N); [|rewrite !app_length, zeros_length; cbn [length]; rewrite Llb; reflexivity|exact inc_null].
    cbn [ch]. replace (128 - 1 - nx) with (127 - nx) by lia. reflexivity.
Qed.

(** ** Output *)
Lemma at_firstn_S : forall (h : list N) k, k < length h -> firstn (S k) h = firstn k h ++ [at_ h k].
Proof.
  induction h as [|a h IH]; intros k H; [cbn in H; lia|]. destruct k as [|k]; [reflexivity|]. cbn [length] in H. rewrite !firstn_cons. rewrite IH by lia. reflexivity.
Qed.
Lemma out_fold : forall h n k, k <= length h -> 8 * k <= n ->
  fold_left (fun o i => copy_at o (8 * i) (be_bytes 8 (at_ h i))) (seq 0 k) (zeros n) = concat (map (be_bytes 8) (firstn k h)) ++ zeros (n - 8 * k).
Proof.
  intros h n k. induction k as [|k IH]; intros Hk Hn; [cbn [seq fold_left firstn map concat app]; f_equal; lia|].
  rewrite seq_S, fold_left_app, IH by lia. cbn [fold_left Nat.add]. rewrite at_firstn_S by lia. rewrite map_app, concat_app. cbn [map concat]. rewrite app_nil_r.
  set (c := concat _). assert (Lc : length c = 8 * k) by (unfold c; rewrite concat_be_length, firstn_length; lia). clearbody c.
  set (w := be_bytes 8 (at_ h k)). assert (Lw : length w = 8) by apply be_bytes_length. clearbody w.
  replace (n - 8 * k) with (8 + (n - 8 * S k)) by lia. rewrite <- zeros_app. unfold copy_at. rewrite !app_length, !zeros_length, Lw, Lc.
  replace (Nat.min 8 (8 * k + (8 + (n - 8 * S k)) - 8 * k)) with 8 by lia. rewrite (firstn_app_len _ (8 * k) c) by exact Lc.
  rewrite (firstn_all2 w) by lia. rewrite <- !app_assoc. f_equal. f_equal.
  rewrite !app_assoc. apply skipn_app_len. rewrite app_length, zeros_length. lia.
Qed.
Definition b512_spec (iv : list N) (hs : nat) (s m : list N) : list N :=
  firstn hs (concat (map (be_bytes 8) (chain64 (blake_counter 8 m) s (chunks 128 (blake_pad 8 (b512_flag hs) m)) 0 iv))).
Lemma b512_checkSum_ok : forall s iv hs d m, length iv = 8 -> (hs = 48 \/ hs = 64) -> b512_rel s iv d m -> b512_checkSum hs d = b512_spec iv hs s m.
Proof.
  intros s iv hs d m Li Hh H. unfold b512_checkSum, b512_spec. cbv zeta. rewrite (b512_final_ok s iv hs d m Li H).
  match goal with |- context [chain64 ?a ?b ?c ?e ?g] => assert (L : length (chain64 a b c e g) = 8) by (now apply chain64_len); set (h := chain64 a b c e g) in * end. clearbody h.
  destruct Hh as [-> | ->].
  - change (48 =? 64) with false. cbv iota. rewrite out_fold by lia. change (48 - 8 * 6) with 0. change (zeros 0) with (@nil N). rewrite app_nil_r. change 48 with (6 * 8). symmetry. apply firstn_concat_be.
  - change (64 =? 64) with true. cbv iota. rewrite <- fold_left_app. change (seq 0 6 ++ seq 6 2) with (seq 0 8). rewrite out_fold by lia. change (64 - 8 * 8) with 0. change (zeros 0) with (@nil N). rewrite app_nil_r.
    change 64 with (8 * 8). symmetry. apply firstn_concat_be.
Qed.
Lemma b512_history_noreset : forall s iv hs, length iv = 8 -> (hs = 48 \/ hs = 64) -> forall ops d m, Forall no_reset ops -> b512_rel s iv d m ->
  run (b512_impl hs iv) d ops = ideal_run (b512_spec iv hs s) m ops.
Proof.
  intros s iv hs Li Hh ops. induction ops as [|o ops IH]; intros d m HN HR; [reflexivity|]. inversion HN as [|? ? Ho HN']; subst.
  destruct o as [p|i|]; cbn [run ideal_run]; [| |now contradict Ho].
  - unfold b512_impl at 1. cbn [i_write]. pose proof (b512_write_rel s iv d m p HR) as K. pose proof (b512_write_count d p) as C. destruct (b512_write d p) as [d' n]. cbn [fst snd] in *. subst n. f_equal. now apply IH.
  - unfold b512_impl at 1. cbn [i_sum]. unfold b512_sum. rewrite (b512_checkSum_ok s iv hs d m Li Hh HR). f_equal. now apply IH.
Qed.
Lemma b512_history : forall iv hs, length iv = 8 -> (hs = 48 \/ hs = 64) -> forall ops d m, b512_rel (zeros 4) iv d m ->
  run (b512_impl hs iv) d ops = ideal_run (b512_spec iv hs (zeros 4)) m ops.
Proof.
  intros iv hs Li Hh. apply run_refines; unfold b512_impl; cbn [i_write i_sum i_reset]; intros.
  - now apply b512_write_rel.
  - apply b512_write_count.
  - exact H.
  - unfold b512_sum. cbn [snd]. f_equal. now apply b512_checkSum_ok.
  - apply b512_new_rel.
Qed.
Lemma b512_spec_512 : forall salt m, blake512_spec salt m = b512_spec b512_iv512 64 (map be_val (chunks 8 salt)) m.
Proof. reflexivity. Qed.
Lemma b512_spec_384 : forall salt m, blake384_spec salt m = b512_spec b512_iv384 48 (map be_val (chunks 8 salt)) m.
Proof. reflexivity. Qed.
Lemma zero_salt64 : map be_val (chunks 8 (zeros 32)) = zeros 4.
Proof. reflexivity. Qed.
Lemma salted_rel512 : forall iv salt d, b512_newWithSalt iv salt = Some d -> b512_rel (map be_val (chunks 8 salt)) iv d [] /\ length salt = 32.
Proof.
  intros iv salt d. unfold b512_newWithSalt. destruct (Nat.eqb_spec (length salt) 32) as [E|E]; [|discriminate]. intros H. apply some_inj in H. subst d. split; [|exact E].
  split; [cbn [fst]; apply b512_words_ok|]. apply dig_rel_new; [lia|reflexivity].
Qed.
Lemma b512_exec_noreset : forall s iv hs, forall ops d m, Forall no_reset ops -> b512_rel s iv d m -> b512_rel s iv (exec (b512_impl hs iv) d ops) (history m ops).
Proof.
  intros s iv hs ops. induction ops as [|o ops IH]; intros d m HN HR; [exact HR|]. inversion HN as [|? ? Ho HN']; subst.
  destruct o as [p|i|]; cbn [exec history]; [| |now contradict Ho]; apply IH; auto. now apply b512_write_rel.
Qed.

(** ** Serialisation *)
Definition b512_wide (s iv : list N) : Prop := length s = 4 /\ Forall is64 s /\ length iv = 8 /\ Forall is64 iv.
Lemma is64_cst : Forall is64 blake64_cst.
Proof. change blake64_cst with b512_cb. repeat constructor. Qed.
Lemma chain_is64 : forall c s bl i h, Forall is64 s -> Forall is64 h -> Forall is64 (chain64 c s bl i h).
Proof.
  intros. apply isw_chain; auto.
  - reflexivity.
  - apply add64_is64.
  - intros. now apply rotl64_is64.
  - apply lxor_is64.
  - apply is64_cst.
  - intros t. apply N.mod_lt. discriminate.
Qed.
Lemma tw_is64 : forall t, is64 (fst (tw t)) /\ is64 (snd (tw t)).
Proof. Transparent tw. intros t. unfold tw. cbn [fst snd]. split; apply N.mod_lt; discriminate. Opaque tw. Qed.
Lemma b512_unmarshal_marshal : forall s iv d m r, b512_wide s iv -> b512_rel s iv d m -> length (dx (snd r)) = 128 ->
  exists d', b512_unmarshal r (b512_marshal d) = inl d' /\ b512_rel s iv d' m.
Proof.
  intros s iv [s' d] m r (Ls & Ws & Li & Wi) [E H] Lr. cbn [fst snd] in E, H. subst s'. destruct H as (Hs & Hb & Hl). rewrite fold_chain64 in Hs by (apply chunks_all_length; lia).
  pose proof (buf_ok_nx_lt _ _ _ _ _ (Nat.lt_0_succ 127) Hb) as Hnx. destruct Hb as (Lx & En & Ex).
  set (h := chain64 (fullcnt 8) s (chunks 128 m) 0 iv) in *. assert (Lh : length h = 8) by (now apply chain64_len). assert (Wh : Forall is64 h) by (now apply chain_is64).
  set (t := (1024 * N.of_nat (length (chunks 128 m)))%N) in *. destruct (tw_is64 t) as [W0 W1].
  assert (Hfold : fold_left (b512_compress s) (chunks 128 m) (st512 iv 0) = st512 h t) by (apply fold_chain64; apply chunks_all_length; lia).
  clearbody h t. destruct d as [st x nx len]. cbn [ds dx dnx dlen] in *. subst st. unfold st512 in Hfold at 2.
  unfold b512_unmarshal, b512_marshal. unfold st512. cbn [fst snd ds dx dnx dlen ch ct0 ct1]. set (t0 := fst (tw t)) in *. set (t1 := snd (tw t)) in *. clearbody t0 t1.
  set (SS := concat (map (be_bytes 8) s)). assert (LS : length SS = 32) by (unfold SS; rewrite concat_be_length, Ls; reflexivity).
  set (X := firstn nx x ++ zeros (128 - nx)). assert (LX : length X = 128) by (unfold X; rewrite app_length, firstn_length, zeros_length; lia).
  set (LB := be_bytes 8 len). assert (LL : length LB = 8) by apply be_bytes_length.
  set (HH := concat (map (be_bytes 8) h)). assert (LH : length HH = 64) by (unfold HH; rewrite concat_be_length, Lh; reflexivity).
  set (T0 := be_bytes 8 t0). assert (LT0 : length T0 = 8) by apply be_bytes_length.
  set (T1 := be_bytes 8 t1). assert (LT1 : length T1 = 8) by apply be_bytes_length.
  rewrite !app_length, LS, LX, LL, LH, LT0, LT1. change (length b512_magic) with 9.
  rewrite (firstn_app_len _ 9 b512_magic) by reflexivity. destruct (list_eq_dec N.eq_dec b512_magic b512_magic) as [_|K]; [|exfalso; apply K; reflexivity].
  match goal with |- context [?a <? 9] => change (a <? 9) with false; change (a =? b512_marshaledSize) with true end. cbn [orb negb].
  rewrite (skipn_app_len _ 9) by reflexivity. rewrite (skipn_app_len _ 32) by exact LS. rewrite Lr, app_length, LX. rewrite Nat.min_l by lia. rewrite (skipn_app_len _ 128) by exact LX.
  rewrite copy_at_0_app by lia. rewrite (firstn_app_len _ 8 LB) by exact LL. rewrite (skipn_app_len _ 8 LB) by exact LL. rewrite (skipn_app_len _ 64 HH) by exact LH.
  rewrite (firstn_app_len _ 8 T0) by exact LT0. rewrite (skipn_app_len _ 8 T0) by exact LT0. rewrite (firstn_all2 T1) by lia.
  assert (EL : be_val LB = len) by (unfold LB; rewrite be_val_be_bytes; apply N.mod_small; rewrite Hl; apply w64_lt).
  assert (ET0 : be_val T0 = t0) by (unfold T0; rewrite be_val_be_bytes; apply N.mod_small; exact W0).
  assert (ET1 : be_val T1 = t1) by (unfold T1; rewrite be_val_be_bytes; apply N.mod_small; exact W1).
  assert (ES : map (fun i => be_val (slice (SS ++ X ++ LB ++ HH ++ T0 ++ T1) (8 * i) (8 * i + 8))) (seq 0 4) = s) by (pose proof (be_words_decode 8 s (X ++ LB ++ HH ++ T0 ++ T1) (Nat.lt_0_succ 7) Ws) as K; rewrite Ls in K; exact K).
  assert (EH : map (fun i => be_val (slice (HH ++ T0 ++ T1) (8 * i) (8 * i + 8))) (seq 0 8) = h) by (pose proof (be_words_decode 8 h (T0 ++ T1) (Nat.lt_0_succ 7) Wh) as K; rewrite Lh in K; exact K).
  cbv zeta. rewrite ES, EH, EL, ET0, ET1. eexists. split; [reflexivity|]. split; [reflexivity|]. cbn [snd]. split; [|split]; cbn [ds dx dnx dlen].
  - rewrite Hfold. reflexivity.
  - assert (En' : N.to_nat (len mod 128) = nx).
    { rewrite Hl, N.mul_1_l, w64_mod_small by (lia || reflexivity). change 128%N with (N.of_nat 128). rewrite <- Nat2N.inj_mod, Nat2N.id. rewrite En. symmetry. apply rest_length. lia. }
    rewrite En'. split; [exact LX|]. split; [exact En|]. rewrite <- Ex. unfold X. apply firstn_app_len. rewrite firstn_length. lia.
  - exact Hl.
Qed.
Lemma b512_accepts : forall r b, (exists d', b512_unmarshal r b = inl d') <-> (firstn 9 b = b512_magic /\ length b = 257).
Proof.
  intros r b. unfold b512_unmarshal. split.
  - intros (d' & E). destruct (length b <? 9) eqn:E1; cbn [orb] in E; [discriminate E|].
    destruct (list_eq_dec N.eq_dec (firstn 9 b) b512_magic); cbn [orb negb] in E; [|discriminate E].
    destruct (length b =? b512_marshaledSize) eqn:E2; cbn [orb negb] in E; [|discriminate E]. apply Nat.eqb_eq in E2. auto.
  - intros (E & L). rewrite L, E. destruct (list_eq_dec N.eq_dec b512_magic b512_magic) as [_|C]; [|exfalso; apply C; reflexivity].
    cbn [Nat.ltb Nat.leb orb negb]. change (257 =? b512_marshaledSize) with true. cbn [negb]. eexists. reflexivity.
Qed.
Transparent blake_compress b512_compress tw.
