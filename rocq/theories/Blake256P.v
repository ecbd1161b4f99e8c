(** Blake256P.v -- proofs about the model of package blake256. *)
From Coq Require Import List NArith Arith Lia Bool.
From Verif Require Import Base Words HashAPI Buf MD Refine SpecBlake BlakeP Sm3 Blake256.
Import ListNotations.

Local Notation compress32 := (blake_compress 4 add32 rotr32 16 12 8 7 14 blake32_cst).
Local Notation round32 := (blake_round add32 rotr32 16 12 8 7 blake32_cst).

Lemma add32_acc : forall a x b, add32 a (add32 x b) = add32 (add32 a b) x.
Proof. intros. unfold add32. rewrite w32_add_r, w32_add_l. f_equal. lia. Qed.

(** One G is the specification's quarter step. *)
Definition G' (cst : list N) (m : list N) (sg : list nat) (v : list N) (a b c d e : nat) : list N :=
  let s0 := nth e sg 0 in let s1 := nth (e + 1) sg 0 in
  let v := upd v a (add32 (add32 (at_ v a) (at_ v b)) (N.lxor (at_ m s0) (at_ cst s1))) in
  let v := upd v d (rotr32 (N.lxor (at_ v d) (at_ v a)) 16) in
  let v := upd v c (add32 (at_ v c) (at_ v d)) in
  let v := upd v b (rotr32 (N.lxor (at_ v b) (at_ v c)) 12) in
  let v := upd v a (add32 (add32 (at_ v a) (at_ v b)) (N.lxor (at_ m s1) (at_ cst s0))) in
  let v := upd v d (rotr32 (N.lxor (at_ v d) (at_ v a)) 8) in
  let v := upd v c (add32 (at_ v c) (at_ v d)) in
  upd v b (rotr32 (N.lxor (at_ v b) (at_ v c)) 7).
Lemma G_G' : forall m sg v a b c d e, b256_G m sg v a b c d e = G' blake32_cst m sg v a b c d e.
Proof. intros. unfold b256_G, G'. cbv zeta. rewrite !add32_acc. reflexivity. Qed.
Local Notation quarter32 := (blake_quarter add32 rotr32 16 12 8 7).
Lemma G'_quarter : forall cst m sg v, length v = 16 -> forall i a b c d, In (i, (a, b, c, d)) blake_quads ->
  G' cst m sg v a b c d (2 * i) = quarter32 cst m sg v (i, (a, b, c, d)).
Proof.
  intros cst m sg v L i a b c d H. do 16 (destruct v as [|? v]; [discriminate L|]). destruct v; [|discriminate L]. clear L.
  unfold blake_quads in H. repeat destruct H as [H|H]; try (injection H as <- <- <- <- <-; lazy -[add32 rotr32 N.lxor at_ nth]; reflexivity). destruct H.
Qed.
Lemma quarter_len : forall cst m sg v q, length (quarter32 cst m sg v q) = length v.
Proof.
  intros cst m sg v [i [[[a b] c] d]]. unfold blake_quarter. cbv zeta. destruct (blake_G _ _ _ _ _ _ _ _ _ _ _) as [[[a' b'] c'] d']. now rewrite !upd_length.
Qed.
Lemma b256_sigma_ok : forall i, i < 14 -> nth i b256_sigma [] = nth (i mod 10) blake_sigma [].
Proof. intros i Hi. do 14 (destruct i as [|i]; [reflexivity|]). lia. Qed.
Lemma round_len : forall m v i, length (round32 m v i) = length v.
Proof.
  intros m v i. unfold blake_round. generalize blake_quads. intros l. revert v. induction l as [|q l IH]; intros v; [reflexivity|]. cbn [fold_left]. rewrite IH. apply quarter_len.
Qed.
Lemma b256_round_ok : forall m v i, i < 14 -> length v = 16 -> b256_round m v i = round32 m v i.
Proof.
  intros m v i Hi L. unfold b256_round, blake_round. cbv zeta. rewrite b256_sigma_ok by exact Hi. set (sg := nth (i mod 10) blake_sigma []). clearbody sg.
  rewrite !G_G'. set (cst := blake32_cst). clearbody cst. unfold blake_quads. cbn [fold_left].
  assert (E : forall v i a b c d, length v = 16 -> In (i, (a, b, c, d)) blake_quads -> G' cst m sg v a b c d (2 * i) = quarter32 cst m sg v (i, (a, b, c, d))) by (intros; now apply G'_quarter).
  assert (LQ : forall v q, length (quarter32 cst m sg v q) = length v) by (intros; apply quarter_len).
  set (G := G' cst m sg) in *. set (Q := quarter32 cst m sg) in *. clearbody G Q.
  pose proof (E v 0 0 4 8 12 L ltac:(cbn; tauto)) as E0. cbn [Nat.mul Nat.add] in E0. rewrite E0. clear E0. set (v0 := Q v _). assert (L0 : length v0 = 16) by (unfold v0; now rewrite LQ). clearbody v0.
  pose proof (E v0 1 1 5 9 13 L0 ltac:(cbn; tauto)) as E0. cbn [Nat.mul Nat.add] in E0. rewrite E0. clear E0. set (v1 := Q v0 _). assert (L1 : length v1 = 16) by (unfold v1; now rewrite LQ). clearbody v1.
  pose proof (E v1 2 2 6 10 14 L1 ltac:(cbn; tauto)) as E0. cbn [Nat.mul Nat.add] in E0. rewrite E0. clear E0. set (v2 := Q v1 _). assert (L2 : length v2 = 16) by (unfold v2; now rewrite LQ). clearbody v2.
  pose proof (E v2 3 3 7 11 15 L2 ltac:(cbn; tauto)) as E0. cbn [Nat.mul Nat.add] in E0. rewrite E0. clear E0. set (v3 := Q v2 _). assert (L3 : length v3 = 16) by (unfold v3; now rewrite LQ). clearbody v3.
  pose proof (E v3 4 0 5 10 15 L3 ltac:(cbn; tauto)) as E0. cbn [Nat.mul Nat.add] in E0. rewrite E0. clear E0. set (v4 := Q v3 _). assert (L4 : length v4 = 16) by (unfold v4; now rewrite LQ). clearbody v4.
  pose proof (E v4 5 1 6 11 12 L4 ltac:(cbn; tauto)) as E0. cbn [Nat.mul Nat.add] in E0. rewrite E0. clear E0. set (v5 := Q v4 _). assert (L5 : length v5 = 16) by (unfold v5; now rewrite LQ). clearbody v5.
  pose proof (E v5 6 2 7 8 13 L5 ltac:(cbn; tauto)) as E0. cbn [Nat.mul Nat.add] in E0. rewrite E0. clear E0. set (v6 := Q v5 _). assert (L6 : length v6 = 16) by (unfold v6; now rewrite LQ). clearbody v6.
  exact (E v6 7 3 4 9 14 L6 ltac:(cbn; tauto)).
Qed.
Lemma rounds_gen : forall A B (F G : A -> B -> A) (P : A -> Prop) (Q : B -> Prop), (forall v i, Q i -> P v -> F v i = G v i) -> (forall v i, P v -> P (G v i)) ->
  forall l v, (forall i, In i l -> Q i) -> P v -> fold_left F l v = fold_left G l v.
Proof.
  intros A B F G P Q H1 H2 l. induction l as [|i l IH]; intros v Hl L; [reflexivity|]. cbn [fold_left]. rewrite H1 by (auto; apply Hl; now left). apply IH; [intros; apply Hl; now right|]. now apply H2.
Qed.
Lemma round_len16 : forall m v i, length v = 16 -> length (round32 m v i) = 16.
Proof. intros m v i L. rewrite round_len. exact L. Qed.
Definition rounds_ok (m : list N) := rounds_gen _ _ (b256_round m) (round32 m) (fun v => length v = 16) (fun i => i < 14) (b256_round_ok m) (round_len16 m).
Lemma b256_words_ok : forall p, b256_words p = map be_val (chunks 4 p).
Proof.
  intros p. unfold b256_words, chunks. rewrite map_map. apply map_ext. intros i. unfold slice. f_equal. f_equal. lia.
Qed.
Lemma fin_gen : forall (h : list N) (s v : nat -> N), length h = 8 ->
  fold_left (fun h i => upd h i (N.lxor (at_ h i) (s (i mod 4)))) (seq 0 8)
    (fold_left (fun h i => upd h (i mod 8) (N.lxor (at_ h (i mod 8)) (v i))) (seq 0 16) h)
  = map (fun i => N.lxor (N.lxor (N.lxor (at_ h i) (v i)) (v (i + 8))) (s (i mod 4))) (seq 0 8).
Proof.
  intros h s v L. do 8 (destruct h as [|? h]; [discriminate L|]). destruct h; [|discriminate L]. lazy -[N.lxor]. reflexivity.
Qed.
Lemma fin_ok : forall (h s v : list N), length h = 8 ->
  fold_left (fun h i => upd h i (N.lxor (at_ h i) (at_ s (i mod 4)))) (seq 0 8)
    (fold_left (fun h i => upd h (i mod 8) (N.lxor (at_ h (i mod 8)) (at_ v i))) (seq 0 16) h)
  = map (fun i => N.lxor (N.lxor (N.lxor (at_ h i) (at_ s (i mod 4))) (at_ v i)) (at_ v (i + 8))) (seq 0 8).
Proof.
  intros h s v L. rewrite (fin_gen h (at_ s) (at_ v) L). apply map_ext. intros i.
  assert (X : forall a b c d : N, N.lxor (N.lxor (N.lxor a b) c) d = N.lxor (N.lxor (N.lxor a d) b) c) by (intros; bitwise). apply X.
Qed.
Lemma t_words : forall t, w32 t = (t mod 2 ^ (8 * N.of_nat 4))%N /\ w32 (N.shiftr t 32) = (t / 2 ^ (8 * N.of_nat 4) mod 2 ^ (8 * N.of_nat 4))%N.
Proof. intros t. change (2 ^ (8 * N.of_nat 4))%N with 4294967296%N. rewrite !w32_mod, N.shiftr_div_pow2. auto. Qed.
(** The code's compress is the specification's, with counter 0 when nullt is set. *)
Lemma b256_compress_ok : forall s st p, length (bh st) = 8 ->
  b256_compress s st p = mkb256 (compress32 s (bh st) (if bnull st then 0 else add64 (bt st) 512)%N p) (add64 (bt st) 512) (bnull st).
Proof.
  intros s [h t nl] p L. cbn [bh bt bnull] in *. unfold b256_compress. cbv zeta. cbn [bh bt bnull]. f_equal.
  rewrite fin_ok by exact L. unfold blake_compress. cbv zeta. rewrite b256_words_ok. rewrite rounds_ok by (try reflexivity; intros i Hi; apply in_seq in Hi; lia).
  change blake32_cst with b256_u.
  destruct (t_words (add64 t 512)) as [T0 T1]. destruct nl.
  - change (0 mod 2 ^ (8 * N.of_nat 4))%N with 0%N. change (0 / 2 ^ (8 * N.of_nat 4) mod 2 ^ (8 * N.of_nat 4))%N with 0%N. rewrite !N.lxor_0_l. reflexivity.
  - rewrite <- T0, <- T1. rewrite !(N.lxor_comm (w32 _)). reflexivity.
Qed.
(** ** Counter arithmetic *)
Lemma sub64_alt : forall a b, (b <= 18446744073709551616)%N -> sub64 a b = w64 (a + (18446744073709551616 - b)).
Proof. intros a b H. unfold sub64. f_equal. lia. Qed.
Lemma w64_shift : forall a k, w64 (a + k * 18446744073709551616) = w64 a.
Proof. intros. rewrite !w64_mod, N.mod_add by lia. reflexivity. Qed.
Lemma sub_sub : forall a b c, (b + c <= 18446744073709551616)%N -> sub64 (sub64 a b) c = sub64 a (b + c).
Proof.
  intros a b c H. rewrite !sub64_alt by lia. rewrite w64_add_l. rewrite <- (w64_shift (a + (18446744073709551616 - (b + c))) 1). f_equal. lia.
Qed.
Lemma sub_add : forall a b c, (b <= c)%N -> (c < 18446744073709551616)%N -> add64 (sub64 a b) c = w64 (a + (c - b)).
Proof.
  intros a b c H1 H2. rewrite sub64_alt by lia. unfold add64. rewrite w64_add_l. rewrite <- (w64_shift (a + (c - b)) 1). f_equal. lia.
Qed.
Lemma compress32_w64 : forall s h t p, compress32 s h (w64 t) p = compress32 s h t p.
Proof.
  intros s h t p. unfold blake_compress. cbv zeta. change (2 ^ (8 * N.of_nat 4))%N with 4294967296%N. rewrite w64_mod.
  assert (A : ((t mod 18446744073709551616) mod 4294967296 = t mod 4294967296)%N) by (change 18446744073709551616%N with (4294967296 * 4294967296)%N; apply mod_mod_mul; discriminate).
  assert (B : ((t mod 18446744073709551616) / 4294967296 mod 4294967296 = t / 4294967296 mod 4294967296)%N).
  { change 18446744073709551616%N with (4294967296 * 4294967296)%N. rewrite N.mod_mul_r by discriminate. rewrite (N.mul_comm 4294967296 (_ mod _)), N.div_add by discriminate.
    rewrite (N.div_small (t mod 4294967296)) by (apply N.mod_lt; discriminate). rewrite N.add_0_l. apply N.mod_mod. discriminate. }
  rewrite A, B. reflexivity.
Qed.
Lemma compress32_len : forall s h t p, length (compress32 s h t p) = 8.
Proof. intros. unfold blake_compress. cbv zeta. now rewrite map_length, seq_length. Qed.

Local Notation chain32 := (chain (blake_compress 4 add32 rotr32 16 12 8 7 14 blake32_cst)).
Opaque blake_compress b256_compress.
Lemma chain_len : forall c s bl i h, length h = 8 -> length (chain32 c s bl i h) = 8.
Proof.
  intros c s bl. induction bl as [|b bl IH]; intros i h L; [exact L|]. unfold chain. cbn [length seq combine fold_left]. apply IH, compress32_len.
Qed.
Lemma fold_chain : forall s iv bl, length iv = 8 ->
  fold_left (b256_compress s) bl (mkb256 iv 0 false) = mkb256 (chain32 (fullcnt 4) s bl 0 iv) (w64 (512 * N.of_nat (length bl))) false.
Proof.
  intros s iv bl L. induction bl as [|b bl IH] using rev_ind; [reflexivity|]. rewrite fold_left_app, IH, chain_snoc. cbn [fold_left].
  rewrite b256_compress_ok by (cbn [bh]; now apply chain_len). cbn [bh bt bnull]. rewrite app_length. cbn [length].
  assert (E : add64 (w64 (512 * N.of_nat (length bl))) 512 = w64 (512 * N.of_nat (length bl + 1))) by (unfold add64; rewrite w64_add_l; f_equal; lia).
  rewrite E. f_equal. rewrite compress32_w64. f_equal. unfold fullcnt. lia.
Qed.

Definition b256_rel (s iv : list N) (d : b256) (m : list N) : Prop :=
  fst d = s /\ dig_rel 64 (b256_compress s) (mkb256 iv 0 false) 1 (snd d) m.

Lemma b256_new_rel : forall iv, b256_rel (zeros 4) iv (b256_new iv) [].
Proof. intros. split; [reflexivity|]. apply dig_rel_new; [lia|reflexivity]. Qed.
Lemma b256_write_rel : forall s iv d m p, b256_rel s iv d m -> b256_rel s iv (fst (b256_write d p)) (m ++ p).
Proof.
  intros s iv d m p [E H]. unfold b256_write. rewrite E. pose proof (write_pre_rel 64 (b256_compress s) ltac:(lia) _ _ _ p H) as K.
  destruct (write_pre 64 (b256_compress s) (snd d) p) as [d' n]. cbn [fst snd] in *. split; [reflexivity|exact K].
Qed.
Lemma b256_write_count : forall d p, snd (b256_write d p) = length p.
Proof. intros d p. unfold b256_write. pose proof (write_pre_count 64 (b256_compress (fst d)) (snd d) p) as K. destruct (write_pre _ _ _ _). exact K. Qed.

(** one internal Write *)
Lemma w_part : forall s st x nx len r p, length r + length p < 64 -> buf_ok 64 64 x nx r ->
  exists x' nx' len', b256_w p (s, mkdig st x nx len) = (s, mkdig st x' nx' len') /\ buf_ok 64 64 x' nx' (r ++ p).
Proof.
  intros s st x nx len r p L H. destruct (push_part 64 (b256_compress s) ltac:(lia) st x nx len r p L H) as (x' & nx' & E & H').
  unfold b256_w, b256_write. cbn [fst snd]. destruct (write_pre _ _ _ _) as [d' n]. cbn [fst] in *. subst d'. eauto.
Qed.
Lemma w_full : forall s st x nx len r p, length r < 64 -> length r + length p = 64 -> buf_ok 64 64 x nx r ->
  exists x' len', b256_w p (s, mkdig st x nx len) = (s, mkdig (b256_compress s st (r ++ p)) x' 0 len') /\ buf_ok 64 64 x' 0 [].
Proof.
  intros s st x nx len r p L0 L H. destruct (push_full 64 (b256_compress s) ltac:(lia) st x nx len r p L0 L H) as (x' & E & H').
  unfold b256_w, b256_write. cbn [fst snd]. destruct (write_pre _ _ _ _) as [d' n]. cbn [fst] in *. subst d'. eauto.
Qed.
Lemma padtab0 : forall n, n < 64 -> slice b256_padtab 0 (S n) = [128%N] ++ zeros n.
Proof.
  intros n H. unfold slice, b256_padtab. rewrite Nat.sub_0_r. change (skipn 0 ?l) with l. rewrite firstn_cons, firstn_zeros. replace (Nat.min n 63) with n by lia. reflexivity.
Qed.
Lemma padtab1 : slice b256_padtab 1 56 = zeros 55. Proof. reflexivity. Qed.

Definition b256_flag (hs : nat) : N := if hs =? 224 then 0%N else 1%N.

Lemma b256_final_ok : forall s iv hs d m, length iv = 8 -> b256_rel s iv d m ->
  bh (ds (snd (b256_final hs d))) = chain32 (blake_counter 4 m) s (chunks 64 (blake_pad 4 (b256_flag hs) m)) 0 iv.
Proof.
  intros s iv hs [s' d] m Li [E H]. cbn [fst snd] in E, H. subst s'. pose proof H as (Hs & Hb & _). rewrite fold_chain in Hs by exact Li.
  apply buf_rest in Hb; [|lia]. pose proof (rest_length_lt _ 64 m ltac:(lia)) as Lr. destruct d as [st x nx len]. cbn [ds dx dnx dlen] in *. subst st. clear H.
  assert (En : nx = length (rest 64 m)) by (destruct Hb as (_ & En & _); rewrite En; now rewrite rest_short).
  pose proof (chain_cases 4 (blake_compress 4 add32 rotr32 16 12 8 7 14 blake32_cst) ltac:(lia) (b256_flag hs) s iv m) as CC. change (16 * 4) with 64 in CC. change (64 - 2 * 4) with 56 in CC. rewrite CC. clear CC.
  pose proof (len_div 4 ltac:(lia) m) as LD. change (16 * 4) with 64 in LD.
  set (h := chain32 (fullcnt 4) s (chunks 64 m) 0 iv). assert (Lh : length h = 8) by (now apply chain_len). clearbody h.
  unfold one_block, two_blocks. change (16 * 4) with 64. change (64 - 2 * 4) with 56. cbv zeta. cbn [fst snd].
  set (r := rest 64 m) in *. set (q := length (chunks 64 m)) in *. set (n := length m) in *. clearbody r q n.
  set (t := w64 (512 * N.of_nat q)) in *.
  assert (ET : forall c, w64 (t + c) = w64 (512 * N.of_nat q + c)) by (intros; unfold t; apply w64_add_l).
  assert (E8 : shl64 (N.of_nat nx) 3 = (8 * N.of_nat nx)%N) by (unfold shl64; rewrite N.shiftl_mul_pow2; change (2 ^ 3)%N with 8%N; rewrite w64_small; lia).
  unfold b256_final. cbn [fst snd ds dx dnx dlen bt]. cbv zeta. rewrite E8.
  assert (EL : be_bytes 8 (add64 t (8 * N.of_nat nx)) = be_bytes (2 * 4) (8 * N.of_nat n)).
  { change (2 * 4) with 8. unfold add64. rewrite ET, be_bytes8_w64. f_equal. lia. }
  rewrite EL. set (lb := be_bytes (2 * 4) (8 * N.of_nat n)). assert (Llb : length lb = 8) by apply be_bytes_length. clearbody lb. clear EL.
  assert (K : forall y z, (y <= 512)%N -> (z + y = 512)%N -> add64 (sub64 t y) 512 = w64 (512 * N.of_nat q + z)).
  { intros y z Hy Hz. rewrite sub_add by lia. rewrite ET. f_equal. lia. }
  clearbody t. clear ET.
  destruct (Nat.eqb_spec nx 55) as [N55|N55].
  - (* one padding byte *)
    replace (length r <? 56) with true by (symmetry; apply Nat.ltb_lt; lia). replace (length r =? 0) with false by (symmetry; apply Nat.eqb_neq; lia).
    replace (56 - length r =? 1) with true by (symmetry; apply Nat.eqb_eq; lia).
    unfold b256_subt at 2. cbn [fst snd ds dx dnx dlen bh bt bnull].
    destruct (w_part s (mkb256 h (sub64 t 8) false) x nx len r [if hs =? 224 then 128%N else 129%N] ltac:(cbn [length]; lia) Hb) as (x1 & nx1 & len1 & E1 & Hb1). rewrite E1.
    unfold b256_subt. cbn [fst snd ds dx dnx dlen bh bt bnull].
    match goal with _ : buf_ok 64 64 x1 nx1 ?R |- context [b256_w lb (s, mkdig ?st _ _ _)] => destruct (w_full s st x1 nx1 len1 R lb ltac:(rewrite app_length; cbn [length]; lia) ltac:(rewrite app_length; cbn [length]; lia) Hb1) as (x2 & len2 & E2 & Hb2) end.
    rewrite E2. cbn [snd ds]. rewrite b256_compress_ok by exact Lh. cbn [bh bt bnull]. rewrite sub_sub by lia. rewrite (K (8 + 64)%N 440%N) by lia. rewrite compress32_w64. f_equal; [lia|].
    rewrite <- app_assoc. f_equal. f_equal. unfold b256_flag. destruct (hs =? 224); reflexivity.
  - assert (FL : [if hs =? 224 then 0%N else 1%N] = [b256_flag hs]) by reflexivity. rewrite FL. clear FL. generalize (b256_flag hs). intros flag.
    destruct (Nat.ltb_spec nx 55) as [L55|L55].
    + replace (length r <? 56) with true by (symmetry; apply Nat.ltb_lt; lia). replace (56 - length r =? 1) with false by (symmetry; apply Nat.eqb_neq; lia).
      set (nl := nx =? 0).
      assert (E0 : (if nl then b256_setnull (s, mkdig (mkb256 h t false) x nx len) else (s, mkdig (mkb256 h t false) x nx len)) = (s, mkdig (mkb256 h t nl) x nx len)) by (now destruct nl). rewrite E0. clear E0.
      assert (ES : sub64 440 (8 * N.of_nat nx) = (440 - 8 * N.of_nat nx)%N).
      { unfold sub64. replace (440 + 18446744073709551616 - 8 * N.of_nat nx)%N with ((440 - 8 * N.of_nat nx) + 1 * 18446744073709551616)%N by lia. rewrite w64_shift. apply w64_small. lia. }
      rewrite ES. clear ES. replace (55 - nx) with (S (54 - nx)) by lia. rewrite padtab0 by lia.
      unfold b256_subt at 3. cbn [fst snd ds dx dnx dlen bh bt bnull].
      match goal with |- context [b256_w ([128%N] ++ ?z) (s, mkdig ?st _ _ _)] => destruct (w_part s st x nx len r ([128%N] ++ z) ltac:(rewrite app_length, zeros_length; cbn [length]; lia) Hb) as (x1 & nx1 & len1 & E1 & Hb1) end. rewrite E1. clear E1.
      match goal with _ : buf_ok 64 64 x1 nx1 ?R |- context [b256_w [flag] (s, mkdig ?st _ _ _)] => destruct (w_part s st x1 nx1 len1 R [flag] ltac:(rewrite !app_length, zeros_length; cbn [length]; lia) Hb1) as (x2 & nx2 & len2 & E2 & Hb2) end. rewrite E2. clear E2.
      unfold b256_subt. cbn [fst snd ds dx dnx dlen bh bt bnull].
      match goal with _ : buf_ok 64 64 x2 nx2 ?R |- context [b256_w lb (s, mkdig ?st _ _ _)] => destruct (w_full s st x2 nx2 len2 R lb ltac:(rewrite !app_length, zeros_length; cbn [length]; lia) ltac:(rewrite !app_length, zeros_length; cbn [length]; lia) Hb2) as (x3 & len3 & E3 & Hb3) end. rewrite E3. clear E3.
      cbn [snd ds]. rewrite b256_compress_ok by exact Lh. cbn [bh bt bnull]. rewrite !sub_sub by lia. rewrite (K _ (8 * N.of_nat nx)%N) by lia.
      assert (EB : ((r ++ [128%N] ++ zeros (54 - nx)) ++ [flag]) ++ lb = r ++ ([128%N] ++ zeros (56 - length r - 2) ++ [flag]) ++ lb) by (replace (56 - length r - 2) with (54 - nx) by lia; rewrite <- !app_assoc; reflexivity).
      rewrite EB. subst nl. rewrite <- En. destruct (nx =? 0); [reflexivity|]. rewrite compress32_w64. f_equal. lia.
    + replace (length r <? 56) with false by (symmetry; apply Nat.ltb_ge; lia).
      assert (ES : sub64 512 (8 * N.of_nat nx) = (512 - 8 * N.of_nat nx)%N).
      { unfold sub64. replace (512 + 18446744073709551616 - 8 * N.of_nat nx)%N with ((512 - 8 * N.of_nat nx) + 1 * 18446744073709551616)%N by lia. rewrite w64_shift. apply w64_small. lia. }
      rewrite ES. clear ES. replace (64 - nx) with (S (63 - nx)) by lia. rewrite padtab0, padtab1 by lia.
      unfold b256_subt at 4. cbn [fst snd ds dx dnx dlen bh bt bnull].
      match goal with |- context [b256_w ([128%N] ++ ?z) (s, mkdig ?st _ _ _)] => destruct (w_full s st x nx len r ([128%N] ++ z) ltac:(lia) ltac:(rewrite app_length, zeros_length; cbn [length]; lia) Hb) as (x1 & len1 & E1 & Hb1) end. rewrite E1. clear E1.
      rewrite b256_compress_ok by exact Lh. cbn [bh bt bnull]. rewrite (K _ (8 * N.of_nat nx)%N) by lia. rewrite compress32_w64.
      unfold b256_subt at 3. cbn [fst snd ds dx dnx dlen bh bt bnull].
      set (h1 := compress32 s h _ _). assert (Lh1 : length h1 = 8) by apply compress32_len.
      match goal with |- context [b256_w (zeros 55) (s, mkdig ?st _ _ _)] => destruct (w_part s st x1 0 len1 [] (zeros 55) ltac:(rewrite zeros_length; cbn [length]; lia) Hb1) as (x2 & nx2 & len2 & E2 & Hb2) end. rewrite E2. clear E2.
      unfold b256_setnull. cbn [fst snd ds dx dnx dlen bh bt bnull app] in *.
      match goal with _ : buf_ok 64 64 x2 nx2 ?R |- context [b256_w [flag] (s, mkdig ?st _ _ _)] => destruct (w_part s st x2 nx2 len2 R [flag] ltac:(rewrite zeros_length; cbn [length]; lia) Hb2) as (x3 & nx3 & len3 & E3 & Hb3) end. rewrite E3. clear E3.
      unfold b256_subt. cbn [fst snd ds dx dnx dlen bh bt bnull].
      match goal with _ : buf_ok 64 64 x3 nx3 ?R |- context [b256_w lb (s, mkdig ?st _ _ _)] => destruct (w_full s st x3 nx3 len3 R lb ltac:(rewrite app_length, zeros_length; cbn [length]; lia) ltac:(rewrite app_length, zeros_length; cbn [length]; lia) Hb3) as (x4 & len4 & E4 & Hb4) end. rewrite E4. clear E4.
      cbn [snd ds]. rewrite b256_compress_ok by exact Lh1. cbn [bh bt bnull]. unfold h1. rewrite <- app_assoc. replace (512 * N.of_nat q + 8 * N.of_nat nx)%N with (8 * N.of_nat n)%N by lia. replace (64 - 1 - length r) with (63 - nx) by lia. reflexivity.
Qed.

(** ** Histories *)
Definition b256_spec (iv : list N) (hs : nat) (s m : list N) : list N :=
  firstn (hs / 8) (concat (map (be_bytes 4) (chain32 (blake_counter 4 m) s (chunks 64 (blake_pad 4 (b256_flag hs) m)) 0 iv))).
Lemma b256_checkSum_ok : forall s iv hs d m, length iv = 8 -> (hs = 224 \/ hs = 256) -> b256_rel s iv d m -> b256_checkSum hs d = b256_spec iv hs s m.
Proof.
  intros s iv hs d m Li Hh H. unfold b256_checkSum, b256_spec. cbv zeta. rewrite (b256_final_ok s iv hs d m Li H).
  match goal with |- context [chain32 ?a ?b ?c ?e ?g] => assert (L : length (chain32 a b c e g) = 8) by (now apply chain_len); set (h := chain32 a b c e g) in * end. clearbody h.
  assert (E : hs / 8 = hs / 32 * 4) by (destruct Hh as [-> | ->]; reflexivity). assert (B : hs / 32 <= 8) by (destruct Hh as [-> | ->]; cbn; lia).
  rewrite E, firstn_concat_be. set (k := hs / 32) in *. clearbody k. set (c := concat _). assert (Lc : length c = k * 4) by (unfold c; rewrite concat_be_length, firstn_length; lia). clearbody c.
  rewrite copy_at_full by (rewrite ?zeros_length; lia). rewrite zeros_length, Nat.sub_0_r. change (firstn 0 (zeros (k * 4))) with (@nil N). rewrite <- Lc. apply firstn_all.
Qed.
Lemma b256_history_noreset : forall s iv hs, length iv = 8 -> (hs = 224 \/ hs = 256) -> forall ops d m, Forall no_reset ops -> b256_rel s iv d m ->
  run (b256_impl hs iv) d ops = ideal_run (b256_spec iv hs s) m ops.
Proof.
  intros s iv hs Li Hh ops. induction ops as [|o ops IH]; intros d m HN HR; [reflexivity|]. inversion HN as [|? ? Ho HN']; subst.
  destruct o as [p|i|]; cbn [run ideal_run]; [| |now contradict Ho].
  - unfold b256_impl at 1. cbn [i_write]. pose proof (b256_write_rel s iv d m p HR) as K. pose proof (b256_write_count d p) as C. destruct (b256_write d p) as [d' n]. cbn [fst snd] in *. subst n. f_equal. now apply IH.
  - unfold b256_impl at 1. cbn [i_sum]. unfold b256_sum. rewrite (b256_checkSum_ok s iv hs d m Li Hh HR). f_equal. now apply IH.
Qed.
Lemma b256_history : forall iv hs, length iv = 8 -> (hs = 224 \/ hs = 256) -> forall ops d m, b256_rel (zeros 4) iv d m ->
  run (b256_impl hs iv) d ops = ideal_run (b256_spec iv hs (zeros 4)) m ops.
Proof.
  intros iv hs Li Hh. apply run_refines; unfold b256_impl; cbn [i_write i_sum i_reset]; intros.
  - now apply b256_write_rel.
  - apply b256_write_count.
  - exact H.
  - unfold b256_sum. cbn [snd]. f_equal. now apply b256_checkSum_ok.
  - apply b256_new_rel.
Qed.
Lemma b256_spec_256 : forall salt m, blake256_spec salt m = b256_spec b256_iv256 256 (map be_val (chunks 4 salt)) m.
Proof. reflexivity. Qed.
Lemma b256_spec_224 : forall salt m, blake224_spec salt m = b256_spec b256_iv224 224 (map be_val (chunks 4 salt)) m.
Proof. reflexivity. Qed.
Lemma zero_salt : map be_val (chunks 4 (zeros 16)) = zeros 4.
Proof. reflexivity. Qed.
Lemma salted_rel : forall iv salt d, b256_newWithSalt iv salt = Some d -> b256_rel (map be_val (chunks 4 salt)) iv d [] /\ length salt = 16.
Proof.
  intros iv salt d. unfold b256_newWithSalt. destruct (Nat.eqb_spec (length salt) 16) as [E|E]; [|discriminate]. intros H. apply some_inj in H. subst d. split; [|exact E].
  split; [cbn [fst]; apply b256_words_ok|]. apply dig_rel_new; [lia|reflexivity].
Qed.
Lemma b256_exec_noreset : forall s iv hs, forall ops d m, Forall no_reset ops -> b256_rel s iv d m -> b256_rel s iv (exec (b256_impl hs iv) d ops) (history m ops).
Proof.
  intros s iv hs ops. induction ops as [|o ops IH]; intros d m HN HR; [exact HR|]. inversion HN as [|? ? Ho HN']; subst.
  destruct o as [p|i|]; cbn [exec history]; [| |now contradict Ho]; apply IH; auto. now apply b256_write_rel.
Qed.

(** ** Serialisation *)
Definition b256_wide (s iv : list N) : Prop := length s = 4 /\ Forall is32 s /\ length iv = 8 /\ Forall is32 iv.
Lemma is32_le : Forall is32 blake32_cst.
Proof. repeat constructor. Qed.
Lemma chain_is32 : forall c s bl i h, Forall is32 s -> Forall is32 h -> Forall is32 (chain32 c s bl i h).
Proof.
  intros. apply isw_chain; auto.
  - reflexivity.
  - apply add32_is32.
  - intros. now apply rotl32_is32.
  - apply lxor_is32.
  - apply is32_le.
  - intros t. apply N.mod_lt. discriminate.
Qed.
Lemma b256_unmarshal_marshal : forall s iv d m r, b256_wide s iv -> b256_rel s iv d m -> length (dx (snd r)) = 64 ->
  exists d', b256_unmarshal r (b256_marshal d) = inl d' /\ b256_rel s iv d' m.
Proof.
  intros s iv [s' d] m r (Ls & Ws & Li & Wi) [E H] Lr. cbn [fst snd] in E, H. subst s'. destruct H as (Hs & Hb & Hl). rewrite fold_chain in Hs by exact Li.
  pose proof (buf_ok_nx_lt _ _ _ _ _ (Nat.lt_0_succ 63) Hb) as Hnx. destruct Hb as (Lx & En & Ex).
  set (h := chain32 (fullcnt 4) s (chunks 64 m) 0 iv) in *. assert (Lh : length h = 8) by (now apply chain_len). assert (Wh : Forall is32 h) by (now apply chain_is32).
  set (t := w64 (512 * N.of_nat (length (chunks 64 m)))) in *. assert (Wt : is64 t) by apply w64_is64. 
  assert (Hfold : fold_left (b256_compress s) (chunks 64 m) (mkb256 iv 0 false) = mkb256 h t false) by (now apply fold_chain).
  clearbody h t. destruct d as [st x nx len]. cbn [ds dx dnx dlen] in *. subst st.
  unfold b256_unmarshal, b256_marshal. cbn [fst snd ds dx dnx dlen bh bt bnull].
  set (SS := concat (map (be_bytes 4) s)). assert (LS : length SS = 16) by (unfold SS; rewrite concat_be_length, Ls; reflexivity).
  set (X := firstn nx x ++ zeros (64 - nx)). assert (LX : length X = 64) by (unfold X; rewrite app_length, firstn_length, zeros_length; lia).
  set (LB := be_bytes 8 len). assert (LL : length LB = 8) by apply be_bytes_length.
  set (HH := concat (map (be_bytes 4) h)). assert (LH : length HH = 32) by (unfold HH; rewrite concat_be_length, Lh; reflexivity).
  set (TB := be_bytes 8 t). assert (LT : length TB = 8) by apply be_bytes_length.
  rewrite !app_length, LS, LX, LL, LH, LT. change (length b256_magic) with 9. cbn [length].
  rewrite (firstn_app_len _ 9 b256_magic) by reflexivity. destruct (list_eq_dec N.eq_dec b256_magic b256_magic) as [_|K]; [|exfalso; apply K; reflexivity].
  match goal with |- context [?a <? 9] => change (a <? 9) with false; change (a =? b256_marshaledSize) with true end. cbn [orb negb].
  rewrite (skipn_app_len _ 9) by reflexivity. rewrite (skipn_app_len _ 16) by exact LS. rewrite Lr, app_length, LX. rewrite Nat.min_l by lia. rewrite (skipn_app_len _ 64) by exact LX.
  rewrite copy_at_0_app by lia. rewrite (firstn_app_len _ 8 LB) by exact LL. rewrite (skipn_app_len _ 8 LB) by exact LL. rewrite (skipn_app_len _ 32 HH) by exact LH.
  rewrite (firstn_app_len _ 8 TB) by exact LT. rewrite (skipn_app_len _ 8 TB) by exact LT.
  assert (EL : be_val LB = len) by (unfold LB; rewrite be_val_be_bytes; apply N.mod_small; rewrite Hl; apply w64_lt).
  assert (ET : be_val TB = t) by (unfold TB; rewrite be_val_be_bytes; apply N.mod_small; exact Wt).
  assert (ES : map (fun i => be_val (slice (SS ++ X ++ LB ++ HH ++ TB ++ [0%N]) (4 * i) (4 * i + 4))) (seq 0 4) = s) by (pose proof (be_words_decode 4 s (X ++ LB ++ HH ++ TB ++ [0%N]) (Nat.lt_0_succ 3) Ws) as K; rewrite Ls in K; exact K).
  assert (EH : map (fun i => be_val (slice (HH ++ TB ++ [0%N]) (4 * i) (4 * i + 4))) (seq 0 8) = h) by (pose proof (be_words_decode 4 h (TB ++ [0%N]) (Nat.lt_0_succ 3) Wh) as K; rewrite Lh in K; exact K).
  cbv zeta. rewrite ES, EH, EL, ET. eexists. split; [reflexivity|]. split; [reflexivity|]. cbn [snd]. split; [|split]; cbn [ds dx dnx dlen].
  - rewrite Hfold. reflexivity.
  - assert (En' : N.to_nat (len mod 64) = nx).
    { rewrite Hl, N.mul_1_l, w64_mod_small by (lia || reflexivity). change 64%N with (N.of_nat 64). rewrite <- Nat2N.inj_mod, Nat2N.id. rewrite En. symmetry. apply rest_length. lia. }
    rewrite En'. split; [exact LX|]. split; [exact En|]. rewrite <- Ex. unfold X. apply firstn_app_len. rewrite firstn_length. lia.
  - exact Hl.
Qed.
Lemma b256_accepts : forall r b, (exists d', b256_unmarshal r b = inl d') <-> (firstn 9 b = b256_magic /\ length b = 138).
Proof.
  intros r b. unfold b256_unmarshal. split.
  - intros (d' & E). destruct (length b <? 9) eqn:E1; cbn [orb] in E; [discriminate E|].
    destruct (list_eq_dec N.eq_dec (firstn 9 b) b256_magic); cbn [orb negb] in E; [|discriminate E].
    destruct (length b =? b256_marshaledSize) eqn:E2; cbn [orb negb] in E; [|discriminate E]. apply Nat.eqb_eq in E2. auto.
  - intros (E & L). rewrite L, E. destruct (list_eq_dec N.eq_dec b256_magic b256_magic) as [_|C]; [|exfalso; apply C; reflexivity].
    cbn [Nat.ltb Nat.leb orb negb]. change (138 =? b256_marshaledSize) with true. cbn [negb]. eexists. reflexivity.
Qed.
Transparent blake_compress b256_compress.
