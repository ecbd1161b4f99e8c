(** PropRadio.v -- C107: the radio_gatun package. *)
From Coq Require Import List NArith Arith Bool Lia.
Require Import Verif.Base Verif.Words Verif.HashAPI Verif.Buf Verif.MD Verif.Bytes Verif.Pad Verif.Refine Verif.Ascon2 Verif.PropWhirl Verif.SpecRadio Verif.Radio.
Import ListNotations.
Local Open Scope nat_scope.

(** ** The unrolled mill *)
Lemma rotr32 : forall x k, (k < 32)%N -> rg_rotr 4 x k = N.lor (shl32 x (32 - k)) (N.shiftr x k).
Proof. intros x k H. unfold rg_rotr, shl32. change (rg_w 4) with 32%N. rewrite w32_mod. apply N.lor_comm. Qed.
Lemma rotr64 : forall x k, (k < 64)%N -> rg_rotr 8 x k = N.lor (shl64 x (64 - k)) (N.shiftr x k).
Proof. intros x k H. unfold rg_rotr, shl64. change (rg_w 8) with 64%N. rewrite w64_mod. apply N.lor_comm. Qed.
Lemma rotr0 : forall ws x, rg_rotr ws x 0 = x.
Proof.
  intros. unfold rg_rotr. rewrite N.shiftr_0_r, N.sub_0_r, N.shiftl_mul_pow2, N.mod_mul by (apply N.pow_nonzero; discriminate). apply N.lor_0_r.
Qed.
Lemma mill32 : forall a, rg32_mill a = rg_mill 4 a.
Proof.
  intro a. unfold rg32_mill, rg_mill. cbv zeta.
  assert (G : rg32_gamma a = map (fun i => N.lxor (at_ a i) (N.lor (at_ a ((i + 1) mod 19)) (rg_not 4 (at_ a ((i + 2) mod 19))))) (seq 0 19)) by reflexivity.
  rewrite <- G. clear G. generalize (rg32_gamma a). clear a. intro a.
  assert (P : rg32_pi a = map (fun i => rg_rotr 4 (at_ a (7 * i mod 19)) (N.of_nat (i * (i + 1) / 2) mod rg_w 4)) (seq 0 19)).
  { change (seq 0 19) with (0 :: seq 1 18). cbn [map]. change (N.of_nat (0 * (0 + 1) / 2) mod rg_w 4)%N with 0%N. rewrite rotr0.
    rewrite (map_ext _ (fun i => N.lor (shl32 (at_ a (7 * i mod 19)) (32 - N.of_nat (i * (i + 1) / 2) mod rg_w 4)) (N.shiftr (at_ a (7 * i mod 19)) (N.of_nat (i * (i + 1) / 2) mod rg_w 4)))) by (intro i; apply rotr32; apply N.mod_lt; discriminate).
    reflexivity. }
  rewrite <- P. clear P. generalize (rg32_pi a). clear a. intro a. reflexivity.
Qed.
Lemma mill64 : forall a, rg64_mill a = rg_mill 8 a.
Proof.
  intro a. unfold rg64_mill, rg_mill. cbv zeta.
  assert (G : rg64_gamma a = map (fun i => N.lxor (at_ a i) (N.lor (at_ a ((i + 1) mod 19)) (rg_not 8 (at_ a ((i + 2) mod 19))))) (seq 0 19)) by reflexivity.
  rewrite <- G. clear G. generalize (rg64_gamma a). clear a. intro a.
  assert (P : rg64_pi a = map (fun i => rg_rotr 8 (at_ a (7 * i mod 19)) (N.of_nat (i * (i + 1) / 2) mod rg_w 8)) (seq 0 19)).
  { change (seq 0 19) with (0 :: seq 1 18). cbn [map]. change (N.of_nat (0 * (0 + 1) / 2) mod rg_w 8)%N with 0%N. rewrite rotr0.
    rewrite (map_ext _ (fun i => N.lor (shl64 (at_ a (7 * i mod 19)) (64 - N.of_nat (i * (i + 1) / 2) mod rg_w 8)) (N.shiftr (at_ a (7 * i mod 19)) (N.of_nat (i * (i + 1) / 2) mod rg_w 8)))) by (intro i; apply rotr64; apply N.mod_lt; discriminate).
    reflexivity. }
  rewrite <- P. clear P. generalize (rg64_pi a). clear a. intro a. reflexivity.
Qed.
Lemma mill_length : forall ws a, length (rg_mill ws a) = 19.
Proof. intros. unfold rg_mill. cbv zeta. now rewrite map_length, seq_length. Qed.
Opaque rg_mill.
(** ** One iteration *)
Definition view (o : nat) (b : list N) : list N := map (fun k => at_ b ((k + 3 * o) mod 39)) (seq 0 39).
Ltac list19 a := do 19 (destruct a as [|? a]; [discriminate|]); destruct a; [|discriminate].
Ltac list39 a := do 39 (destruct a as [|? a]; [discriminate|]); destruct a; [|discriminate].
(** The loop body with the input words and the mill abstracted. *)
Definition iter_p (p0 p1 p2 : N) (mill : list N -> list N) (st : list N * list N) (mk : nat) : list N * list N :=
  let b := fst st in let a := snd st in
  let bj := if mk =? 12 then 0 else 3 * (mk + 1) in
  let b := bxor (bxor (bxor b (bj + 0) p0) (bj + 1) p1) (bj + 2) p2 in
  let a := bxor (bxor (bxor a 16 p0) 17 p1) 18 p2 in
  let b := rg_feed mk a b in
  let a := mill a in
  let bj := mk * 3 in
  (b, bxor (bxor (bxor a 13 (at_ b (bj + 0))) 14 (at_ b (bj + 1))) 15 (at_ b (bj + 2))).
Lemma in_a : forall a p0 p1 p2, length a = 19 -> bxor (bxor (bxor a 16 p0) 17 p1) 18 p2 = map (fun i => if 16 <=? i then N.lxor (at_ a i) (at_ [p0; p1; p2] (i - 16)) else at_ a i) (seq 0 19).
Proof. intros a p0 p1 p2 L. list19 a. reflexivity. Qed.
Lemma out_a : forall a p0 p1 p2, length a = 19 -> bxor (bxor (bxor a 13 p0) 14 p1) 15 p2 = map (fun i => if (13 <=? i) && (i <? 16) then N.lxor (at_ a i) (at_ [p0; p1; p2] (i - 13)) else at_ a i) (seq 0 19).
Proof. intros a p0 p1 p2 L. list19 a. reflexivity. Qed.
Definition spec_belt (a b : list N) : list N := map (fun k => let s := k / 3 in let r := k mod 3 in
         let old := at_ b (3 * ((s + 12) mod 13) + r) in
         if (1 <=? s) && (r =? (s - 1) mod 3) then N.lxor old (at_ a s) else old) (seq 0 39).
Definition spec_inb (p : list N) (b : list N) : list N := map (fun k => if k <? 3 then N.lxor (at_ b k) (at_ p k) else at_ b k) (seq 0 39).
Lemma feed_ok : forall mk, mk < 13 -> forall a b p0 p1 p2, length a = 19 -> length b = 39 ->
  let bj := if mk =? 12 then 0 else 3 * (mk + 1) in
  let b1 := bxor (bxor (bxor b (bj + 0) p0) (bj + 1) p1) (bj + 2) p2 in
  let b2 := rg_feed mk a b1 in
  view mk b2 = spec_belt a (spec_inb [p0; p1; p2] (view (mk + 1) b)) /\ length b2 = 39 /\
  [at_ b2 (mk * 3 + 0); at_ b2 (mk * 3 + 1); at_ b2 (mk * 3 + 2)] = map (fun i => at_ (spec_inb [p0; p1; p2] (view (mk + 1) b)) (36 + i)) [0; 1; 2].
Proof.
  intros mk Hm a b p0 p1 p2 La Lb. list19 a. list39 b.
  do 13 (destruct mk as [|mk]; [cbv zeta; split; [reflexivity|split; reflexivity]|]). lia.
Qed.
Lemma map_out : forall a q0 q1 q2 B, [q0; q1; q2] = map (fun i => at_ B (36 + i)) [0; 1; 2] ->
  map (fun i => if (13 <=? i) && (i <? 16) then N.lxor (at_ a i) (at_ [q0; q1; q2] (i - 13)) else at_ a i) (seq 0 19) =
  map (fun i => if (13 <=? i) && (i <? 16) then N.lxor (at_ a i) (at_ B (36 + (i - 13))) else at_ a i) (seq 0 19).
Proof.
  intros a q0 q1 q2 B H. apply map_ext. intro i. destruct (Nat.leb_spec 13 i) as [H1|H1]; [|reflexivity]. destruct (Nat.ltb_spec i 16) as [H2|H2]; [|reflexivity]. cbn [andb]. f_equal.
  rewrite H. assert (E : i - 13 = 0 \/ i - 13 = 1 \/ i - 13 = 2) by lia. destruct E as [-> | [-> | ->]]; reflexivity.
Qed.
Lemma iter_p_ok : forall ws mk p0 p1 p2 b a, mk < 13 -> length a = 19 -> length b = 39 ->
  let st := iter_p p0 p1 p2 (rg_mill ws) (b, a) mk in
  length (fst st) = 39 /\ length (snd st) = 19 /\ (view mk (fst st), snd st) = rg_round ws (rg_input [p0; p1; p2] (view (mk + 1) b, a)).
Proof.
  intros ws mk p0 p1 p2 b a Hm La Lb. unfold iter_p, rg_input, rg_round. cbn [fst snd].
  rewrite (in_a a) by exact La. set (a1 := map (fun i => if 16 <=? i then _ else _) (seq 0 19)).
  assert (La1 : length a1 = 19) by reflexivity.
  destruct (feed_ok mk Hm a1 b p0 p1 p2 La1 Lb) as (F1 & F2 & F3). cbv zeta in F1, F2, F3 |- *.
  set (b2 := rg_feed mk a1 _) in *. clearbody b2. clearbody a1.
  rewrite out_a by apply mill_length. cbn [fst snd]. split; [exact F2|]. split; [reflexivity|].
  apply f_equal2; [exact F1|]. exact (map_out _ _ _ _ _ F3).
Qed.
Section Gen.
Variable ws num0 nout : nat.
Variable mill : list N -> list N.
Hypothesis Hmill : forall a, mill a = rg_mill ws a.
Hypothesis Hws : 0 < ws.
Lemma words_ok : forall data k, length data = 39 * ws -> k < 13 -> rg_words ws (firstn (3 * ws) (skipn (k * (3 * ws)) data)) =
  [le_val (slice data (3 * ws * k + 0 * ws) (3 * ws * k + 0 * ws + ws)); le_val (slice data (3 * ws * k + 1 * ws) (3 * ws * k + 1 * ws + ws)); le_val (slice data (3 * ws * k + 2 * ws) (3 * ws * k + 2 * ws + ws))].
Proof.
  intros data k L Hk. assert (k * (3 * ws) + 3 * ws <= 39 * ws) by nia.
  unfold rg_words, chunks. rewrite firstn_length, skipn_length. rewrite Nat.min_l by lia. rewrite Nat.div_mul by lia. cbn [seq map]. unfold slice.
  rewrite !skipn_firstn_comm, !firstn_firstn, !skipn_skipn. repeat (apply f_equal2; [f_equal; apply f_equal2; [lia|f_equal; lia]|]). reflexivity.
Qed.
Lemma iter_ok : forall data mk b a, length data = 39 * ws -> mk < 13 -> length a = 19 -> length b = 39 ->
  let st := rg_iter ws mill data (b, a) mk in
  length (fst st) = 39 /\ length (snd st) = 19 /\ (view mk (fst st), snd st) = rg_absorb ws (view (mk + 1) b, a) (firstn (3 * ws) (skipn ((12 - mk) * (3 * ws)) data)).
Proof.
  intros data mk b a L Hm La Lb. unfold rg_absorb. rewrite words_ok by lia.
  pose proof (iter_p_ok ws mk (le_val (slice data (3 * ws * (12 - mk) + 0 * ws) (3 * ws * (12 - mk) + 0 * ws + ws))) (le_val (slice data (3 * ws * (12 - mk) + 1 * ws) (3 * ws * (12 - mk) + 1 * ws + ws))) (le_val (slice data (3 * ws * (12 - mk) + 2 * ws) (3 * ws * (12 - mk) + 2 * ws + ws))) b a Hm La Lb) as H.
  cbv zeta in H |- *. replace (rg_iter ws mill data (b, a) mk) with (iter_p (le_val (slice data (3 * ws * (12 - mk) + 0 * ws) (3 * ws * (12 - mk) + 0 * ws + ws))) (le_val (slice data (3 * ws * (12 - mk) + 1 * ws) (3 * ws * (12 - mk) + 1 * ws + ws))) (le_val (slice data (3 * ws * (12 - mk) + 2 * ws) (3 * ws * (12 - mk) + 2 * ws + ws))) (rg_mill ws) (b, a) mk); [exact H|].
  unfold rg_iter, iter_p. cbv zeta. cbn [fst snd]. rewrite Hmill. reflexivity.
Qed.
Lemma view0 : forall b, length b = 39 -> view 0 b = b /\ view 13 b = b.
Proof. intros b L. list39 b. split; reflexivity. Qed.
Definition down (o : nat) : list nat := rev (seq 0 o).
Lemma iters_ok : forall data o b a, length data = 39 * ws -> o <= 13 -> length a = 19 -> length b = 39 ->
  let st := fold_left (rg_iter ws mill data) (down o) (b, a) in
  length (fst st) = 39 /\ length (snd st) = 19 /\
  (view 0 (fst st), snd st) = fold_left (rg_absorb ws) (map (fun i => firstn (3 * ws) (skipn (i * (3 * ws)) data)) (seq (13 - o) o)) (view o b, a).
Proof.
  intros data. induction o as [|o IH]; intros b a L Ho La Lb; [repeat split; assumption|].
  unfold down. change (seq 0 (S o)) with (0 :: seq 1 o). replace (rev (0 :: seq 1 o)) with (o :: down o).
  2:{ unfold down. change (0 :: seq 1 o) with (seq 0 (S o)). rewrite seq_S, rev_app_distr. reflexivity. }
  cbn [fold_left]. destruct (iter_ok data o b a L ltac:(lia) La Lb) as (I1 & I2 & I3).
  set (st := rg_iter ws mill data (b, a) o) in *. clearbody st. destruct st as [b1 a1]. cbn [fst snd] in I1, I2, I3.
  specialize (IH b1 a1 L ltac:(lia) I2 I1). cbv zeta in IH |- *. destruct IH as (J1 & J2 & J3). split; [exact J1|]. split; [exact J2|].
  rewrite J3. rewrite I3. replace (13 - S o) with (12 - o) by lia. cbn [seq map fold_left]. replace (S (12 - o)) with (13 - o) by lia. replace (o + 1) with (S o) by lia. reflexivity.
Qed.
Lemma block_ok : forall data b a, length data = 39 * ws -> length a = 19 -> length b = 39 ->
  rg_block ws mill (b, a) data = fold_left (rg_absorb ws) (chunks (3 * ws) data) (b, a).
Proof.
  intros data b a L La Lb. unfold rg_block. change [12; 11; 10; 9; 8; 7; 6; 5; 4; 3; 2; 1; 0] with (down 13).
  destruct (iters_ok data 13 b a L (le_n _) La Lb) as (J1 & J2 & J3). cbv zeta in *. set (st := fold_left (rg_iter ws mill data) (down 13) (b, a)) in *. clearbody st. destruct st as [b1 a1]. cbn [fst snd] in *.
  rewrite (proj1 (view0 b1 J1)) in J3. rewrite (proj2 (view0 b Lb)) in J3. rewrite J3. unfold chunks. rewrite L. replace (39 * ws / (3 * ws)) with 13; [reflexivity|].
  replace (39 * ws) with (13 * (3 * ws)) by lia. now rewrite Nat.div_mul by lia.
Qed.
Definition okst (st : list N * list N) : Prop := length (fst st) = 39 /\ length (snd st) = 19.
Lemma round_okst : forall st, okst (rg_round ws st).
Proof. intros [b a]. split; reflexivity. Qed.
Lemma absorb_okst : forall st x, okst (rg_absorb ws st x).
Proof. intros. apply round_okst. Qed.
Lemma fold_okst : forall xs st, okst st -> okst (fold_left (rg_absorb ws) xs st).
Proof. induction xs as [|x xs IH]; intros st H; [exact H|]. cbn [fold_left]. apply IH. apply absorb_okst. Qed.
Lemma blank1_ok : forall st, okst st -> rg_blank1 mill st = rg_round ws st.
Proof.
  intros [b a] [Lb La]. cbn [fst snd] in *. unfold rg_blank1, rg_round. cbn [fst snd]. rewrite Hmill. cbv zeta. rewrite out_a by apply mill_length.
  apply f_equal2.
  - list39 b. list19 a. reflexivity.
  - rewrite (map_out (rg_mill ws a) _ _ _ b); [reflexivity|]. list39 b. list19 a. reflexivity.
Qed.
Lemma zero_in : forall st, okst st -> rg_absorb ws st (zeros (3 * ws)) = rg_round ws st.
Proof.
  intros [b a] [Lb La]. cbn [fst snd] in *. unfold rg_absorb. f_equal.
  assert (W : rg_words ws (zeros (3 * ws)) = [0; 0; 0]%N).
  { unfold rg_words, chunks. rewrite zeros_length, Nat.div_mul by lia. cbn [seq map]. rewrite !zeros_skip, !firstn_zeros. rewrite !le_val_zeros. reflexivity. }
  rewrite W. unfold rg_input. apply f_equal2.
  - list39 b. cbn [seq map Nat.ltb Nat.leb at_ nth]. rewrite !N.lxor_0_r. reflexivity.
  - list19 a. cbn [seq map Nat.leb at_ nth Nat.sub]. rewrite !N.lxor_0_r. reflexivity.
Qed.
Opaque rg_block rg_absorb rg_round rg_blank1.
Hypothesis Hout : 2 * ws * nout = 32.
Hypothesis Hnum : num0 = 16 + nout.
Notation bs := (39 * ws). Notation w := (3 * ws).
Lemma rest_block : forall x : list N, length x = bs -> rest w x = [].
Proof. intros x Hx. apply length_zero_iff_nil. rewrite rest_length by lia. rewrite Hx. replace (39 * ws) with (13 * (3 * ws)) by lia. apply Nat.mod_mul. lia. Qed.
Lemma chunks_block : forall x y : list N, length x = bs -> chunks w (x ++ y) = chunks w x ++ chunks w y.
Proof. intros x y Hx. rewrite chunks_app by lia. rewrite (rest_block x Hx). reflexivity. Qed.
Lemma fl_cons : forall A B (f : A -> B -> A) x l s, fold_left f (x :: l) s = fold_left f l (f s x).
Proof. reflexivity. Qed.
Lemma fl_one : forall A B (f : A -> B -> A) x s, fold_left f [x] s = f s x.
Proof. reflexivity. Qed.
Lemma blocks_ok : forall L st, Forall (fun x => length x = bs) L -> okst st -> fold_left (rg_block ws mill) L st = fold_left (rg_absorb ws) (chunks w (concat L)) st.
Proof.
  induction L as [|x L IH]; intros st HF Hst.
  - cbn [concat]. rewrite chunks_short by (cbn [length]; lia). reflexivity.
  - pose proof (Forall_inv HF) as Hx. pose proof (Forall_inv_tail HF) as HL. cbn [concat]. rewrite fl_cons. rewrite (chunks_block x _ Hx), fold_left_app.
    rewrite <- (IH _ HL (fold_okst _ _ Hst)). destruct st as [b a]. destruct Hst as [H1 H2]. rewrite (block_ok x b a Hx H2 H1). reflexivity.
Qed.
Lemma num_ok : forall fuel ptr n, ptr <= bs -> (bs - ptr) / w < fuel -> rg_num ws fuel ptr n = n - (bs - ptr) / w.
Proof.
  induction fuel as [|f IH]; intros ptr n Hp Hf; [lia|]. cbn [rg_num]. unfold rgbs. destruct (Nat.ltb_spec bs (ptr + w)) as [H|H].
  - rewrite Nat.div_small by lia. lia.
  - assert (E : (bs - ptr) / w = S ((bs - (ptr + w)) / w)). { replace (bs - ptr) with (1 * w + (bs - (ptr + w))) by lia. rewrite Nat.div_add_l by lia. lia. }
    rewrite IH; lia.
Qed.
Lemma iter_round_okst : forall n st, okst st -> okst (Nat.iter n (rg_round ws) st).
Proof. induction n as [|n IH]; intros st H; [exact H|]. apply round_okst. Qed.
Lemma it_S : forall A (f : A -> A) n x, Nat.iter (S n) f x = f (Nat.iter n f x).
Proof. reflexivity. Qed.
Lemma iter_add' : forall A (f : A -> A) n k x, Nat.iter (n + k) f x = Nat.iter n f (Nat.iter k f x).
Proof. induction n as [|n IH]; intros k x; [reflexivity|]. cbn [Nat.add]. rewrite !it_S. now rewrite IH. Qed.
Lemma iter_shift : forall A (f : A -> A) n x, Nat.iter n f (f x) = f (Nat.iter n f x).
Proof. induction n as [|n IH]; intro x; [reflexivity|]. rewrite !it_S. now rewrite IH. Qed.
Lemma zeros_fold : forall e st, okst st -> fold_left (rg_absorb ws) (repeat (zeros w) e) st = Nat.iter e (rg_round ws) st.
Proof.
  induction e as [|e IH]; intros st H; [reflexivity|]. cbn [repeat]. rewrite fl_cons. rewrite zero_in by exact H. rewrite IH by apply round_okst. rewrite iter_shift, it_S. reflexivity.
Qed.
Lemma zeros_chunks : forall e, chunks w (zeros (e * w)) = repeat (zeros w) e.
Proof.
  induction e as [|e IH]; [apply chunks_short; cbn [Nat.mul zeros repeat length]; lia|]. rewrite chunks_cons by (rewrite ?zeros_length; lia). cbn [repeat]. rewrite firstn_zeros, zeros_skip. f_equal; [f_equal; lia|]. rewrite <- IH. do 2 f_equal. lia.
Qed.
Lemma outs_ok : forall n st pre, okst st -> n <= nout -> rg_blanks ws mill nout n st (pre ++ zeros (2 * ws * n)) (length pre) = pre ++ rg_output ws n st.
Proof.
  induction n as [|n IH]; intros st pre Hst Hn.
  - cbn [rg_blanks rg_output]. now rewrite Nat.mul_0_r.
  - cbn [rg_blanks]. destruct (Nat.leb_spec (S n) nout) as [_|]; [|lia]. rewrite blank1_ok by exact Hst. cbn [rg_output]. cbv zeta.
    pose proof (round_okst st) as Hr. set (st' := rg_round ws st) in *. clearbody st'. set (o1 := le_bytes ws _). set (o2 := le_bytes ws _).
    assert (L1 : length o1 = ws) by apply le_bytes_length. assert (L2 : length o2 = ws) by apply le_bytes_length. clearbody o1 o2.
    assert (E1 : copy_at (pre ++ zeros (2 * ws * S n)) (length pre) o1 = (pre ++ o1) ++ zeros (2 * ws * S n - ws)).
    { unfold copy_at. rewrite app_length, zeros_length. rewrite firstn_app_len by reflexivity. rewrite firstn_all2 by nia. rewrite Nat.min_r by nia. rewrite L1.
      rewrite skipn_app, skipn_all2 by lia. cbn [app]. replace (length pre + ws - length pre) with ws by lia. rewrite zeros_skip. now rewrite app_assoc. }
    rewrite E1.
    assert (E2 : copy_at ((pre ++ o1) ++ zeros (2 * ws * S n - ws)) (length pre + ws) o2 = (pre ++ o1 ++ o2) ++ zeros (2 * ws * n)).
    { unfold copy_at. rewrite !app_length, zeros_length, L1. rewrite firstn_app_len by (rewrite app_length; lia). rewrite firstn_all2 by nia. rewrite Nat.min_r by nia. rewrite L2.
      rewrite skipn_app, skipn_all2 by (rewrite app_length; lia). cbn [app]. rewrite app_length, L1. replace (length pre + ws + ws - (length pre + ws)) with ws by lia. rewrite zeros_skip. rewrite <- !app_assoc. do 3 f_equal. f_equal. lia. }
    rewrite E2. replace (length pre + 2 * ws) with (length (pre ++ o1 ++ o2)) by (rewrite !app_length; lia). rewrite IH by (assumption || lia). now rewrite <- !app_assoc.
Qed.
Lemma blanks_ok : forall j st, okst st -> rg_blanks ws mill nout (j + nout) st (zeros 32) 0 = rg_output ws nout (Nat.iter j (rg_round ws) st).
Proof.
  induction j as [|j IH]; intros st Hst.
  - cbn [Nat.add Nat.iter nat_rect]. rewrite <- Hout. exact (outs_ok nout st [] Hst (le_n _)).
  - cbn [Nat.add rg_blanks]. destruct (Nat.leb_spec (S (j + nout)) nout); [lia|]. rewrite blank1_ok by exact Hst. rewrite IH by apply round_okst. rewrite iter_shift, it_S. reflexivity.
Qed.
Notation iv := (zeros 39, zeros 19).
Lemma checkSum_ok : forall d m, dig_rel bs (rg_block ws mill) iv 1 d m -> rg_checkSum ws mill num0 nout d = rg_hash ws m.
Proof.
  intros d m (Hs & Hb & _). pose proof (buf_ok_nx_lt bs bs _ _ _ ltac:(lia) Hb) as Hnx. destruct Hb as (Lx & En & Ex). unfold rg_checkSum. unfold rgbs. cbv zeta.
  set (x1 := upd (dx d) (dnx d) 1%N). assert (L1 : length x1 = bs) by (unfold x1; rewrite upd_length; exact Lx).
  assert (EX : fold_left (fun x i => upd x i 0%N) (seq (dnx d + 1) (bs - (dnx d + 1))) x1 = rest bs m ++ 1%N :: zeros (bs - 1 - dnx d)).
  { pose proof (fill_map (fun _ => 0%N) (bs - (dnx d + 1)) (dnx d + 1) x1 ltac:(lia)) as F.
    replace (seq (dnx d + 1) (bs - (dnx d + 1))) with (map (fun i => dnx d + 1 + i) (seq 0 (bs - (dnx d + 1)))).
    2:{ clear. generalize (bs - (dnx d + 1)). generalize (dnx d + 1). intros a n. revert a. induction n as [|n IH]; intro a; [reflexivity|]. cbn [seq map]. rewrite <- seq_shift, map_map. f_equal; [lia|]. rewrite <- (IH (S a)). apply map_ext. intro; lia. }
    assert (FM : forall (l : list nat) (x : list N), fold_left (fun x i => upd x i 0%N) (map (fun i => dnx d + 1 + i) l) x = fold_left (fun x i => upd x (dnx d + 1 + i) 0%N) l x) by (induction l; intros; [reflexivity|cbn [map fold_left]; apply IHl]).
    rewrite FM, F, map_zero. rewrite skipn_all2 by lia. rewrite app_nil_r. rewrite <- Ex. unfold x1. rewrite Nat.add_1_r.
    assert (FU : firstn (S (dnx d)) (upd (dx d) (dnx d) 1%N) = firstn (dnx d) (dx d) ++ [1%N]).
    { rewrite upd_split by lia. rewrite firstn_app, firstn_firstn, firstn_length. rewrite Nat.min_r by lia. replace (S (dnx d) - Nat.min (dnx d) (length (dx d))) with 1 by lia. cbn [firstn]. reflexivity. }
    rewrite FU, <- app_assoc. cbn [app]. do 3 f_equal. lia. }
  rewrite EX. clear x1 L1 EX. set (x := rest bs m ++ _).
  assert (Lxx : length x = bs) by (unfold x; rewrite app_length; cbn [length]; rewrite zeros_length, <- En; lia).
  assert (HF : Forall (fun b => length b = bs) (chunks bs m)) by (apply chunks_all_length; lia).
  assert (ok0 : okst iv) by (split; reflexivity).
  rewrite Hs. rewrite <- (fl_one _ _ (rg_block ws mill) x). rewrite <- fold_left_app.
  rewrite (blocks_ok (chunks bs m ++ [x]) _ (proj2 (Forall_app _ _ _) (conj HF (Forall_cons _ Lxx (Forall_nil _)))) ok0).
  rewrite concat_app. cbn [concat]. rewrite app_nil_r. unfold x. rewrite app_assoc, chunks_concat by lia.
  assert (Enx : dnx d = length m mod bs) by (rewrite En; apply rest_length; lia).
  set (k := (w - (length m + 1) mod w) mod w). set (e := (bs - (dnx d + 1)) / w).
  assert (EK : bs - 1 - dnx d = k + e * w).
  { assert (M : (length m + 1) mod w = (dnx d + 1) mod w).
    { rewrite Enx. replace bs with (w * 13) by lia. rewrite (Nat.div_mod (length m) (w * 13)) at 1 by lia.
      replace (w * 13 * (length m / (w * 13)) + length m mod (w * 13) + 1) with (length m mod (w * 13) + 1 + (13 * (length m / (w * 13))) * w) by lia. rewrite Nat.mod_add by lia. reflexivity. }
    unfold k, e. rewrite M. replace (bs - 1 - dnx d) with (bs - (dnx d + 1)) by lia. pose proof (Nat.div_mod (bs - (dnx d + 1)) w ltac:(lia)) as D.
    enough (Q : (bs - (dnx d + 1)) mod w = (w - (dnx d + 1) mod w) mod w) by lia.
    set (y := dnx d + 1) in *. assert (Hy : y <= bs) by lia. clearbody y. pose proof (Nat.mod_upper_bound y w ltac:(lia)) as Hu. pose proof (Nat.div_mod y w ltac:(lia)) as Dy.
    destruct (Nat.eq_dec (y mod w) 0) as [Z|Z].
    - rewrite Z, Nat.sub_0_r, Nat.mod_same by lia. replace (bs - y) with ((13 - y / w) * w) by nia. apply Nat.mod_mul. lia.
    - rewrite (Nat.mod_small (w - y mod w)) by lia. assert (y / w < 13) by (apply Nat.div_lt_upper_bound; [lia|]; destruct (Nat.eq_dec y bs) as [Q'|]; [|lia]; exfalso; apply Z; rewrite Q'; replace bs with (13 * w) by lia; apply Nat.mod_mul; lia).
      replace (bs - y) with (w - y mod w + (12 - y / w) * w) by nia. rewrite Nat.mod_add by lia. apply Nat.mod_small. lia. }
  rewrite EK. unfold zeros at 1. rewrite repeat_app. fold (zeros k). fold (zeros (e * w)).
  replace (m ++ 1%N :: zeros k ++ zeros (e * w)) with (rg_pad ws m ++ zeros (e * w)) by (unfold rg_pad; rewrite <- app_assoc; reflexivity).
  assert (RP : rest w (rg_pad ws m) = []).
  { apply length_zero_iff_nil. rewrite rest_length by lia. unfold rg_pad. rewrite app_length. cbn [length]. rewrite zeros_length. fold k.
    pose proof (Nat.div_mod (length m + 1) w ltac:(lia)) as D. pose proof (Nat.mod_upper_bound (length m + 1) w ltac:(lia)). unfold k.
    destruct (Nat.eq_dec ((length m + 1) mod w) 0) as [Z|Z].
    - rewrite Z, Nat.sub_0_r, Nat.mod_same by lia. replace (length m + 1 + 0) with (length m + 1) by lia. replace (length m + S 0) with (length m + 1) by lia. exact Z.
    - rewrite (Nat.mod_small (w - _)) by lia. replace (length m + S (w - (length m + 1) mod w)) with ((S ((length m + 1) / w)) * w) by nia. apply Nat.mod_mul. lia. }
  rewrite chunks_app by lia. rewrite RP. cbn [app]. rewrite zeros_chunks, fold_left_app, zeros_fold by (now apply fold_okst).
  assert (He : e <= 12) by (unfold e; apply Nat.lt_succ_r; apply Nat.div_lt_upper_bound; lia).
  rewrite num_ok by lia. fold e. rewrite Hnum. replace (16 + nout - e) with (16 - e + nout) by lia.
  unfold rg_hash. set (st0 := fold_left (rg_absorb ws) (chunks w (rg_pad ws m)) iv). assert (ok1 : okst st0) by (now apply fold_okst). clearbody st0.
  rewrite blanks_ok by (now apply iter_round_okst). replace (32 / (2 * ws)) with nout by (rewrite <- Hout, Nat.mul_comm, Nat.div_mul; lia).
  rewrite <- iter_add'. f_equal. f_equal. lia.
Qed.
Lemma history : forall ops, run (rg_impl ws mill num0 nout) (rg_new ws) ops = ideal_run (rg_hash ws) [] ops.
Proof.
  intros ops. apply run_refines with (R := dig_rel bs (rg_block ws mill) iv 1).
  - intros d m p R. cbn [i_write rg_impl]. unfold rg_write, rgbs. now apply write_pre_rel; [lia|].
  - intros d m p R. cbn [i_write rg_impl]. apply write_pre_count.
  - intros d m i R. exact R.
  - intros d m i R. cbn [i_sum rg_impl]. unfold rg_sum. cbn [snd]. now rewrite (checkSum_ok d m R).
  - intros d m R. apply dig_rel_new; [lia|]. unfold rgbs. apply zeros_length.
  - apply dig_rel_new; [lia|]. unfold rgbs. apply zeros_length.
Qed.
End Gen.

Lemma rg_hash_length : forall m, length (rg_hash 4 m) = 32 /\ length (rg_hash 8 m) = 32.
Proof.
  intro m. unfold rg_hash. assert (H : forall ws k st, length (rg_output ws k st) = 2 * ws * k).
  { intros ws. induction k as [|k IH]; intro st; [cbn; lia|]. cbn [rg_output]. rewrite !app_length, !le_bytes_length, IH. lia. }
  split; cbv zeta; rewrite H; reflexivity.
Qed.
(** C107: New32 and New64: for every history of Write, Sum and Reset, of any length, each digest answers as RadioGatun. *)
Theorem C107_radio_gatun_histories : forall ops,
  run rg32_impl (rg_new 4) ops = ideal_run (rg_hash 4) [] ops /\ run rg64_impl (rg_new 8) ops = ideal_run (rg_hash 8) [] ops.
Proof.
  intro ops. split.
  - exact (history 4 20 4 rg32_mill mill32 ltac:(lia) eq_refl eq_refl ops).
  - exact (history 8 18 2 rg64_mill mill64 ltac:(lia) eq_refl eq_refl ops).
Qed.
Theorem C107_radio_gatun_oneshot : forall data, rg32_Sum data = rg_hash 4 data /\ rg64_Sum data = rg_hash 8 data.
Proof.
  intro data. destruct (rg_hash_length data) as [L4 L8]. unfold rg32_Sum, rg64_Sum, rg_Sum. split.
  - rewrite (checkSum_ok 4 20 4 rg32_mill mill32 ltac:(lia) eq_refl eq_refl _ data).
    + rewrite copy_at_over by (rewrite zeros_length, L4; lia). rewrite L4. apply app_nil_r.
    + apply (write_pre_rel (39 * 4) _ ltac:(lia) _ (rg_new 4) [] data). apply dig_rel_new; [lia|reflexivity].
  - rewrite (checkSum_ok 8 18 2 rg64_mill mill64 ltac:(lia) eq_refl eq_refl _ data).
    + rewrite copy_at_over by (rewrite zeros_length, L8; lia). rewrite L8. apply app_nil_r.
    + apply (write_pre_rel (39 * 8) _ ltac:(lia) _ (rg_new 8) [] data). apply dig_rel_new; [lia|reflexivity].
Qed.
Transparent rg_mill rg_block rg_absorb rg_round rg_blank1.
(** Two writes around a Sum, then the digest of the whole: the published digest of "0". *)
Example radio_gatun_case : nth_error (run rg32_impl (rg_new 4) [Write [1; 2]; Sum []; Reset; Write [48]; Sum [7]]%N) 3 =
  Some (Summed (7%N :: be_bytes 32 0xAF0D3F51B98E90EEEBAE86DD0B304A4003AC5F755FA2CAC2B6866A0A91C5C752)).
Proof. vm_compute. reflexivity. Qed.
Print Assumptions C107_radio_gatun_histories.
Print Assumptions C107_radio_gatun_oneshot.
