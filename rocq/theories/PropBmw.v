(** PropBmw.v -- C100: the bmw package computes Blue Midnight Wish on every history. *)
From Coq Require Import List NArith Arith Lia.
Require Import Verif.Base Verif.Words Verif.HashAPI Verif.Buf Verif.MD Verif.Bytes Verif.Pad Verif.PropVmac Verif.SpecBmw Verif.BmwTab Verif.Bmw.
Import ListNotations.

(** Filling an array front to back when entry j only reads the entries before it. *)
Lemma fill_ok : forall (f : nat -> list N -> N) (g : list N -> nat -> N) n,
  (forall j q t, j < n -> length q = j -> f j (q ++ t) = g q j) ->
  forall k q t, length q + k <= n -> length t = k ->
  fold_left (fun q j => upd q j (f j q)) (seq (length q) k) (q ++ t) = fold_left (fun q j => q ++ [g q j]) (seq (length q) k) q.
Proof.
  intros f g n H k. induction k as [|k IH]; intros q t Hn Ht.
  - destruct t; [|discriminate]. cbn. apply app_nil_r.
  - destruct t as [|a t]; [discriminate|]. cbn [seq fold_left]. rewrite (H (length q) q (a :: t)) by lia.
    assert (E : upd (q ++ a :: t) (length q) (g q (length q)) = (q ++ [g q (length q)]) ++ t).
    { rewrite upd_app_at. now rewrite <- app_assoc. }
    rewrite E. assert (L : length (q ++ [g q (length q)]) = S (length q)) by (rewrite app_length; cbn; lia).
    rewrite <- L. apply IH; [lia|]. cbn in Ht. lia.
Qed.
Lemma fill_len : forall (f : nat -> list N -> N) l q, length (fold_left (fun q j => upd q j (f j q)) l q) = length q.
Proof. intros f l. induction l as [|a l IH]; intro q; [reflexivity|]. cbn [fold_left]. rewrite IH. apply upd_length. Qed.
Lemma upd_len' : forall (l : list N) i x, length (upd l i x) = length l.
Proof. apply upd_length. Qed.
Lemma b_Q_len : forall W m h, length (b_Q W m h) = 32.
Proof.
  intros. unfold b_Q. assert (H : forall l q, length (fold_left (fun q j => q ++ [b_next W m h q j]) l q) = length l + length q).
  { induction l as [|a l IH]; intro q; [reflexivity|]. cbn [fold_left]. rewrite IH, app_length. cbn [length]. lia. }
  rewrite H. reflexivity.
Qed.
Ltac word32 := cbv -[at_ add32 sub32 shl32 rotl32 N.shiftr N.lxor lt].
Ltac word64 := cbv -[at_ add64 sub64 shl64 rotl64 N.shiftr N.lxor lt].
Lemma at_pre' : forall (q t : list N) i, i < length q -> at_ (q ++ t) i = at_ q i.
Proof. intros. unfold at_. now rewrite app_nth1. Qed.

Lemma q256_ok : forall m h q q' j, j < 32 -> (forall i, i < j -> at_ q' i = at_ q i) -> nth j bmw_qs bmw_q0 m h q' = b_next B32 m h q j.
Proof.
  intros m h q q' j Hj H. do 32 (destruct j as [|j]; [clear Hj; word32; rewrite ?H by lia; reflexivity|]). lia.
Qed.
Lemma Q256_ok : forall m h q0, length q0 = 32 -> fold_left (fun q j => upd q j (nth j bmw_qs bmw_q0 m h q)) (seq 0 32) q0 = b_Q B32 m h.
Proof.
  intros m h q0 L. unfold b_Q. apply (fill_ok (fun j q => nth j bmw_qs bmw_q0 m h q) (fun q j => b_next B32 m h q j) 32) with (q := []) (t := q0); [|cbn [length]; lia|exact L].
  intros j q t Hj HL. apply q256_ok; [exact Hj|]. intros i Hi. apply at_pre'. lia.
Qed.
Lemma compress256_ok : forall h m q, length h = 16 -> length m = 16 -> length q = 32 ->
  bmw_compress256 (h, q) m = (b_compress B32 h m, b_Q B32 m h).
Proof.
  intros h m q Lh Lm Lq. unfold bmw_compress256, b_compress. cbn [fst snd]. rewrite Q256_ok by exact Lq. f_equal.
  assert (LQ : length (b_Q B32 m h) = 32) by (apply b_Q_len).
  set (Q := b_Q B32 m h) in *. clearbody Q. do 16 (destruct h as [|? h]; [discriminate Lh|]). destruct h; [|discriminate Lh].
  do 16 (destruct m as [|? m]; [discriminate Lm|]). destruct m; [|discriminate Lm]. do 32 (destruct Q as [|? Q]; [discriminate LQ|]). destruct Q; [|discriminate LQ].
  cbv -[add32 sub32 shl32 rotl32 N.shiftr N.lxor lt]. reflexivity.
Qed.

Definition f512 (m h : list N) (j : nat) (q : list N) : N :=
  let w := bmw_w512 m h in
  (if j <? 15 then match j mod 5 with 0 => bmw_rhs0_0 h w j | 1 => bmw_rhs0_1 h w (j - 1) | 2 => bmw_rhs0_2 h w (j - 2) | 3 => bmw_rhs0_3 h w (j - 3) | _ => bmw_rhs0_4 h w (j - 4) end
  else if j <? 16 then bmw_rhs15 h w else if j <? 18 then bmw_rhs1 m h q j else bmw_rhs2 m h q j)%nat.
Lemma q512_ok : forall m h q q' j, j < 32 -> (forall i, i < j -> at_ q' i = at_ q i) -> f512 m h j q' = b_next B64 m h q j.
Proof.
  intros m h q q' j Hj H. do 16 (destruct j as [|j]; [clear Hj H; word64; reflexivity|]). do 16 (destruct j as [|j]; [clear Hj; word64; rewrite ?H by lia; reflexivity|]). lia.
Qed.
Lemma f512_lo : forall m h j q, j < 15 -> f512 m h j [] = f512 m h j q.
Proof. intros m h j q Hj. unfold f512. destruct (Nat.ltb_spec j 15); [reflexivity|lia]. Qed.
Lemma body0_ok : forall m h u q, u = 0 \/ u = 5 \/ u = 10 -> bmw_body0 h (bmw_w512 m h) q u = fold_left (fun q j => upd q j (f512 m h j [])) [u; u + 1; u + 2; u + 3; u + 4] q.
Proof. intros m h u q [->|[->| ->]]; cbn [fold_left]; unfold bmw_body0, f512; reflexivity. Qed.
Lemma loops512 : forall m h q0, let w := bmw_w512 m h in
  fold_left (bmw_body2 m h) (seq 18 14) (fold_left (bmw_body1 m h) [16; 17] (upd (fold_left (bmw_body0 h w) [0; 5; 10] q0) 15 (bmw_rhs15 h w)))
  = fold_left (fun q j => upd q j (f512 m h j q)) (seq 0 32) q0.
Proof.
  intros m h q0 w. change (seq 0 32) with (seq 0 15 ++ [15] ++ [16; 17] ++ seq 18 14). rewrite !fold_left_app.
  assert (E0 : fold_left (bmw_body0 h w) [0; 5; 10] q0 = fold_left (fun q j => upd q j (f512 m h j q)) (seq 0 15) q0).
  { transitivity (fold_left (fun q j => upd q j (f512 m h j [])) (seq 0 15) q0).
    - change (seq 0 15) with ([0; 1; 2; 3; 4] ++ [5; 6; 7; 8; 9] ++ [10; 11; 12; 13; 14]). rewrite !fold_left_app.
      change (fold_left (bmw_body0 h w) [0; 5; 10] q0) with (bmw_body0 h w (bmw_body0 h w (bmw_body0 h w q0 0) 5) 10). unfold w.
      rewrite (body0_ok m h 0), (body0_ok m h 5), (body0_ok m h 10) by auto. reflexivity.
    - apply fold_left_ext_in. intros q j Hj. apply in_seq in Hj. f_equal. apply f512_lo. lia. }
  rewrite E0. set (q1 := fold_left _ (seq 0 15) q0). clearbody q1.
  transitivity (fold_left (bmw_body2 m h) (seq 18 14) (fold_left (fun q j => upd q j (f512 m h j q)) [16; 17] (fold_left (fun q j => upd q j (f512 m h j q)) [15] q1))).
  - apply f_equal. assert (E1 : fold_left (fun q j => upd q j (f512 m h j q)) [15] q1 = upd q1 15 (bmw_rhs15 h w)) by (cbn [fold_left]; apply f_equal; unfold f512; reflexivity).
    rewrite E1. set (q2 := upd q1 15 _). clearbody q2. apply fold_left_ext_in. intros q j [<-|[<-|[]]]; unfold bmw_body1; apply f_equal; unfold f512; cbn [Nat.ltb Nat.leb]; reflexivity.
  - set (q2 := fold_left _ [16; 17] _). clearbody q2. apply fold_left_ext_in. intros q j Hj. apply in_seq in Hj. unfold bmw_body2, f512.
    destruct (Nat.ltb_spec j 15); [lia|]. destruct (Nat.ltb_spec j 16); [lia|]. destruct (Nat.ltb_spec j 18); [lia|]. reflexivity.
Qed.
Lemma compress512_ok : forall h m q, length h = 16 -> length m = 16 -> length q = 32 ->
  bmw_compress512 (h, q) m = (b_compress B64 h m, b_Q B64 m h).
Proof.
  intros h m q Lh Lm Lq. unfold bmw_compress512, b_compress. cbn [fst snd]. cbv zeta.
  assert (EQ : fold_left (bmw_body2 m h) (seq 18 14) (fold_left (bmw_body1 m h) [16; 17] (upd (fold_left (bmw_body0 h (bmw_w512 m h)) [0; 5; 10] q) 15 (bmw_rhs15 h (bmw_w512 m h)))) = b_Q B64 m h).
  { transitivity (fold_left (fun q j => upd q j (f512 m h j q)) (seq 0 32) q); [exact (loops512 m h q)|]. unfold b_Q.
    apply (fill_ok (f512 m h) (fun q j => b_next B64 m h q j) 32) with (q := []) (t := q); [|cbn [length]; lia|exact Lq].
    intros j q' t Hj HL. apply q512_ok; [exact Hj|]. intros i Hi. apply at_pre'. lia. }
  rewrite EQ. f_equal.
  assert (LQ : length (b_Q B64 m h) = 32) by (apply b_Q_len).
  set (Q := b_Q B64 m h) in *. clearbody Q. do 16 (destruct h as [|? h]; [discriminate Lh|]). destruct h; [|discriminate Lh].
  do 16 (destruct m as [|? m]; [discriminate Lm|]). destruct m; [|discriminate Lm]. do 32 (destruct Q as [|? Q]; [discriminate LQ|]). destruct Q; [|discriminate LQ].
  cbv -[add64 sub64 shl64 rotl64 N.shiftr N.lxor lt]. reflexivity.
Qed.
Lemma words_ok : forall n b, 0 < n -> length b mod n = 0 -> bmw_words n b = map le_val (chunks n b).
Proof.
  intros n b Hn. unfold bmw_words. remember (length b / n) as k. revert b Heqk. induction k as [|k IH]; intros b Hk Hm.
  - assert (length b < n) by (apply Nat.div_small_iff; [lia|now rewrite <- Hk]). rewrite (chunks_short _ n b) by assumption. reflexivity.
  - assert (Hl : n <= length b). { destruct (Nat.le_gt_cases n (length b)); [assumption|]. rewrite Nat.div_small in Hk by assumption. discriminate. }
    rewrite (chunks_cons _ n b) by lia. cbn [seq map]. f_equal. clear - IH Hn Hk Hm Hl.
    assert (E : length b = length (skipn n b) + 1 * n) by (rewrite skipn_length; lia).
    rewrite <- IH.
    + rewrite <- seq_shift, map_map. apply map_ext. intro i. rewrite skipn_skipn. do 2 f_equal.
    + rewrite E, Nat.div_add in Hk by lia. lia.
    + rewrite E, Nat.mod_add in Hm by lia. exact Hm.
Qed.

Section STREAM.
Context (T : bmw_ty) (W : bmw_word) (iv : list N) (start hs : nat).
Hypothesis HC : forall h m q, length h = 16 -> length m = 16 -> length q = 32 -> t_compress T (h, q) m = (b_compress W h m, b_Q W m h).
Hypothesis HN : t_n T = b_bytes W.
Hypothesis Hn : 0 < b_bytes W.
Hypothesis Hfin : t_final T = b_final W.
Hypothesis Hiv : iv = b_iv W start.
Hypothesis Liv : length iv = 16.
Hypothesis Hhs : hs mod b_bytes W = 0 /\ hs <= 16 * b_bytes W.
Hypothesis Hbs : 8 < 16 * b_bytes W.
Lemma compress_len : forall h m, length (b_compress W h m) = 16.
Proof. reflexivity. Qed.
Opaque b_compress b_Q.
Notation bs := (16 * b_bytes W).
Lemma bs_eq : bmw_bs T = bs.
Proof. unfold bmw_bs. now rewrite HN. Qed.
Lemma block_words : forall b : list N, length b = bs -> bmw_words (b_bytes W) b = b_words W b /\ length (b_words W b) = 16.
Proof.
  intros b L. split; [apply words_ok; [exact Hn|rewrite L; apply Nat.mod_mul; lia]|]. unfold b_words. rewrite map_length, chunks_length, L. apply Nat.div_mul. lia.
Qed.
Lemma blocks_ok : forall bl s q, Forall (fun b : list N => length b = bs) bl -> length s = 16 -> length q = 32 ->
  exists q', fold_left (bmw_block T) bl (s, q) = (fold_left (fun h b => b_compress W h (b_words W b)) bl s, q') /\ length q' = 32 /\ length (fold_left (fun h b => b_compress W h (b_words W b)) bl s) = 16.
Proof.
  induction bl as [|b bl IH]; intros s q HF Ls Lq; [exists q; auto|]. pose proof (Forall_inv HF) as Hb; pose proof (Forall_inv_tail HF) as HF'; cbv beta in Hb. cbn [fold_left]. destruct (block_words b Hb) as [E L].
  unfold bmw_block at 2. rewrite HN, E, HC by assumption. apply IH; [exact HF'|apply compress_len|apply b_Q_len].
Qed.
Definition bmw_rel (d : dig bmw_st) (m : list N) : Prop := dig_rel bs (bmw_block T) (iv, zeros 32) 8 d m.
Lemma new_rel : bmw_rel (bmw_new T iv) [].
Proof. unfold bmw_new. rewrite copy_at_over by (rewrite zeros_length; lia). rewrite Liv, zeros_skip, app_nil_r, bs_eq. apply dig_rel_new; [lia|apply zeros_length]. Qed.
Lemma checkSum_ok : forall d m, bmw_rel d m -> bmw_checkSum T hs d = bmw W start hs m.
Proof.
  intros d m H. unfold bmw_checkSum, bmw. cbv zeta. rewrite bs_eq.
  assert (El : le_bytes 8 (dlen d) = le_bytes 8 (8 * N.of_nat (length m))) by (destruct H as (_ & _ & ->); apply le_bytes8_w64).
  rewrite El. rewrite (finish_direct_ok _ bs (bmw_block T) (iv, zeros 32) 8 0x80 _ d m);
    [|lia|rewrite le_bytes_length; lia|exact H].
  destruct (blocks_ok (chunks bs (md_pad bs 0x80 (le_bytes 8 (8 * N.of_nat (length m))) m)) iv (zeros 32)) as (q' & E & Lq & Lh); [apply chunks_all_length; lia|exact Liv|apply zeros_length|].
  rewrite E. cbn [fst snd]. rewrite HC, Hfin by (try assumption; rewrite Hfin; unfold b_final; now rewrite map_length, seq_length). cbn [fst]. rewrite Hiv, HN. unfold bmw_bytes.
  set (w := b_compress W (b_final W) _). rewrite <- (fm_skipn N (le_bytes (b_bytes W)) (b_bytes W)) by (intro; apply le_bytes_length). f_equal.
  destruct Hhs as [Hm Hl]. rewrite (Nat.div_mod hs (b_bytes W)) at 2 by lia. rewrite Hm, Nat.mul_sub_distr_l. lia.
Qed.
Lemma bmw_history : forall ops, run (bmw_impl T iv hs) (bmw_new T iv) ops = ideal_run (bmw W start hs) [] ops.
Proof.
  intros ops. apply run_refines with (R := bmw_rel); intros; unfold bmw_impl; cbn [i_write i_sum i_reset].
  - unfold bmw_write, bmw_rel. rewrite bs_eq. apply write_post_rel; auto. lia.
  - apply write_post_count.
  - exact H.
  - cbn [snd]. now rewrite (checkSum_ok d m).
  - apply new_rel.
  - apply new_rel.
Qed.
Lemma bmw_len : forall m, length (bmw W start hs m) = hs.
Proof.
  intros m. unfold bmw. cbv zeta. rewrite skipn_length, (fm_length N (le_bytes (b_bytes W)) (b_bytes W)) by (intro; apply le_bytes_length). rewrite compress_len. lia.
Qed.
Lemma bmw_oneshot : forall data, bmw_Sum T iv hs data = bmw W start hs data.
Proof.
  intros data. unfold bmw_Sum. assert (R : bmw_rel (fst (bmw_write T (bmw_new T iv) data)) data).
  { unfold bmw_write. rewrite bs_eq. apply (write_post_rel bs (bmw_block T) ltac:(lia) 8 (iv, zeros 32) (bmw_new T iv) [] data). apply new_rel. }
  rewrite (checkSum_ok _ _ R). rewrite copy_at_over by (rewrite zeros_length, bmw_len; lia). rewrite bmw_len, zeros_skip, Nat.sub_diag. apply app_nil_r.
Qed.
Transparent b_compress b_Q.
End STREAM.
(** C100: New224, New256, New384, New512 on every history, and the one-shot functions. *)
Theorem C100_bmw_histories : forall ops,
  run bmw224_impl bmw224_new ops = ideal_run bmw224 [] ops /\ run bmw256_impl bmw256_new ops = ideal_run bmw256 [] ops /\
  run bmw384_impl bmw384_new ops = ideal_run bmw384 [] ops /\ run bmw512_impl bmw512_new ops = ideal_run bmw512 [] ops.
Proof.
  intro ops. repeat split.
  - apply (bmw_history T256 B32 bmw_initVal224 0x00 28 compress256_ok); [reflexivity|cbn; lia|reflexivity|reflexivity|reflexivity|split; [reflexivity|cbn; lia]|cbn; lia].
  - apply (bmw_history T256 B32 bmw_initVal256 0x40 32 compress256_ok); [reflexivity|cbn; lia|reflexivity|reflexivity|reflexivity|split; [reflexivity|cbn; lia]|cbn; lia].
  - apply (bmw_history T512 B64 bmw_initVal384 0x00 48 compress512_ok); [reflexivity|cbn; lia|reflexivity|reflexivity|reflexivity|split; [reflexivity|cbn; lia]|cbn; lia].
  - apply (bmw_history T512 B64 bmw_initVal512 0x80 64 compress512_ok); [reflexivity|cbn; lia|reflexivity|reflexivity|reflexivity|split; [reflexivity|cbn; lia]|cbn; lia].
Qed.
Theorem C100_bmw_oneshot : forall data,
  bmw_Sum T256 bmw_initVal224 28 data = bmw224 data /\ bmw_Sum T256 bmw_initVal256 32 data = bmw256 data /\
  bmw_Sum T512 bmw_initVal384 48 data = bmw384 data /\ bmw_Sum T512 bmw_initVal512 64 data = bmw512 data.
Proof.
  intro data. repeat split.
  - apply (bmw_oneshot T256 B32 bmw_initVal224 0x00 28 compress256_ok); [reflexivity|cbn; lia|reflexivity|reflexivity|reflexivity|split; [reflexivity|cbn; lia]|cbn; lia].
  - apply (bmw_oneshot T256 B32 bmw_initVal256 0x40 32 compress256_ok); [reflexivity|cbn; lia|reflexivity|reflexivity|reflexivity|split; [reflexivity|cbn; lia]|cbn; lia].
  - apply (bmw_oneshot T512 B64 bmw_initVal384 0x00 48 compress512_ok); [reflexivity|cbn; lia|reflexivity|reflexivity|reflexivity|split; [reflexivity|cbn; lia]|cbn; lia].
  - apply (bmw_oneshot T512 B64 bmw_initVal512 0x80 64 compress512_ok); [reflexivity|cbn; lia|reflexivity|reflexivity|reflexivity|split; [reflexivity|cbn; lia]|cbn; lia].
Qed.
(** Known answers of bmw_test.go. *)
From Coq Require Import String.
Open Scope string_scope.
Example C100_kat224 : bmw224 (hex "616263") = hex "246607792ad2625430c81e2c4ea1380add5b08fb8075daed4f401dbc".
Proof. vm_compute. reflexivity. Qed.
Example C100_kat_empty : bmw_Sum T256 bmw_initVal224 28 [] = hex "e57c183da7e2cd3e90258ca04499b222420f9b6797bbab131b4d286e".
Proof. vm_compute. reflexivity. Qed.
Example C100_kat512 : bmw512 (hex "cc") = hex "0309cd7a44e6022671e84c43cdb92f613931d1c6b71467c039034b1263c2bf92203e27604bc53fcea9c2df3b10862c9b6fb6e8c617754ef49a2b80f51c74acd3".
Proof. vm_compute. reflexivity. Qed.
Print Assumptions C100_bmw_histories.
