(** PropHaval.v -- C108: the haval package computes HAVAL, all fifteen variants, on every history. *)
From Coq Require Import List NArith Arith Lia Bool.
Require Import Verif.Base Verif.Words Verif.HashAPI Verif.Buf Verif.MD Verif.Bytes Verif.Refine Verif.LshP Verif.Md6P Verif.Kupyna Verif.PropRadio Verif.SpecHaval Verif.Haval Verif.PropHavalM.
Import ListNotations.
Local Open Scope nat_scope.

(** ** Padding *)
Section Digest.
Variable p o : nat.
Hypothesis Hp : pass_ok p.
Hypothesis Ho : olen_ok o.
Let B : N := (2 ^ 61)%N.
Definition hrel (d : dig (list N)) (m : list N) : Prop := dig_rel 128 (hv_block p) hvt_iv 1 d m.
Lemma w_rel : forall d m q, hrel d m -> hrel (fst (hv_write p d q)) (m ++ q).
Proof. intros. apply write_pre_rel; [lia|assumption]. Qed.
Lemma zeros_rel : forall n a d m, hrel d m -> hrel (fold_left (fun d _ => fst (hv_write p d [0%N])) (seq a n) d) (m ++ zeros n).
Proof.
  induction n as [|n IH]; intros a d m H; [cbn [seq fold_left]; change (zeros 0) with (@nil N); now rewrite app_nil_r|].
  cbn [seq]. rewrite fl_cons. change (zeros (S n)) with ([0%N] ++ zeros n). rewrite app_assoc. apply IH. now apply w_rel.
Qed.
Lemma pad_n : forall l : nat, (l mod 128 + 138) / 128 * 128 - 10 - (l mod 128 + 1) = (128 - (l + 1 + 10) mod 128) mod 128.
Proof.
  intro l. replace ((l + 1 + 10) mod 128) with ((l mod 128 + 11) mod 128) by (rewrite Nat.add_mod_idemp_l by lia; f_equal; lia).
  assert (H := Nat.mod_upper_bound l 128 ltac:(lia)). generalize dependent (l mod 128). intros x H.
  destruct (Nat.le_gt_cases (x + 11) 127) as [A|A].
  - rewrite (Nat.mod_small (x + 11)) by lia. replace ((x + 138) / 128) with 1 by (apply (Nat.div_unique _ 128 1 (x + 10)); lia). rewrite Nat.mod_small by lia. lia.
  - destruct (Nat.eq_dec x 117) as [->|Hx]; [reflexivity|].
    replace ((x + 11) mod 128) with (x - 117) by (apply (Nat.mod_unique _ 128 1); lia).
    replace ((x + 138) / 128) with 2 by (apply (Nat.div_unique _ 128 2 (x - 118)); lia). rewrite Nat.mod_small by lia. lia.
Qed.
Lemma le44 : forall c, le_bytes 4 (w32 c) ++ le_bytes 4 (w32 (N.shiftr c 32)) = le_bytes 8 c.
Proof.
  intro c. change 8 with (4 + 4). rewrite (le_bytes_app 4 4 c). rewrite !le_bytes4_w32. reflexivity.
Qed.
Lemma len_ok : forall l : nat, (N.of_nat l < B)%N -> shl64 (add64 (shl64 (w64 (1 * N.of_nat l) / 128) 7) (N.of_nat (l mod 128))) 3 = (8 * N.of_nat l)%N.
Proof.
  intros l H. subst B. change (2 ^ 61)%N with 2305843009213693952%N in H. rewrite N.mul_1_l. unfold shl64, add64. rewrite !w64_mod, !N.shiftl_mul_pow2. change (2 ^ 7)%N with 128%N. change (2 ^ 3)%N with 8%N.
  rewrite (N.mod_small (N.of_nat l)) by lia. replace (N.of_nat (l mod 128)) with (N.of_nat l mod 128)%N by now rewrite Nat2N.inj_mod.
  assert (E := N.div_mod (N.of_nat l) 128 ltac:(lia)). assert (M := N.mod_lt (N.of_nat l) 128 ltac:(lia)).
  generalize dependent (N.of_nat l mod 128)%N. generalize (N.of_nat l / 128)%N. intros q r E M.
  rewrite (N.mod_small (q * 128)) by lia. rewrite (N.mod_small (q * 128 + r)) by lia. rewrite N.mod_small by lia. lia.
Qed.
Lemma trailer_ok : forall l, hv_padBuf p o (8 * N.of_nat l) = hv_trailer p o l.
Proof.
  intro l. unfold hv_padBuf, hv_trailer. rewrite le44. f_equal.
  destruct Hp as [->|[->| ->]]; destruct Ho as [->|[->|[->|[->| ->]]]]; reflexivity.
Qed.
Lemma trailer_len : forall l, length (hv_trailer p o l) = 10.
Proof. intro l. unfold hv_trailer. now rewrite app_length, !le_bytes_length. Qed.
Lemma iv_st : st32 hvt_iv.
Proof. split; [reflexivity|]. repeat constructor. Qed.
Lemma checkSum_ok : forall d m, (N.of_nat (length m) < B)%N -> hrel d m -> hv_checkSum p o d = hv_hash p o m.
Proof.
  intros d m HB H. unfold hv_checkSum. cbv zeta.
  assert (En : dnx d = length m mod 128) by (eapply dig_nx; [lia|exact H]).
  assert (El : dlen d = w64 (1 * N.of_nat (length m))) by apply H.
  rewrite El, En, len_ok, trailer_ok, pad_n by exact HB.
  assert (H1 := w_rel _ _ (hv_trailer p o (length m)) (zeros_rel ((128 - (length m + 1 + 10) mod 128) mod 128) (length m mod 128 + 1) _ _ (w_rel _ _ [1%N] H))).
  destruct H1 as (E1 & _ & _). rewrite E1. clear E1.
  replace (((m ++ [1%N]) ++ zeros ((128 - (length m + 1 + 10) mod 128) mod 128)) ++ hv_trailer p o (length m)) with (hv_pad p o m)
    by (unfold hv_pad, md_pad; rewrite trailer_len, <- !app_assoc; reflexivity).
  destruct (fold_left_agree _ _ (hv_block p) (hv_f p) st32 (fun b => length b = 128)
     (fun a b A Q => proj1 (block_ok p a b Hp A Q)) (fun a b A Q => proj2 (block_ok p a b Hp A Q)) (chunks 128 (hv_pad p o m)) hvt_iv iv_st) as [E S].
  { apply chunks_all_length. lia. }
  unfold hv_hash. rewrite iv_ok, <- E. apply out_ok; assumption.
Qed.
Lemma new_rel : hrel hv_reset [].
Proof. apply dig_rel_new; [lia|reflexivity]. Qed.
Lemma history : forall ops, Forall op_bytes ops -> (ops_total ops < B)%N -> run (hv_impl p o) hv_reset ops = ideal_run (hv_hash p o) [] ops.
Proof.
  intros ops HF HB. apply run_refines_total with (R := hrel) (B := B).
  - intros d m q _ _ R. now apply w_rel.
  - intros d m q _ _ R. apply write_pre_count.
  - intros d m i R. exact R.
  - intros d m i HL R. cbn [i_sum hv_impl]. unfold hvd_sum. cbn [snd]. now rewrite (checkSum_ok d m HL R).
  - intros d m R. exact new_rel.
  - exact HF.
  - exact HB.
  - exact new_rel.
Qed.
Lemma oneshot : forall data, (N.of_nat (length data) < B)%N -> hv_Sum p o data = hv_hash p o data.
Proof.
  intros data HB. unfold hv_Sum. rewrite (checkSum_ok _ data HB (w_rel _ [] data new_rel)). assert (L : length (hv_hash p o data) = 4 * o) by (unfold hv_hash; apply out_length).
  rewrite copy_at_full by (rewrite zeros_length; lia). rewrite zeros_length, Nat.sub_0_r, <- L. cbn [firstn app]. apply firstn_all.
Qed.
End Digest.

(** The fifteen constructors New128_3 .. New256_5. *)
Definition haval_bits : list N := [128; 160; 192; 224; 256]%N.
Definition haval_passes : list N := [3; 4; 5]%N.
(** C108: every constructor succeeds, and its digest answers as the ideal HAVAL with that fingerprint length and number of
    passes on every history of Write, Sum and Reset. *)
Theorem C108_haval_histories : forall bits passes ops, In bits haval_bits -> In passes haval_passes ->
  Forall op_bytes ops -> (ops_total ops < 2 ^ 61)%N ->
  exists p o d, hv_newDigest bits passes = Some (p, o, d) /\ N.of_nat p = passes /\ (32 * N.of_nat o)%N = bits /\
    run (hv_impl p o) d ops = ideal_run (hv_hash p o) [] ops.
Proof.
  intros bits passes ops Hb Hp HF HB. exists (N.to_nat passes), (N.to_nat (N.shiftr bits 5)), hv_reset.
  assert (P : pass_ok (N.to_nat passes)) by (unfold pass_ok; cbn in Hp; intuition (subst; auto)).
  assert (O : olen_ok (N.to_nat (N.shiftr bits 5))) by (unfold olen_ok; cbn in Hb; intuition (subst; auto)).
  split; [|split; [|split]].
  - cbn in Hb, Hp. intuition (subst; reflexivity).
  - apply N2Nat.id.
  - clear - Hb. cbn in Hb. intuition (subst; reflexivity).
  - apply history; assumption.
Qed.
Theorem C108_haval_oneshot : forall p o data, In p [3; 4; 5] -> In o [4; 5; 6; 7; 8] -> isbytes data -> (N.of_nat (length data) < 2 ^ 61)%N ->
  hv_Sum p o data = hv_hash p o data /\ length (hv_hash p o data) = 4 * o.
Proof.
  intros p o data Hp Ho _ HB. split; [|unfold hv_hash; apply out_length].
  apply oneshot; [unfold pass_ok; cbn in Hp; intuition auto|unfold olen_ok; cbn in Ho; intuition auto|exact HB].
Qed.
(** Known answers (haval/haval_test.go): the specification on the empty message, through the theorem above. *)
Example haval_empty : be_val (hv_hash 3 4 []) = 0xC68F39913F901F3DDF44C707357A7D70%N /\
  be_val (hv_hash 4 5 []) = 0x1D33AAE1BE4146DBAACA0B6E70D7A11F10801525%N /\
  be_val (hv_hash 5 6 []) = 0x4839D0626F95935E17EE2FC4509387BBE2CC46CB382FFE85%N /\
  be_val (hv_hash 3 7 []) = 0xC5AAE9D47BFFCAAF84A8C6E7CCACD60A0DD1932BE7B1A192B9214B6D%N /\
  be_val (hv_hash 5 8 []) = 0xBE417BB4DD5CFB76C7126F4F8EEB1553A449039307B1A3CD451DBFDC0FBBE330%N.
Proof.
  rewrite <- (proj1 (C108_haval_oneshot 3 4 [] ltac:(cbn; auto) ltac:(cbn; auto) ltac:(constructor) ltac:(reflexivity))).
  rewrite <- (proj1 (C108_haval_oneshot 4 5 [] ltac:(cbn; auto) ltac:(cbn; auto) ltac:(constructor) ltac:(reflexivity))).
  rewrite <- (proj1 (C108_haval_oneshot 5 6 [] ltac:(cbn; auto) ltac:(cbn; auto) ltac:(constructor) ltac:(reflexivity))).
  rewrite <- (proj1 (C108_haval_oneshot 3 7 [] ltac:(cbn; auto) ltac:(cbn; auto 6) ltac:(constructor) ltac:(reflexivity))).
  rewrite <- (proj1 (C108_haval_oneshot 5 8 [] ltac:(cbn; auto) ltac:(cbn; auto 6) ltac:(constructor) ltac:(reflexivity))).
  repeat split; vm_compute; reflexivity.
Qed.
Example haval_hyps : let ops := [Write [1]; Sum [9]; Reset; Write [97]; Write [98; 99]; Sum []]%N in
  In 160%N haval_bits /\ In 4%N haval_passes /\ Forall op_bytes ops /\ (ops_total ops < 2 ^ 61)%N.
Proof. cbv zeta. split; [cbn; auto|split; [cbn; auto|split; [repeat constructor|reflexivity]]]. Qed.
Print Assumptions C108_haval_histories.
Print Assumptions C108_haval_oneshot.
