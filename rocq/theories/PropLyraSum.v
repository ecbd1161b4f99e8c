(** PropLyraSum.v -- lyra2re.Sum and lyra2re2.Sum: theorems C113, C114. *)
From Coq Require Import List NArith Arith Lia.
Require Import Verif.Base Verif.SpecK12 Verif.SpecLyra Verif.Lyra Verif.LyraSum Verif.PropLyra.
Require Import Verif.SpecBlake Verif.Blake256 Verif.PropBlake Verif.SpecSkein Verif.Skein Verif.PropSkein Verif.SpecGroestl Verif.Groestl Verif.PropGroestl Verif.SpecCube Verif.Cube Verif.PropCube Verif.SpecBmw Verif.Bmw Verif.BmwTab Verif.PropBmw.
Import ListNotations.

(** The specifications.  [keccak] is the original Keccak-256. *)
Section Spec.
Variable keccak : list N -> list N.
(** Lyra2 as deployed in Lyra2RE version 1 (8 rows, 8 columns, time cost 1, password = salt = x of 32 bytes): the sponge absorbs
    x||x and a zero block. *)
Definition lyra2_v1 (x : list N) : list N := ly_run 8 8 32 1 (ly_absorb (zeros 8 ++ ly_iv) [ly_words (x ++ x); zeros 8]).
Definition skein512_256 (m : list N) : list N := skein V512 32 no_config m.
Definition cubehash_256 (m : list N) : list N := cubehash 160 16 32 160 256 m.
Definition lyra2re_spec (m : list N) : list N := groestl 32 (skein512_256 (lyra2_v1 (keccak (blake256_spec (zeros 16) m)))).
Definition lyra2re2_spec (m : list N) : list N :=
  let x := cubehash_256 (keccak (blake256_spec (zeros 16) m)) in
  bmw256 (cubehash_256 (skein512_256 (lyra2_spec 32 x x 1 4 4))).
End Spec.

Lemma run_len : forall R C n T st, length (ly_run R C n T st) <= n.
Proof. intros. unfold ly_run. cbv zeta. destruct (ly_passes _ _ _ _) as [[s p] r]. unfold ly_squeeze. apply firstn_le_length. Qed.
Lemma skein_len : forall v n c m, length (skein v n c m) <= n.
Proof. intros. unfold skein, skein_output. apply firstn_le_length. Qed.
Lemma skein_bytes : forall v n c m, isbytes (skein v n c m).
Proof.
  intros. unfold skein, skein_output. apply isbytes_firstn. unfold isbytes. apply Forall_forall. intros b H. apply in_flat_map in H. destruct H as (i & _ & H). unfold to_bytes in H. apply in_flat_map in H. destruct H as (w & _ & H).
  pose proof (le_bytes_isbytes 8 w) as K. unfold isbytes in K. rewrite Forall_forall in K. now apply K.
Qed.
Lemma v1_def : forall x, ly_run 8 8 (length (zeros 32)) (N.to_nat 1) (ly_absorb (zeros 8 ++ ly_iv) (ly_words (x ++ x) :: repeat (zeros 8) (2 - 1))) = lyra2_v1 x.
Proof. reflexivity. Qed.
Lemma v1_len : forall x, length (lyra2_v1 x) <= 32. Proof. intro. apply run_len. Qed.
Lemma skein_256_len : forall y, length (skein512_256 y) <= 32. Proof. intro. apply skein_len. Qed.
Lemma skein_256_bytes : forall y, isbytes (skein512_256 y). Proof. intro. apply skein_bytes. Qed.
Lemma skein_step : forall m, length m <= 32 -> Sum256 m [] = Some (skein512_256 m).
Proof.
  intros m H. assert (B : (N.of_nat (length m) < 2 ^ 64)%N) by (change (2 ^ 64)%N with 18446744073709551616%N; lia).
  pose proof (C42_skein_oneshot m [] B eq_refl) as (_ & _ & E & _). exact E.
Qed.
Lemma cube_step : forall m, lre_cubehash256 m = cubehash_256 m.
Proof.
  intro m. unfold lre_cubehash256. pose proof (C88_cubehash_histories SH256) as K.
  assert (G : ch_good SH256) by (pose proof C88_cubehash_constructors as HC; rewrite Forall_forall in HC; apply HC; cbn [In]; tauto).
  specialize (K G [HashAPI.Write m; HashAPI.Sum []]). cbn [HashAPI.run HashAPI.ideal_run] in K. unfold ch_impl in K. cbn [HashAPI.i_write HashAPI.i_sum] in K.
  destruct (ch_write SH256 (ch_new SH256) m) as [d n]. cbn [fst]. destruct (ch_sum SH256 d []) as [d' o]. cbn [snd app] in *. injection K as _ K. exact K.
Qed.

Lemma cube_len : forall b, length (cubehash_256 b) = 32.
Proof.
  intro b. assert (G : ch_good SH256) by (pose proof C88_cubehash_constructors as HC; rewrite Forall_forall in HC; apply HC; cbn [In]; tauto).
  change (cubehash_256 b) with (ch_spec SH256 b). rewrite (ch_spec_length SH256 b G). reflexivity.
Qed.
Lemma bmw_step : forall z, bmw_Sum T256 bmw_initVal256 32 z = bmw256 z.
Proof. intro z. exact (proj1 (proj2 (C100_bmw_oneshot z))). Qed.
Lemma lyra_step : forall x, length x = 32 -> lm_Lyra2 8 (zeros 32) x x 1 4 4 = Ok (lyra2_spec 32 x x 1 4 4).
Proof.
  intros x L. assert (B : blocks_of x x = 2) by (unfold blocks_of; rewrite L; reflexivity).
  apply (C109_lyra2re2_lyra2 (zeros 32) x x 1 4 4); rewrite ?L, ?B; try reflexivity; lia.
Qed.
Lemma lyra_len : forall x, length (lyra2_spec 32 x x 1 4 4) <= 32.
Proof. intro x. unfold lyra2_spec. apply run_len. Qed.
Lemma compose2 : forall (ch1 ch2 : list N -> list N) (ly : list N -> outcome (list N)) (lys : list N -> list N) (sk : list N -> option (list N)) (sks bm bms : list N -> list N),
  (forall b, ch1 b = ch2 b) -> (forall b, length (ch2 b) = 32) -> (forall x, length x = 32 -> ly x = Ok (lys x)) -> (forall x, length (lys x) <= 32) ->
  (forall x, length x <= 32 -> sk x = Some (sks x)) -> (forall x, bm x = bms x) ->
  forall b, obind (ly (ch1 b)) (fun l => obind (of_opt (sk l)) (fun s => Ok (bm (ch1 s)))) = Ok (bms (ch2 (sks (lys (ch2 b))))).
Proof. intros ch1 ch2 ly lys sk sks bm bms H1 H2 H3 H4 H5 H6 b. rewrite H1, H3 by apply H2. cbn [obind]. rewrite H5 by apply H4. cbn [of_opt obind]. now rewrite H1, H6. Qed.
Opaque lre_cubehash256 cubehash_256 bmw_Sum bmw256 lm_Lyra2 lyra2_spec Sum256 skein512_256 b256_Sum blake256_spec lyra2_v1 gro_Sum groestl.
Theorem C113_lyra2re_sum : forall keccak, (forall m, length (keccak m) = 32) -> forall data, lre_Sum keccak data = Ok (lyra2re_spec keccak data).
Proof.
  intros keccak HK data. unfold lre_Sum, lyra2re_spec. cbv zeta. rewrite (proj1 (C34_blake256_oneshot data)).
  pose proof (HK (blake256_spec (zeros 16) data)) as L. set (x := keccak (blake256_spec (zeros 16) data)) in *. clearbody x.
  assert (B : blocks_of x x = 2) by (unfold blocks_of; rewrite L; reflexivity).
  rewrite (C111_lyra2re_lyra2 (zeros 32) x x 1 8 8) by (rewrite ?L, ?B; try reflexivity; try lia).
  rewrite v1_blocks by (rewrite ?L; try reflexivity; lia). rewrite B. rewrite (firstn_all2 (n := 64)) by (rewrite app_length; lia).
  replace (ly_run 8 8 (length (zeros 32)) (N.to_nat 1) (ly_absorb (zeros 8 ++ ly_iv) (ly_words (x ++ x) :: repeat (zeros 8) (2 - 1)))) with (lyra2_v1 x) by (symmetry; apply v1_def).
  assert (L1 : length (lyra2_v1 x) <= 32) by apply v1_len. set (y := lyra2_v1 x) in *. clearbody y. cbn [obind]. rewrite skein_step by exact L1. cbn [of_opt obind].
  pose proof (skein_256_len y) as L2. pose proof (skein_256_bytes y) as Y. set (z := skein512_256 y) in *. clearbody z.
  rewrite (C101_groestl_oneshot 32 z) by (try exact Y; try lia; change (2 ^ 64)%N with 18446744073709551616%N; lia). reflexivity.
Qed.
Theorem C114_lyra2re2_sum : forall keccak, (forall m, length (keccak m) = 32) -> forall data, lre2_Sum keccak data = Ok (lyra2re2_spec keccak data).
Proof.
  intros keccak HK data. unfold lre2_Sum, lyra2re2_spec. cbv zeta. rewrite (proj1 (C34_blake256_oneshot data)).
  exact (compose2 lre_cubehash256 cubehash_256 (fun x => lm_Lyra2 8 (zeros 32) x x 1 4 4) (fun x => lyra2_spec 32 x x 1 4 4) (fun l => Sum256 l []) skein512_256
    (fun z => bmw_Sum T256 bmw_initVal256 32 z) bmw256 cube_step cube_len lyra_step lyra_len skein_step bmw_step (keccak (blake256_spec (zeros 16) data))).
Qed.
(** The hypothesis on keccak is that its digest has 32 bytes; Keccak-256 itself (rate 136, padding 0x01 ... 0x80) as an instance. *)
Definition keccak256_pad (m : list N) : list N :=
  let z := m ++ 0x01%N :: zeros (135 - length m mod 136) in removelast z ++ [N.lxor (last z 0%N) 0x80].
Definition keccak256 (m : list N) : list N :=
  let A := SpecK12.sp_absorb (SpecK12.keccak_p 24) (zeros 25) (chunks 136 (keccak256_pad m)) in map (fun j => at_ (SpecK12.sp_bytes A) j) (seq 0 32).
Theorem C113_C114_keccak256 : forall data, lre_Sum keccak256 data = Ok (lyra2re_spec keccak256 data) /\ lre2_Sum keccak256 data = Ok (lyra2re2_spec keccak256 data).
Proof. intro data. split; [apply C113_lyra2re_sum|apply C114_lyra2re2_sum]; reflexivity. Qed.
Example keccak256_empty : firstn 8 (keccak256 []) = [0xc5; 0xd2; 0x46; 0x01; 0x86; 0xf7; 0x23; 0x3c]%N.
Proof. vm_compute. reflexivity. Qed.
