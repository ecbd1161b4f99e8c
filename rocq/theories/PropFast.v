(** PropFast.v -- final theorems about siphash, murmur3 and xxhash. *)
From Coq Require Import List NArith Arith Lia.
From Verif Require Import Base HashAPI Refine SpecSip Sip SpecMurmur Murmur SpecXxh Xxh.
Import ListNotations.

(** ** C22: every 16-byte key, every round counts (0 means the default 2 resp. 4), every requested
    size (8 gives 64-bit output, anything else 128-bit), every history of Write and Sum. *)
Theorem C22_siphash_contract : forall key cr dr hs ops, length key = 16 ->
  Forall op_bytes ops -> Forall no_reset ops ->
  exists d, sip_new key cr dr hs = Some d /\
  run sip_impl d ops =
  ideal_run (sip_spec (if cr =? 0 then 2 else cr) (if dr =? 0 then 4 else dr) (negb (hs =? 8)) key) [] ops.
Proof.
  intros key cr dr hs ops Hk Ho Hr. destruct (sip_new key cr dr hs) as [d|] eqn:E.
  - exists d. split; auto. exact (sip_contract_lemma key cr dr hs d ops E Ho Hr).
  - unfold sip_new in E. rewrite Hk in E. discriminate.
Qed.
Theorem C22_siphash_new_error_iff : forall key cr dr hs, sip_new key cr dr hs = None <-> length key <> 16.
Proof.
  intros. unfold sip_new. destruct (Nat.eqb_spec (length key) 16); cbn [negb]; split; intros; try discriminate; auto; lia.
Qed.
Example C22_nonvacuous :
  Forall no_reset [Write [1; 2; 3]%N; Sum []; Write (zeros 9); Sum []] /\
  sip_spec 2 4 false (zeros 16) [1; 2; 3]%N <> sip_spec 2 4 false (zeros 16) ([1; 2; 3]%N ++ zeros 9).
Proof. split. - repeat constructor; discriminate. - vm_compute. discriminate. Qed.

(** ** C23 *)
Theorem C23_siphash_reset_refuted : exists key m, length key = 16 /\
  forall d, sip_new key 0 0 8 = Some d ->
  run sip_impl d [Write m; Reset; Sum []] <> ideal_run (sip_spec 2 4 false key) [] [Write m; Reset; Sum []].
Proof.
  exists (map N.of_nat (seq 0 16)), (zeros 8). split; [reflexivity|]. intros d E.
  apply some_inj in E. subst d. vm_compute. discriminate.
Qed.
(** Exactly what happens: the words absorbed from the complete blocks written before Reset stay. *)
Theorem C23_siphash_reset_actual : forall key cr dr hs d m1 m2 inp, sip_new key cr dr hs = Some d -> isbytes m1 -> isbytes m2 ->
  let c := if cr =? 0 then 2 else cr in
  let s := fold_left (sip_compress c) (map le_val (chunks 8 m1)) (sip_init (negb (hs =? 8)) key) in
  run sip_impl d [Write m1; Reset; Write m2; Sum inp] =
  [Wrote (length m1); Wrote (length m2); Summed (inp ++ sip_from c (if dr =? 0 then 4 else dr) (negb (hs =? 8)) s m2)].
Proof. exact sip_reset_lemma. Qed.
(** The same for every history: [kept s m ops] is what a client of the object sees when the state words
    before the current message are [s] and [m] has been written since; a Reset moves [s] past the complete
    8-byte blocks of [m] instead of going back to the initial words. *)
Fixpoint kept (c d : nat) (wide : bool) (s : sstate) (m : list N) (ops : list op) : list obs :=
  match ops with
  | [] => []
  | Write p :: t => Wrote (length p) :: kept c d wide s (m ++ p) t
  | Sum i :: t => Summed (i ++ sip_from c d wide s m) :: kept c d wide s m t
  | Reset :: t => kept c d wide (fold_left (sip_compress c) (map le_val (chunks 8 m)) s) [] t
  end.
Theorem C23_siphash_actual : forall key cr dr hs d ops, sip_new key cr dr hs = Some d -> Forall op_bytes ops ->
  run sip_impl d ops =
  kept (if cr =? 0 then 2 else cr) (if dr =? 0 then 4 else dr) (negb (hs =? 8)) (sip_init (negb (hs =? 8)) key) [] ops.
Proof.
  intros key cr dr hs d ops Hn Ho. destruct (sip_new_rel _ _ _ _ _ Hn) as [Lk R0]. clear Hn Lk.
  change (if cr =? 0 then 2 else cr) with (sip_c cr). change (if dr =? 0 then 4 else dr) with (sip_d dr).
  change (negb (hs =? 8)) with (sip_wide hs).
  revert R0. generalize (sip_init (sip_wide hs) key) as s. generalize (@nil N) as m. revert d.
  induction ops as [|o ops IH]; intros d m s R; [reflexivity|].
  inversion Ho as [|? ? Hp Ho']; subst. destruct o as [p|i|]; cbn [run kept sip_impl i_write i_sum i_reset].
  - assert (C : snd (sip_write d p) = length p).
    { unfold sip_write. destruct (Verif.Buf.writeA _ _ _ _ _ _) as [[[? ?] ?] ?]. reflexivity. }
    pose proof (sip_write_rel _ _ _ _ _ _ _ Hp R) as R1. destruct (sip_write d p) as [d1 n1]. cbn [fst snd] in *. subst n1.
    f_equal. now apply IH.
  - unfold sip_sum. rewrite (sip_checksum_ok _ _ _ _ _ _ (sip_c_pos cr) R). f_equal. now apply IH.
  - apply IH; auto. destruct R as (A0 & A1 & A2 & A3 & A4 & A5 & A6 & A7).
    unfold sip_rel, sip_reset. cbn [ss sx snx slen shs scr sdr]. split; [constructor|]. repeat split; auto.
    + rewrite A6. change (chunks 8 []) with (@nil (list N)). cbn [fold_left]. 
      pose proof (chunks_all_length N 8 m ltac:(lia)) as F. clear - F. revert s.
      induction F as [|b l Hb F IH]; intros s; [reflexivity|].
      cbn [map fold_left]. rewrite sip_transform_ok by assumption. apply IH.
    + apply zeros_isbytes.
Qed.
(** So Reset is right when fewer than 8 bytes had been written. *)
Theorem C23_siphash_reset_short : forall key cr dr hs d m1 m2 inp, sip_new key cr dr hs = Some d -> isbytes m1 -> isbytes m2 ->
  length m1 < 8 ->
  run sip_impl d [Write m1; Reset; Write m2; Sum inp] =
  ideal_run (sip_spec (if cr =? 0 then 2 else cr) (if dr =? 0 then 4 else dr) (negb (hs =? 8)) key) [] [Write m1; Reset; Write m2; Sum inp].
Proof.
  intros key cr dr hs d m1 m2 inp Hn H1 H2 L. rewrite (C23_siphash_reset_actual key cr dr hs d m1 m2 inp Hn H1 H2).
  rewrite (chunks_short N 8 m1) by assumption. reflexivity.
Qed.

(** ** C26 *)
Theorem C26_murmur32_contract : forall seed ops, Forall op_bytes ops ->
  run mm32_impl (mm32_new seed) ops = ideal_run (fun m => be_bytes 4 (murmur32_spec seed m)) [] ops.
Proof. exact mm32_contract_lemma. Qed.
Theorem C26_murmur64_contract : forall seed ops, Forall op_bytes ops ->
  run mm64_impl (mm128_new seed) ops = ideal_run (fun m => be_bytes 8 (fst (murmur128_spec seed m))) [] ops.
Proof. exact mm64_contract_lemma. Qed.
Theorem C26_murmur128_contract : forall seed ops, Forall op_bytes ops ->
  run mm128_impl (mm128_new seed) ops =
  ideal_run (fun m => be_bytes 8 (fst (murmur128_spec seed m)) ++ be_bytes 8 (snd (murmur128_spec seed m))) [] ops.
Proof. exact mm128_contract_lemma. Qed.
(** The one-shot functions compute the same value. *)
Theorem C26_murmur_oneshot : forall seed data, isbytes data ->
  mm32_oneshot data seed = murmur32_spec seed data /\ mm128_oneshot data seed = murmur128_spec seed data.
Proof. exact (fun seed data H => conj (mm32_oneshot_lemma seed data H) (mm128_oneshot_lemma seed data H)). Qed.
Example C26_nonvacuous : Forall op_bytes [Write [1; 2; 3]%N; Sum []; Write (zeros 9); Sum []; Reset; Sum []] /\
  murmur32_spec 7 [1; 2; 3]%N <> murmur32_spec 7 ([1; 2; 3]%N ++ zeros 9).
Proof. split. - repeat constructor. - vm_compute. discriminate. Qed.

(** ** C27 *)
Theorem C27_xxhash32_contract : forall seed ops, Forall op_bytes ops -> (ops_total ops < 2 ^ 64)%N ->
  run x32_impl (x32_new seed) ops = ideal_run (fun m => be_bytes 4 (xxh32_spec seed m)) [] ops.
Proof. exact x32_contract_lemma. Qed.
Theorem C27_xxhash64_contract : forall seed ops, Forall op_bytes ops -> (ops_total ops < 2 ^ 64)%N ->
  run x64_impl (x64_new seed) ops = ideal_run (fun m => be_bytes 8 (xxh64_spec seed m)) [] ops.
Proof. exact x64_contract_lemma. Qed.
Theorem C27_xxhash_oneshot : forall seed data, isbytes data -> (N.of_nat (length data) < 2 ^ 64)%N ->
  x32_checksum data seed = xxh32_spec seed data /\ x64_checksum data seed = xxh64_spec seed data.
Proof. exact (fun seed data H L => conj (x32_oneshot_lemma seed data H L) (x64_oneshot_lemma seed data H L)). Qed.
Example C27_nonvacuous : let ops := [Write [1; 2; 3]%N; Sum []; Write (zeros 40); Sum []; Reset; Sum []] in
  Forall op_bytes ops /\ (ops_total ops < 2 ^ 64)%N /\
  xxh32_spec 7 [1; 2; 3]%N <> xxh32_spec 7 ([1; 2; 3]%N ++ zeros 40).
Proof. split; [|split]. - repeat constructor. - reflexivity. - vm_compute. discriminate. Qed.

(** ** C63: Size() against the number of bytes Sum appends *)
Theorem C63_murmur_size : forall seed ops, Forall op_bytes ops ->
  (forall inp, length (snd (mm32_sum (exec mm32_impl (mm32_new seed) ops) inp)) = length inp + mm32_size) /\
  (forall inp, length (snd (mm128_sum (exec mm128_impl (mm128_new seed) ops) inp)) = length inp + mm128_size).
Proof.
  intros. split; intros inp.
  - unfold mm32_sum. cbn [snd]. now rewrite app_length, be_bytes_length.
  - unfold mm128_sum. destruct (mm128_sum128 _). cbn [snd]. now rewrite !app_length, !be_bytes_length.
Qed.
Theorem C63_murmur64_size_refuted : forall d inp, length (snd (mm64_sum d inp)) <> length inp + mm64_size.
Proof. intros. unfold mm64_sum. cbn [snd]. rewrite app_length, be_bytes_length. unfold mm64_size. lia. Qed.

Print Assumptions C22_siphash_contract.
Print Assumptions C22_siphash_new_error_iff.
Print Assumptions C23_siphash_reset_refuted.
Print Assumptions C23_siphash_reset_actual.
Print Assumptions C23_siphash_actual.
Print Assumptions C26_murmur32_contract.
Print Assumptions C26_murmur64_contract.
Print Assumptions C26_murmur128_contract.
Print Assumptions C26_murmur_oneshot.
Print Assumptions C27_xxhash32_contract.
Print Assumptions C27_xxhash64_contract.
Print Assumptions C27_xxhash_oneshot.
Print Assumptions C63_murmur64_size_refuted.
