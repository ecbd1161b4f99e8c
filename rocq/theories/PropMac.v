(** PropMac.v -- final theorems about the MAC packages. *)
From Coq Require Import List NArith Arith Lia.
From Verif Require Import Base HashAPI SpecCmac Cmac.
Import ListNotations.

(** ** C16: for every 64-bit and 128-bit block cipher, every admissible tag size and every history *)
Theorem C16_cmac_contract_64 : forall E tag, block_cipher 8 E -> 0 < tag <= 8 ->
  exists d, cmac_new E 8 tag = Some d /\
  forall ops, run (cmac_impl E 8) d ops = ideal_run (cmac_spec E 8 0x1b tag) [] ops.
Proof. exact (fun E tag H => cmac_contract_lemma E 8 0x1b tag H eq_refl). Qed.
Theorem C16_cmac_contract_128 : forall E tag, block_cipher 16 E -> 0 < tag <= 16 ->
  exists d, cmac_new E 16 tag = Some d /\
  forall ops, run (cmac_impl E 16) d ops = ideal_run (cmac_spec E 16 0x87 tag) [] ops.
Proof. exact (fun E tag H => cmac_contract_lemma E 16 0x87 tag H eq_refl). Qed.
(** Constructor errors. *)
Theorem C16_cmac_new_error_iff : forall E bs tag,
  cmac_new E bs tag = None <-> (tag = 0 \/ bs < tag \/ ~ In bs [8; 16; 32; 64; 128]).
Proof. exact cmac_new_error_lemma. Qed.
(** A cipher satisfying the hypothesis (complement, then rotate the block by one byte). *)
Definition toy_cipher (x : list N) : list N := map (fun b => N.lxor (w8 b) 255) (skipn 1 x ++ firstn 1 x).
Lemma toy_is_block_cipher : forall bs, block_cipher bs toy_cipher.
Proof.
  intros bs x H. unfold toy_cipher. rewrite map_length, app_length, skipn_length, firstn_length.
  split; [lia|]. apply Forall_forall. intros y Hy. apply in_map_iff in Hy. destruct Hy as (z & <- & _).
  apply (Words.lxor_lt 8); [apply w8_lt|reflexivity].
Qed.
Example C16_nonvacuous : block_cipher 16 toy_cipher /\
  cmac_spec toy_cipher 16 0x87 16 [1; 2; 3]%N <> cmac_spec toy_cipher 16 0x87 16 [1; 2; 3; 0]%N.
Proof. split; [apply toy_is_block_cipher|]. vm_compute. discriminate. Qed.

(** For the large block sizes the package documents the polynomials 0x425 (256 bit),
    0x125 (512 bit) and 0x80043 (1024 bit); the code keeps only their low byte, so it does not
    compute the CMAC over those polynomials. *)
Theorem C16_cmac_large_blocks_refuted : forall bs R,
  (bs = 32 /\ R = 0x425%N) \/ (bs = 64 /\ R = 0x125%N) \/ (bs = 128 /\ R = 0x80043%N) ->
  exists E m, block_cipher bs E /\ cmac_Sum E bs m bs <> Some (cmac_spec E bs R bs m).
Proof.
  intros bs R H. exists toy_cipher, []. split; [apply toy_is_block_cipher|].
  destruct H as [[-> ->]|[[-> ->]|[-> ->]]]; vm_compute; discriminate.
Qed.
(** What it does compute there: the same construction with the truncated constant. *)
Theorem C16_cmac_large_blocks_actual : forall E bs R tag,
  (bs = 32 /\ R = 0x25%N) \/ (bs = 64 /\ R = 0x25%N) \/ (bs = 128 /\ R = 0x43%N) ->
  block_cipher bs E -> 0 < tag <= bs ->
  exists d, cmac_new E bs tag = Some d /\
  forall ops, run (cmac_impl E bs) d ops = ideal_run (cmac_spec E bs R tag) [] ops.
Proof.
  intros E bs R tag [[-> ->]|[[-> ->]|[-> ->]]] HE Ht.
  - exact (cmac_contract_lemma E 32 0x425 tag HE eq_refl Ht).
  - exact (cmac_contract_lemma E 64 0x125 tag HE eq_refl Ht).
  - exact (cmac_contract_lemma E 128 0x80043 tag HE eq_refl Ht).
Qed.

(** ** C17 *)
Theorem C17_cmac_verify_iff : forall E tag mac m,
  (block_cipher 8 E -> 0 < tag <= 8 ->
    (cmac_Verify E 8 mac m tag = true <-> mac = cmac_spec E 8 0x1b tag m)) /\
  (block_cipher 16 E -> 0 < tag <= 16 ->
    (cmac_Verify E 16 mac m tag = true <-> mac = cmac_spec E 16 0x87 tag m)).
Proof.
  exact (fun E tag mac m => conj (fun HE Ht => cmac_verify_lemma E 8 0x1b tag mac m HE eq_refl Ht)
                                 (fun HE Ht => cmac_verify_lemma E 16 0x87 tag mac m HE eq_refl Ht)).
Qed.
Example C17_nonvacuous : cmac_Verify toy_cipher 8 (cmac_spec toy_cipher 8 0x1b 8 [7]%N) [7]%N 8 = true
  /\ cmac_Verify toy_cipher 8 (cmac_spec toy_cipher 8 0x1b 8 [7]%N) [8]%N 8 = false.
Proof. vm_compute. split; reflexivity. Qed.

Print Assumptions C16_cmac_contract_64.
Print Assumptions C16_cmac_contract_128.
Print Assumptions C16_cmac_new_error_iff.
Print Assumptions C16_cmac_large_blocks_refuted.
Print Assumptions C16_cmac_large_blocks_actual.
Print Assumptions C17_cmac_verify_iff.
