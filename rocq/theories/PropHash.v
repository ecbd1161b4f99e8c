(** PropHash.v -- final theorems for the Merkle-Damgard style packages
    (C01-C10, C59).  [run impl new ops] is what the modelled code lets a client
    observe, [ideal_run spec [] ops] is what the English property says it should. *)
From Coq Require Import List NArith Arith Lia.
From Verif Require Import Base HashAPI Buf MD Merkle.
From Verif Require Import SpecMd2 Md2 SpecSm3 Sm3 SpecSha0 Sha0 SpecRipemd Ripemd SpecTiger Tiger SpecHas160 Has160.
Import ListNotations.

(** ** C01 *)
Theorem C01_md2_hash_contract : forall ops, run md2_impl md2_new ops = ideal_run rfc1319_md2 [] ops.
Proof. exact (fun ops => md2_history_lemma ops md2_new [] md2_new_rel). Qed.
Theorem C01_md2_oneshot : forall m, md2_Sum m = rfc1319_md2 m /\ length (md2_Sum m) = 16.
Proof. exact (fun m => conj (md2_Sum_ok m) (eq_trans (f_equal (@length N) (md2_Sum_ok m)) (rfc1319_md2_length m))). Qed.

(** ** C02: snapshot after any history, restored into any reachable receiver *)
Theorem C02_md2_marshal_roundtrip : forall before receiver_history,
  exists d', md2_unmarshal (exec md2_impl md2_new receiver_history)
                           (md2_marshal (exec md2_impl md2_new before)) = inl d' /\
  forall after, run md2_impl d' after = run md2_impl (exec md2_impl md2_new before) after /\
                run md2_impl d' after = ideal_run rfc1319_md2 (history [] before) after.
Proof. exact md2_roundtrip_lemma. Qed.

(** ** C03 *)
Theorem C03_md2_unmarshal_accepts_iff : forall r b,
  (exists d', md2_unmarshal r b = inl d') <-> (firstn 4 b = [109; 100; 50; 3]%N /\ length b = 92).
Proof. exact md2_unmarshal_rejects_lemma. Qed.

(** ** C04 *)
Theorem C04_sm3_hash_contract : forall ops, run sm3_impl sm3_new ops = ideal_run sm3_spec [] ops.
Proof. exact (fun ops => sm3_history_lemma ops sm3_new [] sm3_new_rel). Qed.
Theorem C04_sm3_oneshot : forall m, sm3_Sum m = sm3_spec m.
Proof. exact sm3_Sum_ok. Qed.

(** ** C05 *)
Theorem C05_sm3_marshal_roundtrip : forall before receiver_history,
  exists d', sm3_unmarshal (exec sm3_impl sm3_new receiver_history)
                           (sm3_marshal (exec sm3_impl sm3_new before)) = inl d' /\
  forall after, run sm3_impl d' after = run sm3_impl (exec sm3_impl sm3_new before) after /\
                run sm3_impl d' after = ideal_run sm3_spec (history [] before) after.
Proof. exact sm3_roundtrip_lemma. Qed.
Theorem C05_sm3_unmarshal_accepts_iff : forall r b,
  (exists d', sm3_unmarshal r b = inl d') <-> (firstn 4 b = [115; 109; 51; 3]%N /\ length b = 108).
Proof. exact sm3_unmarshal_rejects_lemma. Qed.

(** ** C06 *)
Theorem C06_sha0_hash_contract : forall ops, run sha0_impl sha0_new ops = ideal_run sha0_spec [] ops.
Proof. exact (fun ops => sha0_history_lemma ops sha0_new [] sha0_new_rel). Qed.

(** ** C07 *)
Theorem C07_ripemd128_hash_contract : forall ops,
  run rmd128_impl (rmd_new rmd128_iv) ops = ideal_run ripemd128_spec [] ops.
Proof. exact rmd128_history_lemma. Qed.
Theorem C07_ripemd160_hash_contract : forall ops,
  run rmd160_impl (rmd_new rmd160_iv) ops = ideal_run ripemd160_spec [] ops.
Proof. exact rmd160_history_lemma. Qed.
Theorem C07_ripemd256_hash_contract : forall ops,
  run rmd256_impl (rmd_new rmd256_iv) ops = ideal_run ripemd256_spec [] ops.
Proof. exact rmd256_history_lemma. Qed.
Theorem C07_ripemd320_hash_contract : forall ops,
  run rmd320_impl (rmd_new rmd320_iv) ops = ideal_run ripemd320_spec [] ops.
Proof. exact rmd320_history_lemma. Qed.

(** ** C08: hs is the digest size chosen by the constructor (16, 20 or 24), ver 1 is
    Tiger, anything else Tiger2. *)
Theorem C08_tiger_hash_contract : forall hs ops,
  run (tiger_impl hs 1) tiger_new ops = ideal_run (tiger_spec 0x01 hs) [] ops /\
  run (tiger_impl hs 2) tiger_new ops = ideal_run (tiger_spec 0x80 hs) [] ops.
Proof. exact (fun hs ops => conj (tiger_history_lemma hs 1 ops) (tiger_history_lemma hs 2 ops)). Qed.
Theorem C08_tiger_sboxes_are_generated :
  tiger_sboxes = (TigerTab.tiger_t1, TigerTab.tiger_t2, TigerTab.tiger_t3, TigerTab.tiger_t4).
Proof. exact tiger_tables_ok. Qed.

(** ** C09 *)
Theorem C09_has160_hash_contract : forall ops,
  run has160_impl has160_new ops = ideal_run has160_spec [] ops.
Proof. exact has160_history_lemma. Qed.

(** ** C10: the padding of all the specifications above *)
Theorem C10_padding_injective : forall (enc : nat -> N -> list N) marker m1 m2,
  (enc = le_bytes \/ enc = be_bytes) ->
  (N.of_nat (length m1) < 2 ^ 61)%N -> (N.of_nat (length m2) < 2 ^ 61)%N ->
  chunks 64 (md_pad 64 marker (enc 8 (8 * N.of_nat (length m1))%N) m1)
  = chunks 64 (md_pad 64 marker (enc 8 (8 * N.of_nat (length m2))%N) m2) -> m1 = m2.
Proof. exact md_pad_blocks_inj. Qed.
Theorem C10_padding_whole_blocks : forall (enc : nat -> N -> list N) marker m,
  concat (chunks 64 (md_pad 64 marker (enc 8 (8 * N.of_nat (length m))%N) m))
  = md_pad 64 marker (enc 8 (8 * N.of_nat (length m))%N) m.
Proof. exact md_pad_whole. Qed.
(** The hypotheses are met by distinct short messages, whose paddings differ. *)
Example C10_nonvacuous :
  (N.of_nat (length [1%N]) < 2 ^ 61)%N /\
  md_pad 64 0x80 (be_bytes 8 8) [1%N] <> md_pad 64 0x80 (be_bytes 8 16) [1; 0x80]%N.
Proof. split; [reflexivity|]. vm_compute. discriminate. Qed.

(** ** C59 *)
Theorem C59_sm3_round_constants : forall j, j < 64 ->
  at_ sm3_tSbox j = rotl32 (if j <=? 15 then 0x79cc4519%N else 0x7a879d8a%N) (N.of_nat (j mod 32)).
Proof. exact sm3_tSbox_ok. Qed.
Theorem C59_sm3_generated_table : sm3_GenT = sm3_tSbox.
Proof. exact sm3_GenT_ok. Qed.

Print Assumptions C01_md2_hash_contract.
Print Assumptions C02_md2_marshal_roundtrip.
Print Assumptions C04_sm3_hash_contract.
Print Assumptions C05_sm3_marshal_roundtrip.
Print Assumptions C06_sha0_hash_contract.
Print Assumptions C07_ripemd128_hash_contract.
Print Assumptions C07_ripemd160_hash_contract.
Print Assumptions C07_ripemd256_hash_contract.
Print Assumptions C07_ripemd320_hash_contract.
Print Assumptions C08_tiger_hash_contract.
Print Assumptions C08_tiger_sboxes_are_generated.
Print Assumptions C09_has160_hash_contract.
Print Assumptions C10_padding_injective.
Print Assumptions C59_sm3_round_constants.
