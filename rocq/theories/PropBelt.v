(** PropBelt.v -- final theorems about package belt. *)
From Coq Require Import List NArith Arith Lia Bool.
From Verif Require Import Base Words HashAPI Buf MD Refine SpecCmac Cmac SpecBelt Belt.
Import ListNotations.

(** ** C38: belt.New() is the STB 34.101.31 hash under every call history. *)
Theorem C38_belt_contract : forall ops, run belt_impl belt_new ops = ideal_run belt_hash [] ops.
Proof. intros ops. apply belt_refines. rewrite belt_new_eq. apply dig_rel_new; [lia|reflexivity]. Qed.
Transparent belt_s2.
Lemma belt_hash_len : forall m, length (belt_hash m) <= 32.
Proof.
  intros m. unfold belt_hash. destruct (fold_left belt_step _ _) as [s h]. unfold belt_s2. rewrite app_length, !xorblk_len, !belt_F_len. lia.
Qed.
Opaque belt_s2.
(** and the one-shot belt.Sum is the same function. *)
Theorem C38_belt_oneshot : forall data, belt_Sum data = belt_hash data.
Proof.
  intros data. pose proof (C38_belt_contract [Write data; Sum []]) as E. cbn [run ideal_run app] in E.
  destruct (i_write belt_impl belt_new data) as [d' n] eqn:EW. destruct (i_sum belt_impl d' []) as [d2 o] eqn:ES.
  assert (Eo : o = belt_hash data) by congruence.
  unfold belt_Sum. rewrite EW. cbn [fst]. rewrite ES. cbn [snd]. rewrite Eo. apply firstn_all2.
  apply belt_hash_len.
Qed.
Example C38_nonvacuous : belt_hash [] <> belt_hash [0]%N /\ belt_hash (zeros 32) <> belt_hash (zeros 31).
Proof. split; vm_compute; discriminate. Qed.

(** ** C39: the block cipher inside: decryption inverts encryption on every 16-byte block, and conversely,
    for every key, and encryption is the standard's F. *)
Theorem C39_belt_decrypt_encrypt : forall key x, length x = 16 -> isbytes x -> belt_decrypt (belt_encrypt x key) key = x.
Proof. intros key x L B. now apply belt_dec_enc. Qed.
Theorem C39_belt_encrypt_decrypt : forall key x, length x = 16 -> isbytes x -> belt_encrypt (belt_decrypt x key) key = x.
Proof. intros key x L B. now apply belt_enc_dec. Qed.
Theorem C39_belt_encrypt_is_standard : forall key x,
  belt_encrypt x key = belt_F key x /\ length (belt_encrypt x key) = 16 /\ isbytes (belt_encrypt x key).
Proof. intros key x. split; [apply belt_encrypt_ok|apply belt_encrypt_wf]. Qed.
Example C39_nonvacuous : belt_encrypt (zeros 16) (zeros 32) <> zeros 16 /\
  belt_decrypt (be_bytes 16 0x69CCA1C93557C9E3D66BC3E0FA88FA6E) (slice belt_H 128 160) = firstn 16 belt_H.
Proof. split; [vm_compute; discriminate|vm_compute; reflexivity]. Qed.
