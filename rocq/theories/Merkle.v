(** Merkle.v -- facts about the Merkle-Damgard padding used by sm3, sha0, ripemd, tiger,
    has160 (C10). *)
From Coq Require Import List NArith Arith Lia.
From Verif Require Import Base Buf.
Import ListNotations.

Lemma len_enc_inj : forall (enc : nat -> N -> list N), (enc = le_bytes \/ enc = be_bytes) ->
  forall m1 m2 : list N,
  (N.of_nat (length m1) < 2 ^ 61)%N -> (N.of_nat (length m2) < 2 ^ 61)%N ->
  enc 8 (8 * N.of_nat (length m1))%N = enc 8 (8 * N.of_nat (length m2))%N -> length m1 = length m2.
Proof.
  intros enc Henc m1 m2 H1 H2 E.
  assert (B : forall n, (n < 2 ^ 61)%N -> (8 * n < 256 ^ N.of_nat 8)%N).
  { intros n Hn. change (256 ^ N.of_nat 8)%N with (8 * 2 ^ 61)%N. lia. }
  assert (K : (8 * N.of_nat (length m1) = 8 * N.of_nat (length m2))%N).
  { destruct Henc as [-> | ->]; [apply (le_bytes_inj 8) in E | apply (be_bytes_inj 8) in E]; auto. }
  lia.
Qed.

Lemma chunks_whole_inj : forall n (a b : list N), 0 < n -> length a mod n = 0 -> length b mod n = 0 ->
  chunks n a = chunks n b -> a = b.
Proof.
  intros n a b Hn Ha Hb E.
  rewrite <- (chunks_concat _ n a Hn), <- (chunks_concat _ n b Hn), E.
  now rewrite !rest_0 by auto.
Qed.

Lemma md_pad_blocks_inj : forall (enc : nat -> N -> list N) marker m1 m2,
  (enc = le_bytes \/ enc = be_bytes) ->
  (N.of_nat (length m1) < 2 ^ 61)%N -> (N.of_nat (length m2) < 2 ^ 61)%N ->
  chunks 64 (md_pad 64 marker (enc 8 (8 * N.of_nat (length m1))%N) m1)
  = chunks 64 (md_pad 64 marker (enc 8 (8 * N.of_nat (length m2))%N) m2) -> m1 = m2.
Proof.
  intros enc marker m1 m2 Henc H1 H2 E.
  apply chunks_whole_inj in E; [|lia|apply md_pad_length; lia|apply md_pad_length; lia].
  apply (md_pad_inj 64 marker (fun m => enc 8 (8 * N.of_nat (length m))%N) 8 m1 m2); auto; [lia| |].
  - intros m. destruct Henc as [-> | ->]; [apply le_bytes_length | apply be_bytes_length].
  - now apply len_enc_inj.
Qed.

Lemma md_pad_whole : forall (enc : nat -> N -> list N) marker m,
  concat (chunks 64 (md_pad 64 marker (enc 8 (8 * N.of_nat (length m))%N) m))
  = md_pad 64 marker (enc 8 (8 * N.of_nat (length m))%N) m.
Proof.
  intros. rewrite <- (chunks_concat _ 64 (md_pad _ _ _ _)) at 2 by lia.
  rewrite rest_0 by (try apply md_pad_length; lia). now rewrite app_nil_r.
Qed.
