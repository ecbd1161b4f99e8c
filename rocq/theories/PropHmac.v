(** PropHmac.v -- HMAC over the library's constructors (C141). *)
From Coq Require Import List NArith Arith Lia Bool.
From Verif Require Import Base Words HashAPI SpecMd2 Md2 SpecSm3 MD Sm3 SpecBlake Blake256 Blake256P Blake512 Blake512P SpecHas160 SpecTiger SpecLsh.
From Verif Require Import PropHash PropBlake Fluent PropFluent Hmac.
Import ListNotations.

(** The constructors with their BlockSize() (md2/digest.go:12, sm3/digest.go:7, has160/digest.go:7,
    tiger/digest.go:9, blake256/digest.go:11, blake512/digest.go:11, lsh256/lsh256.go:15,
    lsh512/lsh512.go:18) and their MarshalBinary, UnmarshalBinary (md2, sm3, blake256, blake512:
    binary.go; the others have none). *)
Definition unm {S E} (u : S -> list N -> S + E) : S -> list N -> option S :=
  fun r b => match u r b with inl d => Some d | inr _ => None end.
Definition hlib (x : meth) : ctor :=
  match x with
  | MD2 => mkctor (mkalg _ md2_impl md2_new) 16 (Some (md2_marshal, unm md2_unmarshal))
  | SM3 => mkctor (mkalg _ sm3_impl sm3_new) 64 (Some (sm3_marshal, unm sm3_unmarshal))
  | Blake224 => mkctor (mkalg _ (b256_impl 224 b256_iv224) (b256_new b256_iv224)) 64 (Some (b256_marshal, unm b256_unmarshal))
  | Blake256 => mkctor (mkalg _ (b256_impl 256 b256_iv256) (b256_new b256_iv256)) 64 (Some (b256_marshal, unm b256_unmarshal))
  | Blake384 => mkctor (mkalg _ (b512_impl 48 b512_iv384) (b512_new b512_iv384)) 128 (Some (b512_marshal, unm b512_unmarshal))
  | Blake512 => mkctor (mkalg _ (b512_impl 64 b512_iv512) (b512_new b512_iv512)) 128 (Some (b512_marshal, unm b512_unmarshal))
  | HAS160 | Tiger | Tiger2 => mkctor (lib x) 64 None
  | LSH256 | LSH256_224 => mkctor (lib x) 128 None
  | LSH512 | LSH512_384 | LSH512_256 | LSH512_224 => mkctor (lib x) 256 None
  end.
(** The published block lengths, in bytes. *)
Definition block_length (x : meth) : nat :=
  match x with
  | MD2 => 16
  | SM3 | HAS160 | Tiger | Tiger2 | Blake224 | Blake256 => 64
  | Blake384 | Blake512 | LSH256 | LSH256_224 => 128
  | LSH512 | LSH512_384 | LSH512_256 | LSH512_224 => 256
  end.
Lemma hlib_alg : forall x, c_alg (hlib x) = lib x.
Proof. intros x. destruct x; cbn [hlib c_alg lib]; reflexivity. Qed.
Lemma hlib_bs : forall x, c_bs (hlib x) = block_length x.
Proof. intros x. destruct x; reflexivity. Qed.

Lemma md2_sound : sound (hlib MD2) rfc1319_md2.
Proof.
  exists md2_rel. cbn [hlib c_alg c_mar a_impl a_new md2_impl i_write i_sum i_reset].
  split; [exact md2_new_rel|]. split; [|split; [|split]].
  - intros s m p R. split; [now apply md2_write_rel|apply md2_write_count].
  - intros s m i R. pose proof (md2_history_lemma [Sum i] s m R) as K. cbn [run ideal_run md2_impl i_sum] in K. unfold md2_impl in K. cbn [i_sum] in K.
    assert (E : fst (md2_sum s i) = s) by reflexivity. destruct (md2_sum s i) as [s' o]. cbn [fst snd] in *. subst s'. split; [exact R|]. injection K. auto.
  - intros s m R. exact md2_new_rel.
  - intros s m r m' R1 R2. destruct (md2_rel_lengths r m' R2) as (L1 & L2 & L3).
    destruct (md2_unmarshal_marshal_lemma s m r R1 L1 L2 L3) as (d & E & Rd). exists d. unfold unm. rewrite E. auto.
Qed.
Lemma sm3_sound : sound (hlib SM3) sm3_spec.
Proof.
  exists sm3_rel. cbn [hlib c_alg c_mar a_impl a_new sm3_impl i_write i_sum i_reset].
  split; [exact sm3_new_rel|]. split; [|split; [|split]].
  - intros s m p R. split; [now apply sm3_write_rel|]. rewrite (sm3_write_eq s m p R). apply write_pre_count.
  - intros s m i R. split; [exact R|]. unfold sm3_sum. cbn [snd]. now rewrite (sm3_checkSum_ok s m).
  - intros s m R. exact sm3_new_rel.
  - intros s m r m' R1 R2. destruct (R2) as (_ & (L & _) & _).
    destruct (sm3_unmarshal_marshal_lemma s m r R1 L) as (d & E & Rd). exists d. unfold unm. rewrite E. auto.
Qed.
Lemma zeros_wide (P : N -> Prop) : P 0%N -> Forall P (zeros 4).
Proof. intros H. repeat constructor; exact H. Qed.
Lemma b256_sound : forall hs iv H, length iv = 8 -> Forall is32 iv -> (hs = 224 \/ hs = 256) -> (forall m, H m = b256_spec iv hs (zeros 4) m) ->
  sound (mkctor (mkalg _ (b256_impl hs iv) (b256_new iv)) 64 (Some (b256_marshal, unm b256_unmarshal))) H.
Proof.
  intros hs iv H Li Wi Hh HE. exists (b256_rel (zeros 4) iv). cbn [c_alg c_mar a_impl a_new b256_impl i_write i_sum i_reset].
  split; [exact (b256_new_rel iv)|]. split; [|split; [|split]].
  - intros s m p R. split; [now apply b256_write_rel|apply b256_write_count].
  - intros s m i R. split; [exact R|]. unfold b256_sum. cbn [snd]. f_equal. rewrite HE. now apply b256_checkSum_ok.
  - intros s m R. exact (b256_new_rel iv).
  - intros s m r m' R1 R2. destruct R2 as (_ & _ & (L & _) & _).
    destruct (b256_unmarshal_marshal (zeros 4) iv s m r) as (d & E & Rd); [|exact R1|exact L|exists d; unfold unm; rewrite E; auto].
    repeat split; auto. apply zeros_wide. reflexivity.
Qed.
Lemma b512_sound : forall hs iv H, length iv = 8 -> Forall is64 iv -> (hs = 48 \/ hs = 64) -> (forall m, H m = b512_spec iv hs (zeros 4) m) ->
  sound (mkctor (mkalg _ (b512_impl hs iv) (b512_new iv)) 128 (Some (b512_marshal, unm b512_unmarshal))) H.
Proof.
  intros hs iv H Li Wi Hh HE. exists (b512_rel (zeros 4) iv). cbn [c_alg c_mar a_impl a_new b512_impl i_write i_sum i_reset].
  split; [exact (b512_new_rel iv)|]. split; [|split; [|split]].
  - intros s m p R. split; [now apply b512_write_rel|apply b512_write_count].
  - intros s m i R. split; [exact R|]. unfold b512_sum. cbn [snd]. f_equal. rewrite HE. now apply b512_checkSum_ok.
  - intros s m R. exact (b512_new_rel iv).
  - intros s m r m' R1 R2. destruct R2 as (_ & _ & (L & _) & _).
    destruct (b512_unmarshal_marshal (zeros 4) iv s m r) as (d & E & Rd); [|exact R1|exact L|exists d; unfold unm; rewrite E; auto].
    repeat split; auto. apply zeros_wide. reflexivity.
Qed.
Lemma hlib_sound : forall x, sound (hlib x) (named x).
Proof.
  intros x. destruct x; cbn [hlib]; try (apply meets_sound; apply lib_meets).
  - exact md2_sound.
  - exact sm3_sound.
  - apply b256_sound; [reflexivity|repeat constructor|auto|]. intros m. cbn [named]. rewrite b256_spec_224, zero_salt. reflexivity.
  - apply b256_sound; [reflexivity|repeat constructor|auto|]. intros m. cbn [named]. rewrite b256_spec_256, zero_salt. reflexivity.
  - apply b512_sound; [reflexivity|repeat constructor|auto|]. intros m. cbn [named]. rewrite b512_spec_384, zero_salt64. reflexivity.
  - apply b512_sound; [reflexivity|repeat constructor|auto|]. intros m. cbn [named]. rewrite b512_spec_512, zero_salt64. reflexivity.
Qed.

(** ** C141.  Any constructor: every history of calls on hmac.New(h, key). *)
Theorem C141_hmac_any : forall c H key ops, sound c H ->
  run (a_impl (c_alg (hmac_of c key))) (a_new (c_alg (hmac_of c key))) ops = ideal_run (rfc2104 H (c_bs c) key) [] ops.
Proof. intros c H key ops S. exact (sound_meets _ _ (hmac_sound c H key S) ops). Qed.
(** A constructor without MarshalBinary needs the hash.Hash contract only. *)
Theorem C141_hmac_plain : forall a B H key ops, meets a H ->
  run (hm_impl (mkctor a B None)) (Some (hm_new (mkctor a B None) key)) ops = ideal_run (rfc2104 H B key) [] ops.
Proof. intros a B H key ops M. exact (C141_hmac_any _ H key ops (meets_sound a B H M)). Qed.
(** The library's constructors, with the published block lengths, including Reset (which after the first
    call goes through MarshalBinary and UnmarshalBinary). *)
Theorem C141_hmac_histories : forall x key ops,
  run (hm_impl (hlib x)) (Some (hm_new (hlib x) key)) ops = ideal_run (rfc2104 (named x) (block_length x) key) [] ops.
Proof. intros x key ops. rewrite <- hlib_bs. exact (C141_hmac_any _ _ key ops (hlib_sound x)). Qed.

(** Programs that mix the hashes and their HMACs (also HMACs of HMACs: hmac.New takes any constructor). *)
Inductive maclib := Plain (x : meth) | Hmac (y : maclib) (key : list N).
Fixpoint mlib (y : maclib) : ctor := match y with Plain x => hlib x | Hmac y k => hmac_of (mlib y) k end.
Fixpoint mblock (y : maclib) : nat := match y with Plain x => block_length x | Hmac y _ => mblock y end.
Fixpoint mnamed (y : maclib) : list N -> list N :=
  match y with Plain x => named x | Hmac y k => rfc2104 (mnamed y) (mblock y) k end.
Lemma mlib_ok : forall y, sound (mlib y) (mnamed y) /\ c_bs (mlib y) = mblock y.
Proof.
  induction y as [x|y [IH1 IH2] k]; cbn [mlib mnamed mblock].
  - split; [apply hlib_sound|apply hlib_bs].
  - split; [rewrite <- IH2; apply hmac_sound; exact IH1|exact IH2].
Qed.
Theorem C141_hmac_programs : forall p,
  prog_run (fun y => c_alg (mlib y)) [] [hv_new] p = spec_run mnamed [] [] [hv_new] p.
Proof. apply C137_fluent_programs. intros y. apply sound_meets. exact (proj1 (mlib_ok y)). Qed.
(** FromBytes(m).Hmac(x, key), and NewHmac(x, key) with the message written in pieces. *)
Theorem C141_hmac_oneshot : forall x key m i,
  chain (fun y => c_alg (mlib y)) [CFromBytes m; COne (Hmac (Plain x) key)] =
    Some (mkhv (rfc2104 (named x) (block_length x) key m) None false) /\
  chain (fun y => c_alg (mlib y)) [CNew (Hmac (Plain x) key); CWrite [1]%N; CReset; CWrite m; CSum i] =
    Some (mkhv (i ++ rfc2104 (named x) (block_length x) key m) (Some 0) false).
Proof. intros. unfold chain. rewrite !C141_hmac_programs. split; reflexivity. Qed.
(** A key longer than the block counts only through the first B bytes of its digest: two such keys are
    interchangeable.  (Where BlockSize() is smaller than Size() -- fugue 4, ascon 8, esch 16, luffa 32,
    murmur3 1 -- these are fewer bytes than the digest has.) *)
Theorem C141_hmac_long_keys : forall c H key1 key2 ops, sound c H -> c_bs c < length key1 -> c_bs c < length key2 ->
  firstn (c_bs c) (H key1) = firstn (c_bs c) (H key2) -> c_bs c <= length (H key1) -> c_bs c <= length (H key2) ->
  run (hm_impl c) (Some (hm_new c key1)) ops = run (hm_impl c) (Some (hm_new c key2)) ops.
Proof.
  intros c H k1 k2 ops S L1 L2 E D1 D2.
  refine (eq_trans (C141_hmac_any c H k1 ops S) (eq_trans _ (eq_sym (C141_hmac_any c H k2 ops S)))).
  apply ideal_run_ext. intros m. unfold rfc2104.
  assert (K : rfc2104_key H (c_bs c) k1 = rfc2104_key H (c_bs c) k2); [|now rewrite K].
  unfold rfc2104_key. apply Nat.ltb_lt in L1, L2. rewrite L1, L2, !firstn_app.
  replace (c_bs c - length (H k1)) with 0 by lia. replace (c_bs c - length (H k2)) with 0 by lia. now rewrite E.
Qed.
(** hash/hmac_test.go:23, and a history that marshals. *)
From Coq Require Import String.
Local Open Scope list_scope.
Example C141_vector : rfc2104 sm3_spec 64 (bytes_of_string "pass123") (bytes_of_string "sdffgsdgfsdfg123156rt5") =
  hex "997f778d1ecbd92845c0061b4d1d658ef84170bb57efbabc7cd4ef5c953f8446".
Proof. vm_compute. reflexivity. Qed.
Example C141_nonvacuous :
  run (hm_impl (hlib SM3)) (Some (hm_new (hlib SM3) (bytes_of_string "pass123")))
    [Write [1]%N; Reset; Reset; Write (bytes_of_string "sdffgsdgfsdfg123156rt5"); Sum [9]%N] =
  [Wrote 1; Wrote 22; Summed (9%N :: hex "997f778d1ecbd92845c0061b4d1d658ef84170bb57efbabc7cd4ef5c953f8446")].
Proof. rewrite C141_hmac_histories. cbn [ideal_run app named block_length]. rewrite C141_vector. reflexivity. Qed.

Print Assumptions C141_hmac_any.
Print Assumptions C141_hmac_plain.
Print Assumptions C141_hmac_histories.
Print Assumptions C141_hmac_programs.
Print Assumptions C141_hmac_oneshot.
Print Assumptions C141_hmac_long_keys.
