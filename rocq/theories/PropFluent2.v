(** PropFluent2.v -- C137 for the methods whose constructor meets the contract on byte strings below a
    length bound. *)
From Coq Require Import List NArith ZArith Arith Lia Bool.
From Verif Require Import Base HashAPI Refine SpecSip Sip SpecMurmur Murmur SpecXxh Xxh SpecGf2 Gf2 Rabin PropFast.
From Verif Require Import Fluent PropFluent.
From Verif Require SpecCmac SpecGost94 Gost94 PropGost94 SpecStreebog Gost3411 PropStreebog SpecWhirl Whirl PropWhirl PropRabin SpecEcho Echo PropEcho.
Import ListNotations.

(** NewX() and the calls [ops], then Sum(i); FromBytes(m).X(): the bytes of the result (None = panic). *)
Definition stream (a : alg) (ops : list op) (i : list N) : option (list N) :=
  option_map h_data (chain (fun _ : unit => a) (CNew tt :: map op_call ops ++ [CSum i])).
Definition oneshot (a : alg) (m : list N) : option (list N) :=
  option_map h_data (chain (fun _ : unit => a) [CFromBytes m; COne tt]).

(** A chain makes exactly the calls it names on one object. *)
Lemma chain_exec : forall ops (a : alg) (s : a_state a) vars v i,
  nth (length vars) (vars ++ [v]) hv_new = v -> h_ref v = Some 0 ->
  option_map (fun vs => h_data (last vs hv_new))
    (prog_run (fun _ : unit => a) [mkobj a s] (vars ++ [v]) (chain_from (length vars) (map op_call ops ++ [CSum i]))) =
  Some (snd (i_sum (a_impl a) (exec (a_impl a) s ops) i)).
Proof.
  induction ops as [|o ops IH]; intros a s vars v i Hv Hr.
  - cbn [map app chain_from prog_run exec]. rewrite Hv. cbn [call_step]. rewrite Hr. cbn [nth_error].
    unfold o_sum. cbn [o_alg o_st]. destruct (i_sum (a_impl a) s i) as [s' out]. cbn [prog_run option_map snd].
    rewrite last_last. reflexivity.
  - cbn [map app chain_from prog_run]. rewrite Hv.
    assert (L : forall w, nth (S (length vars)) ((vars ++ [v]) ++ [w]) hv_new = w).
    { intros w. rewrite app_nth2; rewrite app_length; cbn [length]; [|lia].
      replace (S (length vars) - (length vars + 1)) with 0 by lia. reflexivity. }
    assert (L1 : length (vars ++ [v]) = S (length vars)) by (rewrite app_length; cbn; lia).
    destruct o as [p|j|]; cbn [op_call call_step exec]; rewrite Hr; cbn [nth_error].
    + rewrite <- L1. change (o_write (mkobj a s) p) with (mkobj a (fst (i_write (a_impl a) s p))). cbn [upd]. cbv beta iota. rewrite IH by (rewrite ?L1; auto). reflexivity.
    + unfold o_sum. cbn [o_alg o_st]. destruct (i_sum (a_impl a) s j) as [s' out]. cbn [upd fst].
      rewrite <- L1. rewrite IH by (rewrite ?L1; auto). reflexivity.
    + rewrite <- L1. change (o_reset (mkobj a s)) with (mkobj a (i_reset (a_impl a) s)). cbn [upd]. cbv beta iota. rewrite IH by (rewrite ?L1; auto). reflexivity.
Qed.
Lemma stream_exec : forall a ops i, stream a ops i = Some (snd (i_sum (a_impl a) (exec (a_impl a) (a_new a) ops) i)).
Proof.
  intros a ops i. unfold stream, chain.
  pose proof (chain_exec ops a (a_new a) [hv_new] (mkhv [] (Some 0) false) i eq_refl eq_refl) as K.
  cbn [length app] in K. cbn [chain_from prog_run nth call_step app length o_new hv_new h_data h_err].
  unfold hv_new in K at 1 |- * at 1. unfold o_new. rewrite <- K.
  destruct (prog_run _ _ _ _); reflexivity.
Qed.
Lemma run_last : forall D (I : impl D) ops d i,
  run I d (ops ++ [Sum i]) = run I d ops ++ [Summed (snd (i_sum I (exec I d ops) i))].
Proof.
  intros D I. induction ops as [|o ops IH]; intros d i.
  - cbn [app run exec]. destruct (i_sum I d i). reflexivity.
  - destruct o as [p|j|]; cbn [app run exec].
    + destruct (i_write I d p) as [d' n]. cbn [fst]. now rewrite IH.
    + destruct (i_sum I d j) as [d' n]. cbn [fst]. now rewrite IH.
    + apply IH.
Qed.
Lemma ideal_last : forall H ops m i, ideal_run H m (ops ++ [Sum i]) = ideal_run H m ops ++ [Summed (i ++ H (history m ops))].
Proof. intros H. induction ops as [|[p|j|] ops IH]; intros m i; cbn [app ideal_run history]; rewrite ?IH; reflexivity. Qed.
Lemma total_last : forall ops i, ops_total (ops ++ [Sum i]) = ops_total ops.
Proof. induction ops as [|[p|j|] ops IH]; intros i; cbn [app ops_total]; rewrite ?IH; reflexivity. Qed.

Lemma stream_of_run : forall a ops i H,
  run (a_impl a) (a_new a) (ops ++ [Sum i]) = ideal_run H [] (ops ++ [Sum i]) -> stream a ops i = Some (i ++ H (history [] ops)).
Proof.
  intros a ops i H E. rewrite stream_exec. f_equal. rewrite run_last, ideal_last in E.
  apply app_inj_tail in E. destruct E as [_ E]. injection E. auto.
Qed.

(** The contract on byte strings of total length below [B] (None: no bound). *)
Definition below (B : option N) (n : N) : Prop := match B with None => True | Some b => (n < b)%N end.
Definition meets_below (a : alg) (H : list N -> list N) (B : option N) : Prop :=
  forall ops, Forall op_bytes ops -> below B (ops_total ops) -> run (a_impl a) (a_new a) ops = ideal_run H [] ops.
Theorem C137_fluent_bounded : forall a H B, meets_below a H B ->
  (forall ops i, Forall op_bytes ops -> below B (ops_total ops) -> stream a ops i = Some (i ++ H (history [] ops))) /\
  (forall m, isbytes m -> below B (N.of_nat (length m)) -> oneshot a m = Some (H m)).
Proof.
  intros a H B HM.
  assert (S1 : forall ops i, Forall op_bytes ops -> below B (ops_total ops) ->
    snd (i_sum (a_impl a) (exec (a_impl a) (a_new a) ops) i) = i ++ H (history [] ops)).
  { intros ops i F L. assert (F' : Forall op_bytes (ops ++ [Sum i])) by (apply Forall_app; split; [exact F|repeat constructor]).
    rewrite <- (total_last ops i) in L. specialize (HM _ F' L). rewrite run_last, ideal_last in HM.
    apply app_inj_tail in HM. destruct HM as [_ E]. injection E. auto. }
  split; [intros ops i F L; rewrite stream_exec; f_equal; now apply S1|].
  intros m Hm L. unfold oneshot, chain. cbn [chain_from prog_run nth call_step hv_new h_data h_ref h_err app option_map last].
  f_equal. specialize (S1 [Write m] [] ltac:(repeat constructor; exact Hm)). cbn [exec history app ops_total] in S1.
  rewrite N.add_0_r in S1. specialize (S1 L). unfold o_sum, o_write, o_new. cbn [o_alg o_st].
  destruct (i_sum _ _ []) as [s out]. exact S1.
Qed.

(** murmur3.go: Murmur32WithSeed, Murmur64WithSeed, Murmur128WithSeed (the methods without a seed use 0). *)
Definition a_murmur32 seed := mkalg _ mm32_impl (mm32_new seed).
Definition a_murmur64 seed := mkalg _ mm64_impl (mm128_new seed).
Definition a_murmur128 seed := mkalg _ mm128_impl (mm128_new seed).
Theorem C137_fluent_murmur : forall seed,
  meets_below (a_murmur32 seed) (fun m => be_bytes 4 (murmur32_spec seed m)) None /\
  meets_below (a_murmur64 seed) (fun m => be_bytes 8 (fst (murmur128_spec seed m))) None /\
  meets_below (a_murmur128 seed) (fun m => be_bytes 8 (fst (murmur128_spec seed m)) ++ be_bytes 8 (snd (murmur128_spec seed m))) None.
Proof.
  intros seed. split; [|split]; intros ops F _; [exact (C26_murmur32_contract seed ops F)|exact (C26_murmur64_contract seed ops F)|exact (C26_murmur128_contract seed ops F)].
Qed.
(** xxhash.go: Xxhash32, Xxhash64, seed 0. *)
Definition a_xxh32 := mkalg _ x32_impl (x32_new 0).
Definition a_xxh64 := mkalg _ x64_impl (x64_new 0).
Theorem C137_fluent_xxhash :
  meets_below a_xxh32 (fun m => be_bytes 4 (xxh32_spec 0 m)) (Some (2 ^ 64)%N) /\
  meets_below a_xxh64 (fun m => be_bytes 8 (xxh64_spec 0 m)) (Some (2 ^ 64)%N).
Proof. split; intros ops F L; [exact (C27_xxhash32_contract 0 ops F L)|exact (C27_xxhash64_contract 0 ops F L)]. Qed.
(** whirlpool.go: Whirlpool. *)
Definition a_whirlpool := mkalg _ Whirl.whirlpool_impl Whirl.wp_reset.
Theorem C137_fluent_whirlpool : meets_below a_whirlpool (SpecWhirl.wh_hash SpecWhirl.whirlpool_final) (Some (2 ^ 61)%N).
Proof. intros ops F L. exact (proj1 (PropWhirl.C105_whirlpool_histories ops F L)). Qed.
(** gost.go: Gost34112012(size), Gost34112012256, Gost34112012512. *)
Definition a_streebog d := mkalg _ Gost3411.gs_impl d.
Theorem C137_fluent_gost34112012 : forall d,
  (Gost3411.gs_new 32 = Some d -> meets_below (a_streebog d) SpecStreebog.streebog256 (Some (2 ^ 61)%N)) /\
  (Gost3411.gs_new 64 = Some d -> meets_below (a_streebog d) SpecStreebog.streebog512 (Some (2 ^ 61)%N)).
Proof.
  intros d. split; intros E ops F L; [exact (PropStreebog.C70_gost34112012_256_contract d E ops F L)|exact (PropStreebog.C70_gost34112012_512_contract d E ops F L)].
Qed.
(** rabin.go: Rabin(polynomial, window). *)
Theorem C137_fluent_rabin : forall p w t, (p < 2 ^ 64)%N -> rabin_table p w = Some t ->
  meets_below (mkalg _ (rabin_impl t) (rabin_new t)) (rabin_spec p w) None.
Proof. intros p w t Hp E ops F _. exact (PropRabin.C13_rabin_contract p w t ops Hp E F). Qed.
(** gost.go: Gost341194(cipher), for any cipher with 8-byte blocks. *)
Theorem C137_fluent_gost341194 : forall E : list N -> list N -> list N, (forall k b, length (E k b) = 8) ->
  meets_below (mkalg _ (Gost94.g94_impl E) Gost94.g94_new) (SpecGost94.gost94 E) (Some (2 ^ 61)%N).
Proof. intros E HE ops F L. exact (PropGost94.C94_gost341194_histories E HE ops F L). Qed.
(** echo.go: NewEcho224, NewEcho256, NewEcho384, NewEcho512 (out = 28, 32, 48, 64; New without a salt). *)
Theorem C137_fluent_echo : forall out s0 s1 d, 1 <= out <= 64 -> Echo.e_New (8 * Z.of_nat out) [] = Some (s0, s1, d) ->
  meets_below (mkalg _ (Echo.e_impl (8 * Z.of_nat out) s0 s1) d) (SpecEcho.echo (zeros 16) out) (Some (2 ^ 61)%N).
Proof.
  intros out s0 s1 d Ho E0 ops F L.
  destruct (PropEcho.C103_echo_histories out [] ops Ho ltac:(constructor) (or_introl eq_refl) F) as (t0 & t1 & E1 & E2).
  { unfold below in L. change (2 ^ 61)%N with 2305843009213693952%N in L. change (2 ^ 64)%N with 18446744073709551616%N. lia. }
  pose proof (eq_trans (eq_sym E0) E1) as E3. injection E3 as -> -> ->. exact E2.
Qed.
(** siphash.go: whatever the constructor accepts (Siphash64, Siphash128, SiphashWithCDroundsAndHashSize).
    Reset keeps the state words (C23), so the contract holds of chains without Reset; with Reset the chain
    gives what [kept] says (C23_siphash_actual). *)
Theorem C137_fluent_siphash : forall key cr dr hs d, sip_new key cr dr hs = Some d ->
  let spec := sip_spec (if cr =? 0 then 2 else cr) (if dr =? 0 then 4 else dr) (negb (hs =? 8)) key in
  (forall ops i, Forall op_bytes ops -> ~ In Reset ops -> stream (mkalg _ sip_impl d) ops i = Some (i ++ spec (history [] ops))) /\
  (forall m, isbytes m -> oneshot (mkalg _ sip_impl d) m = Some (spec m)).
Proof.
  intros key cr dr hs d E. cbv zeta. split.
  - intros ops i F NR. apply stream_of_run. apply (sip_contract_lemma key cr dr hs d); [exact E| |].
    + apply Forall_app; split; [exact F|repeat constructor].
    + apply Forall_app; split; [|constructor; [discriminate|constructor]]. apply Forall_forall. intros o Ho ->. exact (NR Ho).
  - intros m Hm. unfold oneshot, chain. cbn [chain_from prog_run nth call_step hv_new h_data h_ref h_err app option_map last].
    pose proof (stream_of_run (mkalg _ sip_impl d) [Write m] [] (sip_spec (if cr =? 0 then 2 else cr) (if dr =? 0 then 4 else dr) (negb (hs =? 8)) key)) as K.
    rewrite stream_exec in K.
    specialize (K ltac:(apply (sip_contract_lemma key cr dr hs d); [exact E|repeat constructor; exact Hm|repeat constructor; discriminate])).
    cbn [a_impl a_new exec history app] in K. unfold o_sum, o_write, o_new. cbn [o_alg o_st a_impl a_new].
    destruct (i_sum sip_impl (fst (i_write sip_impl d m)) []) as [s out]. exact K.
Qed.
Example C137_bounded_nonvacuous : stream (a_murmur32 7) [Write [1; 2]; Reset; Write [3]]%N [9]%N = Some (9 :: be_bytes 4 (murmur32_spec 7 [3]))%N
  /\ oneshot a_xxh64 [1; 2; 3]%N = Some (be_bytes 8 (xxh64_spec 0 [1; 2; 3]%N)).
Proof.
  split.
  - apply (proj1 (C137_fluent_bounded _ _ _ (proj1 (C137_fluent_murmur 7)))); [repeat constructor|exact I].
  - apply (proj2 (C137_fluent_bounded _ _ _ (proj2 C137_fluent_xxhash))); [repeat constructor|reflexivity].
Qed.
Example C137_siphash_nonvacuous : exists d, sip_new (zeros 16) 0 0 8 = Some d /\
  stream (mkalg _ sip_impl d) [Write [1]; Write [2]]%N [9]%N = Some (9 :: sip_spec 2 4 false (zeros 16) [1; 2])%N.
Proof.
  destruct (sip_new (zeros 16) 0 0 8) as [d|] eqn:E; [|discriminate E]. exists d. split; [reflexivity|].
  apply (proj1 (C137_fluent_siphash _ _ _ _ _ E)); [repeat constructor|intros [K|[K|[]]]; discriminate K].
Qed.
Example C137_echo_nonvacuous : exists s0 s1 d, Echo.e_New 256 [] = Some (s0, s1, d) /\
  stream (mkalg _ (Echo.e_impl 256 s0 s1) d) [Write [1]; Reset; Write [2]]%N [9]%N = Some (9 :: SpecEcho.echo (zeros 16) 32 [2])%N.
Proof.
  destruct (PropEcho.C103_echo_histories 32 [] [] ltac:(lia) ltac:(constructor) (or_introl eq_refl) ltac:(constructor) ltac:(reflexivity)) as (s0 & s1 & E & _).
  exists s0, s1, (Echo.e_reset (8 * Z.of_nat 32)). split; [exact E|].
  apply (proj1 (C137_fluent_bounded _ _ _ (C137_fluent_echo 32 s0 s1 _ ltac:(lia) E))); [repeat constructor|reflexivity].
Qed.

Print Assumptions C137_fluent_bounded.
Print Assumptions C137_fluent_murmur.
Print Assumptions C137_fluent_xxhash.
Print Assumptions C137_fluent_whirlpool.
Print Assumptions C137_fluent_gost34112012.
Print Assumptions C137_fluent_rabin.
Print Assumptions C137_fluent_gost341194.
Print Assumptions C137_fluent_echo.
Print Assumptions C137_fluent_siphash.
