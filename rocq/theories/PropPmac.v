(** PropPmac.v -- final theorems about package pmac. *)
From Coq Require Import List NArith PArith Arith Lia Bool.
From Verif Require Import Base Words HashAPI SpecCmac Cmac SpecPmac Pmac PropMac.
Import ListNotations.

(** ** C18.  Sum enciphers the running checksum in place: a second Sum on the same object is wrong. *)
Theorem C18_pmac_sum_mutates_refuted : exists E d, block_cipher 16 E /\ pmac_new E 16 16 = Some d /\
  pmac_run E 16 d [Write [1%N]; Sum []; Sum []] <> Some (ideal_run (pmac_spec E 16 0x87 16) [] [Write [1%N]; Sum []; Sum []]) /\
  pmac_run E 16 d [Write [1%N]; Sum []; Reset; Write [1%N]; Sum []] =
    Some (ideal_run (pmac_spec E 16 0x87 16) [] [Write [1%N]; Sum []; Reset; Write [1%N]; Sum []]).
Proof.
  exists toy_cipher. eexists. split; [apply toy_is_block_cipher|]. split; [vm_compute; reflexivity|].
  split; [vm_compute; discriminate|vm_compute; reflexivity].
Qed.
(** What holds: any cuts, as long as every Sum is followed by Reset (or by nothing), and no more than
    [bs * 2^min(2 bs - 1, 64)] bytes are written between Resets. *)
Theorem C18_pmac_contract : forall E bs tag, In bs [8; 16; 32; 64; 128] -> block_cipher bs E -> 0 < tag <= bs ->
  exists d, pmac_new E bs tag = Some d /\
  forall ops, pm_polite bs [] ops -> pmac_run E bs d ops = Some (ideal_run (pmac_spec E bs 0x87 tag) [] ops).
Proof.
  intros E bs tag Hin HE Ht. assert (1 < bs) by (repeat destruct Hin as [<-|Hin]; try lia; contradiction).
  destruct (pm_new_ok E bs H HE tag Hin Ht) as (d & E1 & R). exists d. split; auto.
  intros ops HP. apply (pm_run_ok E bs H HE (length ops)); auto.
Qed.
Lemma small_polite : (20 <= 16 * pm_limit 16)%N.
Proof. vm_compute. discriminate. Qed.
Example C18_nonvacuous : pm_polite 16 [] [Write (zeros 17); Write [1; 2; 3]; Sum [9]; Reset; Sum []]%N
  /\ pmac_spec toy_cipher 16 0x87 16 [1; 2; 3]%N <> pmac_spec toy_cipher 16 0x87 16 [1; 2; 3; 0]%N.
Proof.
  split; [|vm_compute; discriminate]. pose proof small_polite. cbn [pm_polite].
  split; [|split; [|exact I]]; cbn [app length zeros repeat]; change (N.of_nat 16) with 16%N; lia.
Qed.

(** Exactly what the code does, whatever the calls.  PMAC of [m] is [E (acc m + fin m)], [acc] the checksum
    of the blocks before the last one and [fin] the last block prepared as in [pmac_spec].  The object's
    checksum is off by [D]: zero after New and Reset; after a Sum that returned (the first bytes of) [T] the
    checksum is [T] itself.  Write panics when the limit of [bs * 2^(2 bs - 1)] bytes since Reset is passed. *)
Definition whole (bs : nat) (m : list N) : bool := (0 <? length m) && (length m mod bs =? 0).
Definition pmac_acc (E : list N -> list N) (bs : nat) (m : list N) : list N :=
  snd (pmac_sigma E bs 0x87 (if whole bs m then removelast (chunks bs m) else chunks bs m)).
Definition pmac_fin (E : list N -> list N) (bs : nat) (m : list N) : list N :=
  if whole bs m then xorblk (last (chunks bs m) []) (gf_halve bs 0x87 (E (zeros bs)))
  else rest bs m ++ 0x80%N :: zeros (bs - 1 - length (rest bs m)).
Fixpoint pmac_drift (E : list N -> list N) (bs tag : nat) (D m : list N) (ops : list op) : option (list obs) :=
  match ops with
  | [] => Some []
  | Write p :: t => if (N.of_nat bs * 2 ^ (2 * N.of_nat bs - 1) <? N.of_nat (length (m ++ p)))%N then None
                    else option_map (cons (Wrote (length p))) (pmac_drift E bs tag D (m ++ p) t)
  | Sum i :: t => let T := E (xorblk (xorblk (pmac_acc E bs m) (pmac_fin E bs m)) D) in
                  option_map (cons (Summed (i ++ firstn tag T))) (pmac_drift E bs tag (xorblk (pmac_acc E bs m) T) m t)
  | Reset :: t => pmac_drift E bs tag (zeros bs) [] t
  end.
Theorem C18_pmac_actual : forall E bs tag, In bs [8; 16; 32] -> block_cipher bs E -> 0 < tag <= bs ->
  exists d, pmac_new E bs tag = Some d /\
  forall ops, pmac_run E bs d ops = pmac_drift E bs tag (zeros bs) [] ops.
Proof.
  intros E bs tag Hin HE Ht. assert (Hb : 1 < bs <= 32) by (repeat destruct Hin as [<-|Hin]; try lia; contradiction).
  assert (Hin' : In bs [8; 16; 32; 64; 128]) by (repeat destruct Hin as [<-|Hin]; cbn; auto; contradiction).
  assert (EL : pm_limit bs = (2 ^ (2 * N.of_nat bs - 1))%N) by (unfold pm_limit; f_equal; lia).
  destruct (pm_new_ok E bs (proj1 Hb) HE tag Hin' Ht) as (d & E1 & R). exists d. split; auto. intros ops.
  rewrite <- (pm_adj_run_ok E bs (proj1 Hb) HE (pmac_drift E bs tag) tag) with (d := d) (m := []) (D := zeros bs); auto using zeros_length.
  - destruct (pm_dig_ok E bs (proj1 Hb) HE tag d [] R) as (_ & _ & L & _). f_equal. unfold adj.
    rewrite (xorblk_zeros (pdig d) bs L). destruct d; reflexivity.
  - intros D m p t. cbn [pmac_drift]. now rewrite EL.
  - apply Hb.
Qed.
(** [acc] and [fin] are those of PMAC. *)
Theorem C18_pmac_actual_first_sum : forall E bs tag m,
  firstn tag (E (xorblk (pmac_acc E bs m) (pmac_fin E bs m))) = pmac_spec E bs 0x87 tag m.
Proof.
  intros. unfold pmac_acc, pmac_fin, pmac_spec, whole. cbv zeta.
  destruct (pmac_sigma E bs 135 _) as [[i off] sg]. reflexivity.
Qed.

(** ** C64: one-shot Sum and Verify are PMAC for 128-bit block ciphers. *)
Lemma pmac_oneshot : forall E bs tag m, In bs [8; 16; 32; 64; 128] -> block_cipher bs E -> 0 < tag <= bs ->
  (N.of_nat (length m) <= N.of_nat bs * pm_limit bs)%N -> pmac_Sum E bs m tag = Some (Some (pmac_spec E bs 0x87 tag m)).
Proof.
  intros E bs tag m Hin HE Ht HB. assert (1 < bs) by (repeat destruct Hin as [<-|Hin]; try lia; contradiction).
  destruct (pm_new_ok E bs H HE tag Hin Ht) as (d & E1 & R). unfold pmac_Sum. rewrite E1.
  destruct (pm_write_ok E bs H HE tag d [] m R HB) as (d' & E2 & R2). rewrite E2.
  cbn [app] in R2. pose proof (pm_check_ok E bs H HE tag d' m R2) as EC.
  assert (ptag d' = tag) by (destruct R2 as (a & t & _ & (_ & _ & Tg & _) & _); exact Tg).
  unfold pmac_sum. cbn [snd app]. rewrite H0, EC. reflexivity.
Qed.
Theorem C64_pmac_sum_verify : forall E tag m mac, block_cipher 16 E -> 0 < tag <= 16 ->
  (N.of_nat (length m) <= 2 ^ 35)%N ->
  pmac_Sum E 16 m tag = Some (Some (pmac_spec E 16 0x87 tag m)) /\
  (pmac_Verify E 16 mac m tag = Some true <-> mac = pmac_spec E 16 0x87 tag m).
Proof.
  intros E tag m mac HE Ht HB.
  assert (ES : pmac_Sum E 16 m tag = Some (Some (pmac_spec E 16 0x87 tag m))).
  { apply (pmac_oneshot E 16 tag m); [cbn; auto|exact HE|exact Ht|exact HB]. }
  split; auto. unfold pmac_Verify. rewrite ES. rewrite <- ct_compare_eq. split; [intros H; injection H; auto|intros ->; reflexivity].
Qed.
Theorem C64_pmac_new_error_iff : forall E bs tag,
  pmac_new E bs tag = None <-> (tag = 0 \/ bs < tag \/ ~ In bs [8; 16; 32; 64; 128]).
Proof.
  intros E bs tag. unfold pmac_new. destruct (Nat.eqb_spec tag 0); cbn [orb]; [intuition|].
  destruct (Nat.ltb_spec bs tag); [intuition|]. destruct (existsb (Nat.eqb bs) _) eqn:X.
  - apply existsb_exists in X. destruct X as (y & Hy & Ey). apply Nat.eqb_eq in Ey. subst y. split; [discriminate|].
    intros [?|[?|?]]; [lia|lia|contradiction].
  - split; auto. intros _. right. right. intros Hin. assert (existsb (Nat.eqb bs) [8; 16; 32; 64; 128] = true); [|congruence].
    apply existsb_exists. exists bs. split; auto. apply Nat.eqb_refl.
Qed.
(** Verify accepts nothing when New would fail. *)
Theorem C64_pmac_verify_bad_parameters : forall E bs tag m mac, pmac_new E bs tag = None -> pmac_Verify E bs mac m tag = Some false.
Proof. intros E bs tag m mac H. unfold pmac_Verify, pmac_Sum. now rewrite H. Qed.
Example C64_bad_parameters_hyps : pmac_new (fun b => b) 16 17 = None.
Proof. reflexivity. Qed.
(** For 64-bit block ciphers the paper uses x^64+x^4+x^3+x+1; the code does not. *)
Theorem C64_pmac_64bit_refuted : exists E m, block_cipher 8 E /\
  pmac_Sum E 8 m 8 <> Some (Some (pmac_spec E 8 0x1b 8 m)) /\ pmac_Sum E 8 m 8 = Some (Some (pmac_spec E 8 0x87 8 m)).
Proof.
  exists toy_cipher, (zeros 8). split; [apply toy_is_block_cipher|]. split; [vm_compute; discriminate|vm_compute; reflexivity].
Qed.
Example C64_nonvacuous : pmac_Verify toy_cipher 16 (pmac_spec toy_cipher 16 0x87 16 [7]%N) [7]%N 16 = Some true
  /\ pmac_Verify toy_cipher 16 (pmac_spec toy_cipher 16 0x87 16 [7]%N) [8]%N 16 = Some false.
Proof. vm_compute. split; reflexivity. Qed.

(** ** C65: a message that is too long makes Write panic: over 256 KiB with a 64-bit cipher, over
    32 GiB with a 128-bit cipher; and exactly then. *)
Theorem C65_pmac_panics_refuted : forall E bs tag m, In bs [8; 16; 32] -> block_cipher bs E -> 0 < tag <= bs ->
  (pmac_Sum E bs m tag = None <-> (N.of_nat bs * 2 ^ (2 * N.of_nat bs - 1) < N.of_nat (length m))%N).
Proof.
  intros E bs tag m Hin HE Ht. assert (1 < bs <= 32) by (repeat destruct Hin as [<-|Hin]; try lia; contradiction).
  assert (Hin' : In bs [8; 16; 32; 64; 128]) by (repeat destruct Hin as [<-|Hin]; cbn; auto; contradiction).
  assert (EL : pm_limit bs = (2 ^ (2 * N.of_nat bs - 1))%N) by (unfold pm_limit; f_equal; lia).
  rewrite <- EL. destruct (N.lt_ge_cases (N.of_nat bs * pm_limit bs) (N.of_nat (length m))) as [G|G].
  - split; auto. intros _. destruct (pm_new_ok E bs ltac:(lia) HE tag Hin' Ht) as (d & E1 & R). unfold pmac_Sum. rewrite E1.
    now rewrite (pm_write_panic E bs ltac:(lia) HE tag d [] m ltac:(lia) R G).
  - rewrite pmac_oneshot by auto. split; [discriminate|lia].
Qed.
Example C65_nonvacuous : (8 * 2 ^ (2 * 8 - 1) = 262144)%N.
Proof. reflexivity. Qed.

Print Assumptions C18_pmac_sum_mutates_refuted.
Print Assumptions C18_pmac_contract.
Print Assumptions C18_pmac_actual.
Print Assumptions C18_pmac_actual_first_sum.
Print Assumptions C64_pmac_sum_verify.
Print Assumptions C64_pmac_new_error_iff.
Print Assumptions C64_pmac_64bit_refuted.
Print Assumptions C65_pmac_panics_refuted.
