(** PropGmac.v -- final theorems about package gmac. *)
From Coq Require Import List NArith Arith Lia Bool.
From Verif Require Import Base Words HashAPI Refine SpecCmac SpecGmac Cmac Gmac PropMac.
Import ListNotations.

(** ** C21: the table-driven product is Algorithm 1 of SP 800-38D, for every subkey and operand.
    An element (Low, High) stands for the block Low || High. *)
Theorem C21_gcm_multiplication : forall E low high, block_cipher 16 E -> is64 low -> is64 high ->
  let '(l, h) := gcmMul (gcmInit E) (low, high) in
  is64 l /\ is64 h /\ (l * 2 ^ 64 + h)%N = gcm_mul (low * 2 ^ 64 + high) (be_val (E (zeros 16))).
Proof.
  intros E low high HE Hl Hh.
  destruct (gcmMul_ok (gcmInit E) (gH E) (low, high) (gcmInit_ok E HE) (conj Hl Hh)) as [[O1 O2] V].
  destruct (gcmMul (gcmInit E) (low, high)) as [l h]. auto.
Qed.
Example C21_nonvacuous : gcmMul (gcmInit (fun _ => be_bytes 16 0x66e94bd4ef8a2c3b884cfa59ca342b2e)) (0x0388dace60b6a392, 0xf328c2b971b2fe78)%N
  = (0x5e2ec74691706288, 0x2c85b0685353deb7)%N.
Proof. vm_compute. reflexivity. Qed.

(** ** C19, C20.  The initialisation vector used: twelve zero bytes when none is given. *)
Definition iv_used (iv : list N) : list N := if length iv =? 0 then zeros 12 else iv.
(** The object computes GHASH of everything written, but enters a wrong length:
    [entered 0 0 ops] where a Write of [k] bytes after [n] bytes adds
    - [k] when [n] is a multiple of 16,
    - [2 k] when it fits strictly in the partial block,
    - [k - n mod 16] when it completes the partial block. *)
Fixpoint entered (n : nat) (c : N) (ops : list op) : N :=
  match ops with
  | [] => c
  | Write p :: t =>
      let k := length p in
      entered (n + k)
        (if n mod 16 =? 0 then (c + N.of_nat k)%N
         else if n mod 16 + k <? 16 then (c + 2 * N.of_nat k)%N
         else (c + N.of_nat k - N.of_nat (n mod 16))%N) t
  | Sum _ :: t => entered n c t
  | Reset :: t => entered 0 0 t
  end.
Lemma exec_rel : forall E iv ops d m c, block_cipher 16 E -> Forall op_bytes ops -> g_rel E iv d m c ->
  g_rel E iv (exec gmac_impl d ops) (history m ops) (entered (length m) c ops).
Proof.
  intros E iv ops. induction ops as [|o ops IH]; intros d m c HE HF HR; auto.
  inversion HF as [|? ? Ho HF']; subst. destruct o as [p|i|]; cbn [exec history entered].
  - destruct (g_write_rel E iv d m c p HE HR Ho) as [R' _]. rewrite <- app_length. apply IH; auto.
  - apply IH; auto.
  - apply (IH _ [] 0%N); auto. eapply g_reset_rel; eauto.
Qed.
Theorem C19_gmac_actual : forall E iv ops inp, block_cipher 16 E -> isbytes iv -> Forall op_bytes ops ->
  snd (i_sum gmac_impl (exec gmac_impl (gmac_new E iv) ops) inp) =
  inp ++ gmac_tag_len E (iv_used iv) (history [] ops) (entered 0 0 ops) ++ zeros (length inp).
Proof.
  intros E iv ops inp HE Hiv HF.
  apply (g_sum_ok E iv _ _ _ inp HE). apply (exec_rel E iv ops _ [] 0%N HE HF). now apply g_new_rel.
Qed.
(** Histories in which every Write starts at a multiple of 16 bytes, and Sum gets an empty slice,
    follow the standard. *)
Fixpoint aligned (n : nat) (ops : list op) : Prop :=
  match ops with
  | [] => True
  | Write p :: t => (n mod 16 = 0 \/ p = []) /\ aligned (n + length p) t
  | Sum i :: t => i = [] /\ aligned n t
  | Reset :: t => aligned 0 t
  end.
Lemma aligned_run : forall E iv ops d m, block_cipher 16 E -> Forall op_bytes ops -> aligned (length m) ops ->
  g_rel E iv d m (N.of_nat (length m)) -> run gmac_impl d ops = ideal_run (gmac_spec E (iv_used iv)) m ops.
Proof.
  intros E iv ops. induction ops as [|o ops IH]; intros d m HE HF HA HR; auto.
  inversion HF as [|? ? Ho HF']; subst. destruct o as [p|i|]; cbn [run ideal_run aligned] in *.
  - destruct HA as [Ha HA]. destruct (g_write_rel E iv d m _ p HE HR Ho) as [R' W'].
    change (i_write gmac_impl d p) with (gmac_write d p). destruct (gmac_write d p) as [d' n]. cbn [fst snd] in *. rewrite W'. f_equal.
    apply IH; auto. rewrite app_length; auto.
    replace (N.of_nat (length (m ++ p))) with (count_write (length m) (N.of_nat (length m)) (length p)); auto.
    rewrite app_length. unfold count_write. destruct (Nat.eqb_spec (length m mod 16) 0) as [Z|Z]; [lia|].
    destruct Ha as [Ha|Ha]; [lia|]. rewrite Ha. cbn [length]. pose proof (Nat.mod_upper_bound (length m) 16 ltac:(lia)).
    destruct (Nat.ltb_spec (length m mod 16 + 0) 16); lia.
  - destruct HA as [-> HA]. pose proof (g_sum_ok E iv d m _ [] HE HR) as S'.
    change (i_sum gmac_impl d []) with (gmac_sum d []). assert (F' : fst (gmac_sum d []) = d) by reflexivity.
    destruct (gmac_sum d []) as [d' out]. cbn [fst snd] in *. rewrite S', F'. f_equal.
    + f_equal. cbn [app length]. rewrite app_nil_r. reflexivity.
    + apply IH; auto.
  - apply IH; auto. change (N.of_nat (length [])) with 0%N. eapply g_reset_rel; eauto.
Qed.
Theorem C19_gmac_aligned : forall E iv ops, block_cipher 16 E -> isbytes iv -> Forall op_bytes ops -> aligned 0 ops ->
  run gmac_impl (gmac_new E iv) ops = ideal_run (gmac_spec E (iv_used iv)) [] ops.
Proof. intros. apply aligned_run; auto. now apply g_new_rel. Qed.
Example C19_nonvacuous : aligned 0 [Write (zeros 32); Write [1; 2; 3]; Sum []; Reset; Write [7]; Sum []]%N
  /\ gmac_spec toy_cipher (zeros 12) [1; 2; 3]%N <> gmac_spec toy_cipher (zeros 12) [1; 2; 3; 0]%N.
Proof. split; [simpl; repeat split; auto|]. vm_compute. discriminate. Qed.
(** The claim itself fails. *)
Theorem C19_gmac_streaming_refuted : exists E iv p q,
  block_cipher 16 E /\ isbytes iv /\ isbytes (p ++ q) /\
  run gmac_impl (gmac_new E iv) [Write p; Write q; Sum []] <> [Wrote (length p); Wrote (length q); Summed (gmac_spec E iv (p ++ q))] /\
  run gmac_impl (gmac_new E iv) [Write (p ++ q); Sum []] = [Wrote (length (p ++ q)); Summed (gmac_spec E iv (p ++ q))].
Proof.
  exists toy_cipher, (zeros 12), [1; 2; 3; 4; 5]%N, [6; 7; 8]%N. split; [apply toy_is_block_cipher|].
  split; [apply zeros_isbytes|]. split; [repeat constructor|]. split; [vm_compute; discriminate|vm_compute; reflexivity].
Qed.
(** C20: Sum(in) is longer than in plus 16 bytes whenever [in] is non-empty, on every object. *)
Theorem C20_gmac_sum_length_refuted : forall E iv ops inp, block_cipher 16 E -> isbytes iv -> Forall op_bytes ops ->
  length (snd (i_sum gmac_impl (exec gmac_impl (gmac_new E iv) ops) inp)) = 2 * length inp + 16.
Proof.
  intros E iv ops inp HE Hiv HF. rewrite C19_gmac_actual, !app_length, zeros_length by assumption.
  assert (L : length (gmac_tag_len E (iv_used iv) (history [] ops) (entered 0 0 ops)) = 16).
  { unfold gmac_tag_len. cbv zeta. unfold xorblk. rewrite map_length, combine_length, be_bytes_length.
    assert (LE : forall x, length x = 16 -> length (E x) = 16) by (intros x Hx; apply HE; exact Hx).
    rewrite LE; auto. unfold gcm_J0. destruct (Nat.eqb_spec (length (iv_used iv)) 12); [rewrite app_length; cbn [length]; lia|apply be_bytes_length]. }
  rewrite L. lia.
Qed.

Print Assumptions C21_gcm_multiplication.
Print Assumptions C19_gmac_actual.
Print Assumptions C19_gmac_aligned.
Print Assumptions C19_gmac_streaming_refuted.
Print Assumptions C20_gmac_sum_length_refuted.
