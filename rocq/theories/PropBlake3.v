(** PropBlake3.v -- properties C31, C32: package blake3. *)
From Coq Require Import List NArith Arith Lia Bool.
From Verif Require Import Base HashAPI Refine Words Bytes SpecBlake3 Blake3 Blake3P Blake3N Blake3T.
Import ListNotations.
Local Open Scope nat_scope.

(** Never more than [B] bytes between two Resets; [n] bytes are already there. *)
Fixpoint bounded (B : N) (n : N) (ops : list op) : Prop :=
  match ops with
  | [] => True
  | Write p :: t => (n + N.of_nat (length p) <= B)%N /\ bounded B (n + N.of_nat (length p)) t
  | Sum _ :: t => bounded B n t
  | Reset :: t => bounded B 0 t
  end.

(** ** The three kinds of objects *)
Lemma words_of : forall k, length k = 32 -> bytesToUint32s k = b3_words k.
Proof. intros k H. do 33 (destruct k as [|? k]; try discriminate H). reflexivity. Qed.
Lemma words_len : forall k, length k = 32 -> length (b3_words k) = 8.
Proof. intros k H. unfold b3_words. rewrite map_length, chunks_length, H. reflexivity. Qed.
Lemma hash_len32 : forall key flags m, length (b3_hash key flags 32 m) = 32.
Proof.
  intros key flags m. unfold b3_hash, b3_output. change (32 / 64 + 1) with 1. cbn [seq map concat]. rewrite app_nil_r, firstn_length, compress_len. reflexivity.
Qed.

(** ** Runs *)
Lemma run_small : forall key flags size, length key = 8 -> (N.of_nat size < 2 ^ 63)%N -> forall ops d m, dR key flags size d m -> bounded (2 ^ 17) (N.of_nat (length m)) ops ->
  b3_run d ops = map Some (ideal_run (b3_hash key flags size) m ops).
Proof.
  intros key flags size Hk Hs. induction ops as [|[p|i|] ops IH]; intros d m H B; cbn [b3_run ideal_run bounded map] in *; [reflexivity| | |].
  - destruct B as [B1 B2]. change (2 ^ 17)%N with 131072%N in B1.
    pose proof (write_ok key flags Hk size d m p H) as W. rewrite app_length in W.
    assert (X : (N.of_nat (length m + length p) < 2 ^ 63)%N) by (change (2 ^ 63)%N with 9223372036854775808%N; lia). specialize (W X).
    destruct (b3_write d p) as [d'|].
    + cbn [map]. f_equal. apply IH; [exact W|]. rewrite app_length, Nat2N.inj_add. exact B2.
    + exfalso. unfold limit in W. apply (Nat.lt_irrefl (128 * 1024)). apply Nat.lt_le_trans with (1 := W). lia.
  - unfold b3_sum. rewrite (finalize_ok key flags Hk size d m) by (try assumption; rewrite (d_hs _ _ _ _ _ H); exact Hs). rewrite (d_hs _ _ _ _ _ H).
    cbn [map]. f_equal. apply IH; assumption.
  - apply IH; [apply (b3_reset_ok _ _ Hk _ _ _ H)|exact B].
Qed.
Lemma run_any : forall key flags size, length key = 8 -> (N.of_nat size < 2 ^ 63)%N -> forall ops d m, dR key flags size d m -> bounded (2 ^ 63 - 1) (N.of_nat (length m)) ops ->
  let good := ideal_run (b3_hash key flags size) m ops in
  b3_run d ops = map Some good \/ exists k, k < length good /\ b3_run d ops = map Some (firstn k good) ++ [None].
Proof.
  intros key flags size Hk Hs. induction ops as [|[p|i|] ops IH]; intros d m H B; cbn [b3_run ideal_run bounded] in *; cbv zeta; [left; reflexivity| | |].
  - destruct B as [B1 B2]. change (2 ^ 63 - 1)%N with 9223372036854775807%N in B1.
    pose proof (write_ok key flags Hk size d m p H) as W. rewrite app_length in W.
    assert (X : (N.of_nat (length m + length p) < 2 ^ 63)%N) by (change (2 ^ 63)%N with 9223372036854775808%N; lia). specialize (W X).
    destruct (b3_write d p) as [d'|].
    + destruct (IH d' (m ++ p) W) as [E|(k & K1 & K2)].
      * rewrite app_length, Nat2N.inj_add. exact B2.
      * left. rewrite E. reflexivity.
      * right. exists (S k). cbn [length firstn map app]. split; [lia|]. rewrite K2. reflexivity.
    + right. exists 0. split; [cbn [length]; lia|reflexivity].
  - unfold b3_sum. rewrite (finalize_ok key flags Hk size d m) by (try assumption; rewrite (d_hs _ _ _ _ _ H); exact Hs). rewrite (d_hs _ _ _ _ _ H).
    destruct (IH d m H B) as [E|(k & K1 & K2)].
    + left. rewrite E. reflexivity.
    + right. exists (S k). cbn [length firstn map app]. split; [lia|]. rewrite K2. reflexivity.
  - apply IH; [apply (b3_reset_ok _ _ Hk _ _ _ H)|exact B].
Qed.

(** ** C31 *)
Theorem C31_blake3_hash : forall size ops, (N.of_nat size < 2 ^ 63)%N -> bounded (2 ^ 17) 0 ops ->
  b3_run (NewWithSize size) ops = map Some (ideal_run (blake3 size) [] ops).
Proof. intros size ops Hs B. apply (run_small b3_iv 0 size); [reflexivity|exact Hs|apply b3_new_ok; reflexivity|exact B]. Qed.
Theorem C31_blake3_keyed : forall key size ops, (N.of_nat size < 2 ^ 63)%N -> bounded (2 ^ 17) 0 ops ->
  if length key =? 32
  then exists d, NewWithKeyedAndSize key size = Some d /\ b3_run d ops = map Some (ideal_run (blake3_keyed key size) [] ops)
  else NewWithKeyedAndSize key size = None.
Proof.
  intros key size ops Hs B. unfold NewWithKeyedAndSize. destruct (length key =? 32) eqn:E; [|reflexivity]. apply Nat.eqb_eq in E.
  eexists. split; [reflexivity|]. rewrite words_of by exact E. pose proof (words_len key E) as L.
  apply (run_small (b3_words key) KEYED_HASH size); [exact L|exact Hs|apply b3_new_ok; exact L|exact B].
Qed.
Lemma derive_new : forall context size, (N.of_nat (length context) <= 2 ^ 17)%N ->
  exists d, NewWithDeriveKeyAndSize context size = Some d /\ dR (b3_words (b3_hash b3_IV B3_CONTEXT 32 context)) B3_MATERIAL size d [].
Proof.
  intros context size L. unfold NewWithDeriveKeyAndSize. change (2 ^ 17)%N with 131072%N in L.
  assert (N0 : dR b3_iv DERIVE_KEY_CONTEXT 32 (b3_new b3_iv DERIVE_KEY_CONTEXT 32) []) by (apply b3_new_ok; reflexivity).
  pose proof (write_ok b3_iv DERIVE_KEY_CONTEXT eq_refl 32 _ [] context N0) as W. cbn [app] in W.
  destruct (b3_write (b3_new b3_iv DERIVE_KEY_CONTEXT 32) context) as [d|].
  - assert (X : (N.of_nat (length context) < 2 ^ 63)%N) by (change (2 ^ 63)%N with 9223372036854775808%N; lia). specialize (W X).
    eexists. split; [reflexivity|]. unfold b3_sum. rewrite (finalize_ok b3_iv DERIVE_KEY_CONTEXT eq_refl 32 d context) by (try exact W; rewrite (d_hs _ _ _ _ _ W); reflexivity).
    rewrite (d_hs _ _ _ _ _ W). cbn [app]. change b3_iv with b3_IV. change DERIVE_KEY_CONTEXT with B3_CONTEXT.
    rewrite words_of by apply hash_len32. apply b3_new_ok. apply words_len, hash_len32.
  - exfalso. assert (X : (N.of_nat (length context) < 2 ^ 63)%N) by (change (2 ^ 63)%N with 9223372036854775808%N; lia). specialize (W X).
    unfold limit in W. apply (Nat.lt_irrefl (128 * 1024)). apply Nat.lt_le_trans with (1 := W). lia.
Qed.
Theorem C31_blake3_derive : forall context size ops, (N.of_nat (length context) <= 2 ^ 17)%N -> (N.of_nat size < 2 ^ 63)%N -> bounded (2 ^ 17) 0 ops ->
  exists d, NewWithDeriveKeyAndSize context size = Some d /\ b3_run d ops = map Some (ideal_run (blake3_derive context size) [] ops).
Proof.
  intros context size ops L Hs B. destruct (derive_new context size L) as (d & E & R). exists d. split; [exact E|].
  apply (run_small (b3_words (b3_hash b3_IV B3_CONTEXT 32 context)) B3_MATERIAL size) with (ops := ops) (m := []); try assumption. apply words_len, hash_len32.
Qed.
(** Beyond 2^17 bytes: a call may panic (see C32), but no observed digest is wrong. *)
Definition correct_until_panic (run : list (option obs)) (good : list obs) : Prop :=
  run = map Some good \/ exists k, k < length good /\ run = map Some (firstn k good) ++ [None].
Theorem C31_blake3_never_wrong : forall size ops, (N.of_nat size < 2 ^ 63)%N -> bounded (2 ^ 63 - 1) 0 ops ->
  correct_until_panic (b3_run (NewWithSize size) ops) (ideal_run (blake3 size) [] ops).
Proof. intros size ops Hs B. apply (run_any b3_iv 0 size); [reflexivity|exact Hs|apply b3_new_ok; reflexivity|exact B]. Qed.
Theorem C31_blake3_keyed_never_wrong : forall key size ops d, (N.of_nat size < 2 ^ 63)%N -> bounded (2 ^ 63 - 1) 0 ops -> NewWithKeyedAndSize key size = Some d ->
  correct_until_panic (b3_run d ops) (ideal_run (blake3_keyed key size) [] ops).
Proof.
  intros key size ops d Hs B. unfold NewWithKeyedAndSize. destruct (length key =? 32) eqn:E; [|discriminate]. apply Nat.eqb_eq in E.
  intro X. assert (X' : d = b3_new (bytesToUint32s key) KEYED_HASH size) by congruence. subst d. clear X. rewrite words_of by exact E. pose proof (words_len key E) as L.
  apply (run_any (b3_words key) KEYED_HASH size); [exact L|exact Hs|apply b3_new_ok; exact L|exact B].
Qed.
Example C31_example_bounded : bounded (2 ^ 17) 0 [Write (zeros 1500); Sum []; Write (zeros 700); Sum [1%N]; Reset; Write [1%N; 2%N]; Sum []].
Proof. cbn [bounded]. unfold zeros. rewrite !repeat_length. vm_compute. repeat split; discriminate. Qed.
Example C31_example_run : b3_run (NewWithSize 4) [Write [97%N]; Sum []; Write [98%N; 99%N]; Sum []] =
  [Some (Wrote 1); Some (Summed [0x17; 0x76; 0x2f; 0xdd]%N); Some (Wrote 2); Some (Summed [0x64; 0x37; 0xb3; 0xac]%N)].
Proof. vm_compute. reflexivity. Qed.

(** ** C32 -- FALSE: Write panics *)
Lemma nonempty' : forall (l : list N), l <> [] -> 0 < length l.
Proof. intros [|x l] H; [congruence|cbn [length]; lia]. Qed.
Lemma write_loop_short : forall f d input, length input <= 1024 -> write_loop f d input = Some (d, input).
Proof. intros [|f] d input H; [reflexivity|]. rewrite write_loop_S. replace (1024 <? length input) with false by (symmetry; apply Nat.ltb_ge; lia). reflexivity. Qed.
Lemma tail_short : forall d input, input <> [] -> length input <= 1024 ->
  b3_tail d input = mergeCvStack (set_chunk d (cs_update (h_chunk d) input)) (k_ctr (cs_update (h_chunk d) input)).
Proof. intros d input N0 L. unfold b3_tail. rewrite write_loop_short by exact L. pose proof (nonempty' input N0). replace (0 <? length input) with true by (symmetry; apply Nat.ltb_lt; lia). reflexivity. Qed.
Lemma merge_chunk : forall f d post d', merge_loop f d post = Some d' -> h_chunk d' = h_chunk d.
Proof.
  induction f as [|f IH]; intros d post d' H; cbn [merge_loop] in H; [congruence|].
  destruct (N.of_nat post <? h_len d)%N; [|congruence]. cbv zeta in H.
  match type of H with (if ?b then _ else _) = _ => destruct b end; [discriminate|]. apply IH in H. exact H.
Qed.
Lemma mergeCv_eq : forall d t, exists f post, mergeCvStack d t = merge_loop f d post.
Proof. intros d t. exists 256, (popcnt t). unfold mergeCvStack. reflexivity. Qed.
Lemma mergeCv_chunk : forall d t d', mergeCvStack d t = Some d' -> h_chunk d' = h_chunk d.
Proof. intros d t d' H. destruct (mergeCv_eq d t) as (f & post & E). rewrite E in H. apply (merge_chunk _ _ _ _ H). Qed.
Lemma loop_blocks : forall f cs inp, let '(cs', inp') := update_loop f cs inp in
  k_blen cs' = k_blen cs /\ k_blocks cs <= k_blocks cs' /\ (inp <> [] -> inp' <> []).
Proof.
  induction f as [|f IH]; intros cs inp; cbn [update_loop]; [auto|].
  destruct (64 <? length inp) eqn:E; [|auto]. apply Nat.ltb_lt in E.
  specialize (IH (mkcs (compress_in_place (k_cv cs) (firstn 64 inp) 64 (k_ctr cs) (N.lor (k_flags cs) (maybeStartFlag cs))) (k_ctr cs) (k_buf cs) (k_blen cs) (k_blocks cs + 1) (k_flags cs)) (skipn 64 inp)).
  destruct (update_loop f _ (skipn 64 inp)) as [cs' inp']. cbn [k_blen k_blocks] in IH. destruct IH as (I1 & I2 & I3). split; [exact I1|]. split; [lia|].
  intros _. apply I3. intro X. apply (f_equal (@length N)) in X. rewrite skipn_length in X. cbn [length] in X. lia.
Qed.
Lemma update_nonempty : forall cs p, p <> [] -> 0 < cs_length (cs_update cs p).
Proof.
  intros cs p Np. unfold cs_update. destruct (0 <? k_blen cs) eqn:E.
  - apply Nat.ltb_lt in E. unfold fillBuf at 1. cbv beta iota zeta.
    set (take := if length p <? 64 - k_blen cs then length p else 64 - k_blen cs).
    destruct (0 <? length (skipn take p)).
    + match goal with |- context [update_loop ?f ?c ?i] => pose proof (loop_blocks f c i) as L; destruct (update_loop f c i) as [cs' inp'] end.
      cbn [k_blen k_blocks] in L. unfold fillBuf. cbn [fst]. unfold cs_length. cbn [k_blen k_blocks]. lia.
    + match goal with |- context [update_loop ?f ?c ?i] => pose proof (loop_blocks f c i) as L; destruct (update_loop f c i) as [cs' inp'] end.
      cbn [k_blen k_blocks] in L. unfold fillBuf. cbn [fst]. unfold cs_length. cbn [k_blen k_blocks]. lia.
  - apply Nat.ltb_ge in E. pose proof (loop_blocks (S (length p)) cs p) as L. destruct (update_loop (S (length p)) cs p) as [cs' inp'].
    destruct L as (L1 & L2 & L3). pose proof (nonempty' _ (L3 Np)). unfold fillBuf. cbn [fst]. unfold cs_length. cbn [k_blen k_blocks].
    replace (k_blen cs') with 0 by lia. destruct (length inp' <? 64 - 0); lia.
Qed.
Lemma write_short_chunk : forall d p d', p <> [] -> length p <= 1024 -> b3_write d p = Some d' -> 0 < cs_length (h_chunk d').
Proof.
  intros d p d' Np Lp. unfold b3_write. pose proof (nonempty' p Np) as Pp. replace (length p =? 0) with false by (symmetry; apply Nat.eqb_neq; lia).
  destruct (0 <? cs_length (h_chunk d)).
  - cbv zeta. set (take := if length p <? 1024 - cs_length (h_chunk d) then length p else 1024 - cs_length (h_chunk d)). clearbody take.
    destruct (0 <? length (skipn take p)) eqn:E.
    + apply Nat.ltb_lt in E. match goal with |- context [pushCV ?a ?b ?c] => destruct (pushCV a b c) as [d1|]; [|discriminate] end.
      rewrite tail_short; [|intro X; rewrite X in E; cbn [length] in E; lia|rewrite skipn_length; lia].
      intro M. rewrite (mergeCv_chunk _ _ _ M). cbn [set_chunk h_chunk]. apply update_nonempty. intro X; rewrite X in E; cbn [length] in E; lia.
    + apply Nat.ltb_ge in E. intro M. apply some_inj in M. rewrite <- M. cbn [set_chunk h_chunk]. apply update_nonempty.
      intro X. apply (f_equal (@length N)) in X. rewrite firstn_length in X. rewrite skipn_length in E. cbn [length] in X. lia.
  - rewrite tail_short by assumption. intro M. rewrite (mergeCv_chunk _ _ _ M). cbn [set_chunk h_chunk]. apply update_nonempty. exact Np.
Qed.
(** The number of ones in the binary representation of [n]. *)
Fixpoint ones_pos (p : positive) : nat := match p with xH => 1 | xO p => ones_pos p | xI p => S (ones_pos p) end.
Definition ones (n : N) : nat := match n with N0 => 0 | Npos p => ones_pos p end.
Lemma ones_even : forall n, ones (2 * n) = ones n.
Proof. intros [|p]; reflexivity. Qed.
Lemma ones_odd : forall n, ones (2 * n + 1) = S (ones n).
Proof. intros [|p]; reflexivity. Qed.
Lemma ones_pow : forall k x, (x < 2 ^ N.of_nat k)%N -> ones (2 ^ N.of_nat k + x) = S (ones x).
Proof.
  induction k as [|k IH]; intros x H.
  - change (2 ^ N.of_nat 0)%N with 1%N in *. replace x with 0%N by lia. reflexivity.
  - replace (N.of_nat (S k)) with (N.succ (N.of_nat k)) in * by lia. rewrite N.pow_succ_r' in *. destruct (N.even x) eqn:E.
    + apply N.even_spec in E. destruct E as [y ->]. rewrite <- N.mul_add_distr_l, !ones_even. apply IH. lia.
    + assert (O : N.odd x = true) by (rewrite <- N.negb_even, E; reflexivity). apply N.odd_spec in O. destruct O as [y ->].
      rewrite N.add_assoc, <- N.mul_add_distr_l, !ones_odd. f_equal. apply IH. lia.
Qed.
Section Panic.
Variable key : list N.
Variable flags : N.
Hypothesis Hkey : length key = 8.
Notation T := (b3_T key flags).
Lemma popcnt_127 : popcnt (N.of_nat 127) = 7.
Proof. reflexivity. Qed.
Lemma write_short_panics : forall size d m p, dR key flags size d m -> 0 < cs_length (h_chunk d) -> p <> [] -> length p <= 1024 ->
  length m <= limit -> limit < length m + length p -> b3_write d p = None.
Proof.
  intros size d m p [Hs (a & q & rs & Em & St & Ok & Cs & Lq & Q0 & Q1)] Hc Np Lp Hm Hmp. unfold limit in *. subst m. rewrite app_length in *.
  rewrite (csR_length _ _ Hkey _ _ _ Cs) in Hc. assert (Nq : q <> []) by (intro X; subst q; cbn [length] in Hc; lia). destruct (Q1 Nq) as [S0 L7].
  pose proof (stR_len _ _ Hkey _ _ _ St) as La. assert (Tt : tot rs = 127) by lia.
  assert (L8 : length rs = 7) by (rewrite <- (popcnt_strict rs S0) by lia; rewrite Tt; apply popcnt_127).
  unfold b3_write. pose proof (nonempty' p Np) as Pp. replace (length p =? 0) with false by (symmetry; apply Nat.eqb_neq; lia).
  rewrite (csR_length _ _ Hkey _ _ _ Cs). replace (0 <? length q) with true by (symmetry; apply Nat.ltb_lt; lia).
  replace (if length p <? 1024 - length q then length p else 1024 - length q) with (1024 - length q) by (destruct (length p <? 1024 - length q) eqn:E; [apply Nat.ltb_lt in E; lia|reflexivity]).
  cbv zeta. set (x := firstn (1024 - length q) p). set (y := skipn (1024 - length q) p).
  assert (Ly : length y = length p - (1024 - length q)) by apply skipn_length.
  assert (Ny : y <> []) by (intro X; rewrite X in Ly; cbn [length] in Ly; lia).
  replace (0 <? length y) with true by (symmetry; apply Nat.ltb_lt; lia).
  match goal with |- context [pushCV ?a ?b ?c] => destruct (pushCV a b c) as [d1|] eqn:EP; [|reflexivity] end.
  (* the push succeeds with a stack of 8 *)
  assert (H8 : exists rs', stR key flags d1 (a ++ (q ++ x)) (0 :: rs') /\ strict rs' /\ tot rs' = 127 /\ length rs' = 7 /\ ok (0 :: rs') /\ k_ctr (h_chunk d1) = 127%N).
  { assert (Lx : length x = 1024 - length q) by (unfold x; rewrite firstn_length; lia).
    assert (CR : csR key flags (N.of_nat (tot rs)) (cs_update (h_chunk d) x) (q ++ x)).
    { destruct (Nat.eq_dec (length q) 1024) as [F|F]; [|apply update_ok; [exact Hkey|exact Cs|intro X; rewrite X in Lx; cbn [length] in Lx; lia]].
      replace x with (@nil N) by (destruct x; [reflexivity|cbn [length] in Lx; lia]). rewrite app_nil_r.
      destruct (csR_update_nil key flags Hkey _ _ _ Cs) as [E|E]; [rewrite E; exact Cs|congruence]. }
    destruct (csR_output _ _ Hkey _ _ _ CR) as (O1 & O2 & O3). cbn [set_chunk h_chunk] in EP. rewrite chaining_ok in EP by assumption. rewrite O3, (cr_ctr _ _ _ _ _ CR) in EP.
    rewrite <- T_chunk in EP by (try exact Hkey; rewrite app_length; lia).
    assert (S1 : stR key flags (set_chunk d (cs_update (h_chunk d) x)) a rs) by (apply stR_set; [exact St|apply (cr_flags _ _ _ _ _ CR)]).
    destruct (push_ok key flags Hkey rs _ a 0 (q ++ x) S1 (proj1 Ok) L7) as (d' & rs' & E & R' & K1 & K2 & K3 & K4 & K5); [rewrite app_length, Lx; cbn [Nat.pow]; lia|].
    change (mkb3 (h_key d) (cs_update (h_chunk d) x) (h_len d) (h_stack d) (h_hs d)) with (set_chunk d (cs_update (h_chunk d) x)) in EP.
    assert (d1 = d') by congruence. subst d1. exists rs'. split; [exact R'|]. split; [exact K1|]. split; [congruence|].
    split; [rewrite <- (popcnt_strict rs' K1) by (destruct K3 as [->|]; lia); rewrite K2, Tt; apply popcnt_127|].
    split; [apply (ok_single key Hkey rs); assumption|]. rewrite K4. cbn [set_chunk h_chunk]. rewrite (cr_ctr _ _ _ _ _ CR), Tt. reflexivity. }
  destruct H8 as (rs' & R' & K1 & K2 & K3 & K4 & K5).
  rewrite tail_short; [|exact Ny|lia]. cbn [set_chunk h_chunk].
  assert (CR : csR key flags 128 (cs_update (cs_reset (h_chunk d1) (h_key d1) (add64 (k_ctr (h_chunk d1)) 1)) y) ([] ++ y)).
  { apply update_ok; [exact Hkey| |exact Ny]. rewrite K5. unfold cs_reset. rewrite (st_key _ _ _ _ _ R'), (st_flags _ _ _ _ _ R'). apply csR_new. exact Hkey. }
  rewrite (cr_ctr _ _ _ _ _ CR).
  change 128%N with (N.of_nat 128). replace 128 with (tot (0 :: rs')) by (cbn [tot Nat.pow]; lia).
  apply (merge_bad key flags Hkey (0 :: rs') _ (a ++ q ++ x)).
  - apply stR_set; [apply stR_set; [exact R'|]|].
    + unfold cs_reset. cbn [k_flags]. apply (st_flags _ _ _ _ _ R').
    + apply (cr_flags _ _ _ _ _ CR).
  - apply K4.
  - cbn [length]. lia.
  - destruct K4 as (_ & _ & K4 & _). apply K4. cbn [length]. lia.
Qed.

(** *** One Write of a whole message *)
Definition tail_f (f : nat) (d : b3) (input : list N) : option b3 :=
  match write_loop f d input with
  | None => None
  | Some (d, input) => if 0 <? length input then mergeCvStack (set_chunk d (cs_update (h_chunk d) input)) (k_ctr (cs_update (h_chunk d) input)) else Some d
  end.
Lemma tail_f_eq : forall d input, b3_tail d input = tail_f (S (length input)) d input.
Proof. reflexivity. Qed.
Lemma doomed : forall f d a rs input, wR key flags d a rs -> length rs = 8 -> input <> [] -> length input < f ->
  (N.of_nat (length a) + N.of_nat (length input) < 2 ^ 63)%N -> tail_f f d input = None.
Proof.
  intros f d a rs input W L8 Ni Lf Hb. pose proof (nonempty' _ Ni) as Pi. unfold tail_f. destruct W as [St Ok Ch].
  destruct Ok as (N0 & _ & NS & _). specialize (NS L8). destruct (le_lt_dec (length input) 1024) as [L|L].
  - rewrite write_loop_short by exact L. replace (0 <? length input) with true by (symmetry; apply Nat.ltb_lt; lia).
    assert (CR : csR key flags (N.of_nat (tot rs)) (cs_update (h_chunk d) input) ([] ++ input)) by (apply update_ok; [exact Hkey|rewrite Ch; apply csR_new; exact Hkey|exact Ni]).
    rewrite (cr_ctr _ _ _ _ _ CR). apply (merge_bad key flags Hkey rs _ a); try assumption. apply stR_set; [exact St|apply (cr_flags _ _ _ _ _ CR)].
  - destruct f as [|f]; [lia|]. rewrite write_loop_S. replace (1024 <? length input) with true by (symmetry; apply Nat.ltb_lt; lia). cbv zeta.
    assert (EC : k_ctr (h_chunk d) = N.of_nat (tot rs)) by (rewrite Ch; reflexivity). rewrite EC.
    assert (PB : forall cv, pushCV d cv (N.of_nat (tot rs)) = None) by (intro cv; apply (push_bad key flags Hkey rs d a); assumption).
    rewrite !PB. match goal with |- context [if ?b then _ else None] => destruct b; [|reflexivity] end.
    rewrite (st_key _ _ _ _ _ St), (st_flags _ _ _ _ _ St).
    destruct (subtree_ok key Hkey (length input) (tot rs)) as (j & q & J1 & _ & J3 & _); [exact L|rewrite <- (stR_len _ _ Hkey _ _ _ St); exact Hb|].
    rewrite J1, Nat2N.id. rewrite (cr_ctr key flags (N.of_nat (tot rs)) _ ([] ++ firstn (2 ^ j * 1024) input)).
    + rewrite PB. reflexivity.
    + apply update_ok; [exact Hkey|apply csR_new; exact Hkey|]. pose proof (pow_pos j). intro X. apply (f_equal (@length N)) in X. rewrite firstn_length in X. cbn [length] in X. lia.
Qed.

Lemma subtree_exact : forall n t j q, 2 ^ j * 1024 <= n < 2 ^ S j * 1024 -> j < 53 -> t = q * 2 ^ j -> (N.of_nat (t * 1024) + N.of_nat n < 2 ^ 63)%N ->
  shrink 64 (round_down (N.of_nat n)) (mul64 (N.of_nat t) 1024) = N.of_nat (2 ^ j * 1024).
Proof.
  intros n t j q Hn Hj Ht Hb. change (2 ^ 63)%N with 9223372036854775808%N in Hb. pose proof (pow_pos j) as P.
  assert (M : mul64 (N.of_nat t) 1024 = N.of_nat (t * 1024)) by (unfold mul64; rewrite w64_small; lia).
  rewrite M. rewrite round_down_ok by (change (2 ^ 64)%N with 18446744073709551616%N; lia).
  assert (L : N.log2 (N.of_nat n) = N.of_nat (10 + j)).
  { apply N.log2_unique; [lia|]. replace (N.succ (N.of_nat (10 + j))) with (N.of_nat (10 + S j)) by lia. rewrite !(pow_split key Hkey). lia. }
  rewrite L. change 64 with (S 63). cbn [shrink]. rewrite land_pred_pow2.
  replace (N.of_nat (t * 1024) mod 2 ^ N.of_nat (10 + j) =? 0)%N with true; [apply (pow_split key Hkey)|].
  symmetry. apply N.eqb_eq. rewrite (pow_split key Hkey), Ht. replace (q * 2 ^ j * 1024) with (q * (2 ^ j * 1024)) by lia. rewrite Nat2N.inj_mul. apply N.mod_mul. lia.
Qed.
Lemma even_small : forall rs q, ok rs -> length rs <= 7 -> tot rs = q * 2 -> popcnt (N.of_nat (tot rs)) <= 6.
Proof.
  intros rs q (N0 & B & _ & H7) L Hq. destruct (popcnt_near (length rs) rs eq_refl N0 ltac:(lia)) as [P1 P2].
  destruct (Nat.eq_dec (popcnt (N.of_nat (tot rs))) 7) as [E|E]; [|lia]. assert (L7 : length rs = 7) by lia. rewrite L7 in P2.
  specialize (P2 E). specialize (H7 L7 P2). destruct rs as [|x r]; [discriminate L7|]. cbn [hd] in H7. subst x.
  destruct P2 as [_ I0]. destruct (incr_div _ _ I0) as [y Hy]. cbn [tot] in Hq. rewrite Hy in Hq. change (2 ^ 0) with 1 in Hq. change (2 ^ 1) with 2 in Hq. lia.
Qed.
Lemma tail_f_short : forall f d a rs input, wR key flags d a rs -> length rs <= 7 -> length input <= 1024 -> tail_f f d input <> None.
Proof.
  intros f d a rs input [St Ok Ch] L7 Li. unfold tail_f. rewrite write_loop_short by exact Li.
  destruct (0 <? length input) eqn:E; [|discriminate]. apply Nat.ltb_lt in E. assert (Ni : input <> []) by (intro X; subst input; cbn [length] in E; lia).
  assert (CR : csR key flags (N.of_nat (tot rs)) (cs_update (h_chunk d) input) ([] ++ input)) by (apply update_ok; [exact Hkey|rewrite Ch; apply csR_new; exact Hkey|exact Ni]).
  rewrite (cr_ctr _ _ _ _ _ CR). destruct (merge_ok key flags Hkey rs (set_chunk d (cs_update (h_chunk d) input)) a) as (d' & rs' & M & _); [apply stR_set; [exact St|apply (cr_flags _ _ _ _ _ CR)]|apply Ok|exact L7|].
  rewrite M. discriminate.
Qed.
Lemma step_single : forall f d a rs input, wR key flags d a rs -> length rs <= 7 -> 1024 < length input < 2048 -> (N.of_nat (length a) + N.of_nat (length input) < 2 ^ 63)%N ->
  exists d' rs', tail_f (S f) d input = tail_f f d' (skipn 1024 input) /\ wR key flags d' (a ++ firstn 1024 input) (0 :: rs') /\ strict rs' /\ tot rs' = tot rs.
Proof.
  intros f d a rs input W L7 Li Hb. pose proof (stR_len _ _ Hkey _ _ _ (w_st _ _ _ _ _ W)) as La. unfold tail_f at 1. rewrite write_loop_S.
  replace (1024 <? length input) with true by (symmetry; apply Nat.ltb_lt; lia). cbv zeta.
  assert (EC : k_ctr (h_chunk d) = N.of_nat (tot rs)) by (rewrite (w_chunk _ _ _ _ _ W); reflexivity). rewrite EC.
  rewrite (subtree_exact (length input) (tot rs) 0 (tot rs)); [|cbn [Nat.pow]; lia|lia|cbn [Nat.pow]; lia|rewrite <- La; exact Hb].
  change (2 ^ 0 * 1024) with 1024. change (N.of_nat 1024) with 1024%N. change (1024 <=? 1024)%N with true. cbv iota. change (N.to_nat 1024) with 1024. change (1024 / 1024)%N with 1%N.
  rewrite (st_key _ _ _ _ _ (w_st _ _ _ _ _ W)), (st_flags _ _ _ _ _ (w_st _ _ _ _ _ W)).
  set (x := firstn 1024 input). assert (Lx : length x = 1024) by (unfold x; rewrite firstn_length; lia).
  destruct (single_push key flags Hkey d a rs x W Lx L7) as (d1 & rs1 & E2 & R & O1 & T1 & C1 & C2). cbv zeta in E2.
  change (set_counter (newChunkState key flags) (N.of_nat (tot rs))) with (fresh key flags (N.of_nat (tot rs))). rewrite E2.
  change (2 ^ 63)%N with 9223372036854775808%N in Hb.
  exists (set_chunk d1 (set_counter (h_chunk d1) (add64 (N.of_nat (tot rs)) 1))), rs1. split; [reflexivity|].
  split; [|split; [|exact T1]].
  - constructor; [apply stR_set; [exact R|]|exact O1|]; rewrite C1, (w_chunk _ _ _ _ _ W); [reflexivity|].
    unfold set_chunk, set_counter, fresh. cbn [h_chunk k_cv k_buf k_blen k_blocks k_flags]. f_equal. unfold add64. rewrite w64_small by lia. cbn [tot Nat.pow]. lia.
  - destruct O1 as [O1 _]. exact O1.
Qed.
Lemma step_pair : forall f d a rs input j q, wR key flags d a rs -> length rs <= 7 -> 2 ^ S j * 1024 <= length input < 2 ^ S (S j) * 1024 -> j < 52 -> tot rs = q * 2 ^ S (S j) ->
  (N.of_nat (length a) + N.of_nat (length input) < 2 ^ 63)%N ->
  exists d' rs', tail_f (S f) d input = tail_f f d' (skipn (2 ^ S j * 1024) input) /\ wR key flags d' (a ++ firstn (2 ^ S j * 1024) input) (j :: j :: rs') /\
    length rs' = popcnt (N.of_nat (tot rs)) /\ tot rs' = tot rs /\ popcnt (N.of_nat (tot (j :: j :: rs'))) = S (popcnt (N.of_nat (tot rs))).
Proof.
  intros f d a rs input j q W L7 Li Hj Hq Hb. pose proof (stR_len _ _ Hkey _ _ _ (w_st _ _ _ _ _ W)) as La. pose proof (pow_pos j) as P. unfold tail_f at 1. rewrite write_loop_S.
  assert (P2 : 2 ^ S j = 2 * 2 ^ j) by apply Nat.pow_succ_r'. assert (P4 : 2 ^ S (S j) = 2 * 2 ^ S j) by apply Nat.pow_succ_r'.
  replace (1024 <? length input) with true by (symmetry; apply Nat.ltb_lt; lia). cbv zeta.
  assert (EC : k_ctr (h_chunk d) = N.of_nat (tot rs)) by (rewrite (w_chunk _ _ _ _ _ W); reflexivity). rewrite EC.
  rewrite (subtree_exact (length input) (tot rs) (S j) (q * 2)); [|exact Li|lia|lia|rewrite <- La; exact Hb].
  rewrite Nat2N.id. change (2 ^ 63)%N with 9223372036854775808%N in Hb.
  replace (N.of_nat (2 ^ S j * 1024) <=? 1024)%N with false by (symmetry; apply N.leb_gt; lia).
  assert (DV : (N.of_nat (2 ^ S j * 1024) / 1024 = N.of_nat (2 ^ S j))%N) by (rewrite Nat2N.inj_mul; apply N.div_mul; lia). rewrite DV.
  rewrite (st_key _ _ _ _ _ (w_st _ _ _ _ _ W)), (st_flags _ _ _ _ _ (w_st _ _ _ _ _ W)).
  set (x := firstn (2 ^ S j * 1024) input). assert (Lx : length x = 2 ^ S j * 1024) by (unfold x; rewrite firstn_length; lia).
  destruct (pair_push key flags Hkey d a rs x j (q * 2) W Lx L7) as (d1 & rs1 & E2 & R & O1 & T1 & C1 & C2); [lia|lia|change (2 ^ 63)%N with 9223372036854775808%N; lia|]. cbv zeta in E2.
  assert (AD2 : add64 (N.of_nat (tot rs)) (N.of_nat (2 ^ S j) / 2) = N.of_nat (tot rs + 2 ^ j)).
  { rewrite P2, (Nat.mul_comm 2), Nat2N.inj_mul. change (N.of_nat 2) with 2%N. rewrite N.div_mul by lia. unfold add64; rewrite w64_small; lia. }
  rewrite AD2, E2.
  exists (set_chunk d1 (set_counter (h_chunk d1) (add64 (N.of_nat (tot rs)) (N.of_nat (2 ^ S j))))), rs1. split; [reflexivity|].
  assert (I1 : incr (S j) rs1) by (destruct O1 as [[_ O1] _]; exact O1).
  assert (S1 : strict rs1) by (apply (incr_le rs1 0 (S j)); [lia|exact I1]).
  assert (I2 : incr (S (S j)) rs1) by (apply (div_incr key Hkey rs1 (S (S j)) q); [exact S1|lia]).
  assert (B1 : length rs1 <= 6) by (destruct O1 as (_ & O1 & _); cbn [length] in O1; lia).
  split; [|split; [|split; [exact T1|]]].
  - constructor; [apply stR_set; [exact R|]|exact O1|]; rewrite C1, (w_chunk _ _ _ _ _ W); [reflexivity|].
    unfold set_chunk, set_counter, fresh. cbn [h_chunk k_cv k_buf k_blen k_blocks k_flags]. f_equal. unfold add64. rewrite w64_small by lia. cbn [tot]. lia.
  - rewrite <- (popcnt_strict rs1 S1) by lia. rewrite T1. reflexivity.
  - replace (tot (j :: j :: rs1)) with (tot (S j :: rs1)) by (cbn [tot]; lia).
    rewrite popcnt_strict by (first [split; [lia|exact I2]|cbn [length]; lia]). cbn [length]. f_equal. rewrite <- T1. symmetry. apply popcnt_strict; [exact S1|lia].
Qed.
Lemma tail_exact : forall i f d a rs input q, wR key flags d a rs -> length rs <= 7 -> 0 < length input < f -> length input < 2 ^ S i * 1024 -> i < 53 -> tot rs = q * 2 ^ S i ->
  (N.of_nat (length a) + N.of_nat (length input) < 2 ^ 63)%N ->
  let s := popcnt (N.of_nat (tot rs)) + ones (N.of_nat (length input / 2048)) in
  tail_f f d input = None <-> 8 <= s \/ (s = 7 /\ length input mod 2048 <> 0).
Proof.
  induction i as [|i IH]; intros f d a rs input q W L7 Lf Li Hi Hq Hb; cbv zeta.
  - change (2 ^ 1 * 1024) with 2048 in Li. change (2 ^ 1) with 2 in Hq. pose proof (even_small rs q (w_ok _ _ _ _ _ W) L7 Hq) as E6.
    rewrite (Nat.div_small (length input)) by lia. cbn [N.of_nat ones]. split; [|lia]. intro X. exfalso.
    destruct (le_lt_dec (length input) 1024) as [L|L]; [exact (tail_f_short f d a rs input W L7 L X)|].
    destruct f as [|f]; [lia|]. destruct (step_single f d a rs input W L7 ltac:(lia) Hb) as (d' & rs' & E & W' & S' & T').
    rewrite E in X. apply (tail_f_short f d' _ _ (skipn 1024 input) W'); [|rewrite skipn_length; lia|exact X].
    assert (B : length rs' <= 7) by (destruct (w_ok _ _ _ _ _ W') as (_ & B & _); cbn [length] in B; lia).
    cbn [length]. rewrite <- (popcnt_strict rs' S') by lia. rewrite T'. lia.
  - assert (P2 : 2 ^ S (S i) = 2 * 2 ^ S i) by apply Nat.pow_succ_r'. pose proof (pow_pos i) as P. assert (P1 : 2 ^ S i = 2 * 2 ^ i) by apply Nat.pow_succ_r'.
    destruct (le_lt_dec (2 ^ S i * 1024) (length input)) as [G|G].
    2:{ apply (IH f d a rs input (q * 2)); try assumption; lia. }
    pose proof (even_small rs (q * 2 ^ S i) (w_ok _ _ _ _ _ W) L7 ltac:(lia)) as E6.
    destruct f as [|f]; [lia|]. destruct (step_pair f d a rs input i q W L7 ltac:(lia) ltac:(lia) Hq Hb) as (d' & rs' & E & W' & L' & T' & S'). rewrite E.
    set (y := skipn (2 ^ S i * 1024) input) in *. assert (Ly : length y = length input - 2 ^ S i * 1024) by apply skipn_length.
    assert (D : length input / 2048 = 2 ^ i + length y / 2048).
    { replace (length input) with (length y + 2 ^ i * 2048) by lia. rewrite Nat.div_add by lia. lia. }
    assert (M : length input mod 2048 = length y mod 2048).
    { replace (length input) with (length y + 2 ^ i * 2048) by lia. apply Nat.mod_add. lia. }
    assert (Q : length y / 2048 < 2 ^ i) by (apply Nat.div_lt_upper_bound; lia).
    rewrite M, D, Nat2N.inj_add. replace (N.of_nat (2 ^ i)) with (2 ^ N.of_nat i)%N by (symmetry; apply of_pow).
    rewrite ones_pow by (rewrite <- of_pow; lia).
    destruct (Nat.eq_dec (length y) 0) as [Z|Z].
    + assert (y = []) by (destruct y; [reflexivity|discriminate Z]). rewrite H. unfold tail_f. rewrite write_loop_short by (cbn [length]; lia).
      change (0 <? length (@nil N)) with false. cbv iota. change (ones (N.of_nat (length (@nil N) / 2048))) with 0. change (length (@nil N) mod 2048) with 0. split; [discriminate|lia].
    + assert (Ny : y <> []) by (intro X; rewrite X in Z; cbn [length] in Z; lia).
      assert (Hb' : (N.of_nat (length (a ++ firstn (2 ^ S i * 1024) input)) + N.of_nat (length y) < 2 ^ 63)%N) by (rewrite app_length, firstn_length; change (2 ^ 63)%N with 9223372036854775808%N in *; lia).
      destruct (Nat.eq_dec (popcnt (N.of_nat (tot rs))) 6) as [E7|E7].
      * rewrite (doomed f d' _ _ y W') by (cbn [length]; first [exact Ny|exact Hb'|lia]). split; [intros _|reflexivity].
        destruct (Nat.eq_dec (ones (N.of_nat (length y / 2048))) 0) as [O|O]; [|left; lia]. right. split; [lia|].
        assert (length y / 2048 = 0) by (destruct (length y / 2048); [reflexivity|exfalso; revert O; cbn [N.of_nat ones]; generalize (Pos.of_succ_nat n); induction p; cbn [ones_pos]; lia]).
        apply Nat.div_small_iff in H; [|lia]. rewrite Nat.mod_small by exact H. exact Z.
      * pose proof (IH f d' (a ++ firstn (2 ^ S i * 1024) input) (i :: i :: rs') y (q * 2 + 1) W') as X. cbv zeta in X.
        rewrite S' in X. rewrite X; [| | | | | |exact Hb'].
        -- replace (S (popcnt (N.of_nat (tot rs))) + ones (N.of_nat (length y / 2048))) with (popcnt (N.of_nat (tot rs)) + S (ones (N.of_nat (length y / 2048)))) by lia. reflexivity.
        -- cbn [length]. lia.
        -- lia.
        -- lia.
        -- lia.
        -- cbn [tot]. lia.
Qed.
End Panic.
(** Any stream of more than 2^17 bytes written in pieces of at most one chunk (1024 bytes, the package's BLAKE3_CHUNK_LEN) panics, whatever the bytes. *)
Fixpoint total (pieces : list (list N)) : N := match pieces with [] => 0%N | p :: t => (N.of_nat (length p) + total t)%N end.
Lemma stream_panics : forall key flags size, length key = 8 -> forall pieces d m, dR key flags size d m -> (m = [] \/ 0 < cs_length (h_chunk d)) ->
  Forall (fun p => p <> [] /\ length p <= 1024) pieces -> length m <= limit -> (131072 < N.of_nat (length m) + total pieces)%N ->
  In None (b3_run d (map Write pieces)).
Proof.
  intros key flags size Hk. induction pieces as [|p t IH]; intros d m H C F Lm Tt; cbn [total map b3_run] in *; [unfold limit in Lm; lia|].
  inversion F as [|? ? [Np Lp] F']; subst. unfold limit in *.
  destruct (le_lt_dec (length m + length p) (128 * 1024)) as [L|L].
  - pose proof (write_ok key flags Hk size d m p H) as W. rewrite app_length in W.
    assert (X : (N.of_nat (length m + length p) < 2 ^ 63)%N) by (change (2 ^ 63)%N with 9223372036854775808%N; lia). specialize (W X).
    destruct (b3_write d p) as [d'|] eqn:E.
    + right. apply (IH d' (m ++ p)); [exact W|right; apply (write_short_chunk d p d'); assumption|exact F'|rewrite app_length; lia|rewrite app_length; lia].
    + left. reflexivity.
  - destruct C as [->|C]; [cbn [length] in L; lia|].
    rewrite (write_short_panics key flags Hk size d m p); try assumption; unfold limit; try lia. left. reflexivity.
Qed.
Theorem C32_blake3_stream_panics_refuted : forall size pieces,
  Forall (fun p => p <> [] /\ length p <= 1024) pieces -> (2 ^ 17 < total pieces)%N -> In None (b3_run (NewWithSize size) (map Write pieces)).
Proof.
  intros size pieces F Tt. change (2 ^ 17)%N with 131072%N in Tt.
  apply (stream_panics b3_iv 0 size) with (m := []); [reflexivity|apply b3_new_ok; reflexivity|left; reflexivity|exact F|cbn [length]; lia|cbn [length N.of_nat]; lia].
Qed.
(** Such a stream exists: 129 whole chunks. *)
Example C32_example : Forall (fun p => p <> [] /\ length p <= 1024) (repeat (zeros 1024) 129) /\ (2 ^ 17 < total (repeat (zeros 1024) 129))%N.
Proof.
  split.
  - apply Forall_forall. intros p H. apply repeat_spec in H. subst p. unfold zeros. rewrite repeat_length. split; [discriminate|lia].
  - assert (E : forall n, total (repeat (zeros 1024) n) = (1024 * N.of_nat n)%N).
    { induction n as [|n IH]; [reflexivity|]. cbn [repeat total]. rewrite IH. unfold zeros. rewrite repeat_length. lia. }
    rewrite E. reflexivity.
Qed.
Lemma sum_nil : b3_Sum [] <> None.
Proof. unfold b3_Sum, b3_write. cbn [length Nat.eqb]. discriminate. Qed.
Lemma pow_bound : forall n k, (N.of_nat n < 2 ^ (N.of_nat k + 10))%N -> n < 2 ^ k * 1024.
Proof. intros n k H. rewrite N.pow_add_r, <- of_pow in H. change (2 ^ 10)%N with (N.of_nat 1024) in H. rewrite <- Nat2N.inj_mul in H. lia. Qed.
Lemma pow_ex : forall n, (N.of_nat n < 2 ^ 63)%N -> exists i, i < 53 /\ n < 2 ^ S i * 1024.
Proof. intros n H. exists 52. split; [lia|]. apply pow_bound. exact H. Qed.
(** Exactly which messages make the one-shot function Sum panic: only the length matters. *)
Theorem C32_blake3_sum_panics_iff : forall data, (N.of_nat (length data) < 2 ^ 63)%N ->
  let s := ones (N.of_nat (length data) / 2048) in
  (b3_Sum data = None <-> 8 <= s \/ (s = 7 /\ (N.of_nat (length data) mod 2048 <> 0)%N)) /\
  (b3_Sum data = None \/ b3_Sum data = Some (blake3 32 data)).
Proof.
  intros data Hb s. assert (N0 : dR b3_iv 0 32 (NewWithSize 32) []) by (apply b3_new_ok; reflexivity).
  split.
  - destruct data as [|x data].
    { change s with 0. split; [intro X; exfalso; exact (sum_nil X)|]. intros [Y|[Y _]]; [lia|discriminate Y]. }
    set (m := x :: data) in *. assert (Lm : 0 < length m) by (unfold m; cbn [length]; lia). clearbody m. unfold b3_Sum.
    assert (E : b3_write (NewWithSize 32) m = tail_f (S (length m)) (NewWithSize 32) m).
    { unfold b3_write. replace (length m =? 0) with false by (symmetry; apply Nat.eqb_neq; lia). change (0 <? cs_length (h_chunk (NewWithSize 32))) with false. cbv iota. apply tail_f_eq. }
    rewrite E.
    assert (W : wR b3_iv 0 (NewWithSize 32) [] []).
    { destruct N0 as [_ (a & q & rs & Em & St & Ok & Cs & Lq & Q0 & Q1)]. symmetry in Em. apply app_eq_nil in Em. destruct Em as [-> ->].
      assert (rs = []) as -> by (pose proof (st_len _ _ _ _ _ St) as X; destruct rs; [reflexivity|change (h_len (NewWithSize 32)) with 0%N in X; cbn [length] in X; lia]).
      constructor; [exact St|exact Ok|apply (Q0 eq_refl)]. }
    destruct (pow_ex _ Hb) as (i & Hi & Big).
    pose proof (tail_exact b3_iv 0 eq_refl i (S (length m)) (NewWithSize 32) [] [] m 0 W) as X. cbv zeta in X.
    change (popcnt (N.of_nat (tot []))) with 0 in X. cbn [Nat.add] in X.
    assert (D : (N.of_nat (length m) / 2048)%N = N.of_nat (length m / 2048)).
    { change 2048%N with (N.of_nat 2048). rewrite Nat2N.inj_div. reflexivity. }
    assert (M : (N.of_nat (length m) mod 2048)%N = N.of_nat (length m mod 2048)).
    { change 2048%N with (N.of_nat 2048). rewrite Nat2N.inj_mod. reflexivity. }
    assert (X' : tail_f (S (length m)) (NewWithSize 32) m = None <-> 8 <= ones (N.of_nat (length m / 2048)) \/ (ones (N.of_nat (length m / 2048)) = 7 /\ length m mod 2048 <> 0)).
    { apply X; [cbn [length]; lia|lia|exact Big|exact Hi|reflexivity|exact Hb]. }
    subst s. rewrite D, M. clear X. destruct (tail_f (S (length m)) (NewWithSize 32) m) as [d|].
    + split; [discriminate|]. intro Y. exfalso. assert (Some d = None) by (apply X'; destruct Y as [Y|[Y1 Y2]]; [left; exact Y|right; split; [exact Y1|lia]]). discriminate.
    + split; [intros _|reflexivity]. destruct (proj1 X' eq_refl) as [Y|[Y1 Y2]]; [left; exact Y|right; split; [exact Y1|lia]].
  - unfold b3_Sum. pose proof (write_ok b3_iv 0 eq_refl 32 (NewWithSize 32) [] data N0 Hb) as W. destruct (b3_write (NewWithSize 32) data) as [d|]; [right|left; reflexivity].
    cbn [app] in W. unfold b3_sum. rewrite (finalize_ok b3_iv 0 eq_refl 32 d data _ W) by (rewrite (d_hs _ _ _ _ _ W); reflexivity). rewrite (d_hs _ _ _ _ _ W). reflexivity.
Qed.

(** The shortest message that panics has 260097 bytes. *)
Example C32_example_sum : let s := ones (260097 / 2048) in s = 7 /\ (260097 mod 2048 <> 0)%N.
Proof. vm_compute. split; [reflexivity|discriminate]. Qed.
Theorem C32_blake3_sum_no_panic_short : forall data, (N.of_nat (length data) <= 260096)%N -> b3_Sum data = Some (blake3 32 data).
Proof.
  intros data L. destruct (C32_blake3_sum_panics_iff data) as [P Q]; [change (2 ^ 63)%N with 9223372036854775808%N; lia|].
  destruct Q as [Q|Q]; [exfalso|exact Q]. apply P in Q. clear P. revert Q L. generalize (N.of_nat (length data)). intros n Q L.
  pose proof (N.div_mod n 2048 ltac:(lia)) as DM.
  assert (A : forall k, (k <= 127)%nat -> (ones (N.of_nat k) <= 6)%nat \/ k = 127).
  { intros k Hk. assert (F : forallb (fun k => (ones (N.of_nat k) <=? 6) || (k =? 127)) (seq 0 128) = true) by (vm_compute; reflexivity).
    rewrite forallb_forall in F. specialize (F k). rewrite in_seq in F. specialize (F ltac:(lia)). apply orb_true_iff in F. rewrite Nat.leb_le, Nat.eqb_eq in F. exact F. }
  assert (B : (n / 2048 <= 127)%N) by (apply N.lt_succ_r; apply N.div_lt_upper_bound; lia).
  destruct (A (N.to_nat (n / 2048)) ltac:(lia)) as [C|C].
  - rewrite N2Nat.id in C. lia.
  - assert (E : (n / 2048 = 127)%N) by lia. rewrite E in Q, DM. change (ones 127) with 7 in Q.
    destruct Q as [Q|[_ Q]]; [lia|]. revert Q DM. generalize (n mod 2048)%N. intros r Q DM. lia.
Qed.
