(** PropStreebog.v -- properties C45, C46 (key trees), C70, C71 (gost34112012), C72 (streebog). *)
From Coq Require Import String List NArith Arith Lia Bool.
From Verif Require Import Base Words HashAPI Buf MD Refine Kupyna StreebogTab SpecStreebog Gost3411 Gost3411P StreebogP GostTree.
Import ListNotations.

(** ** C70: gost34112012 computes GOST R 34.11-2012. *)
Theorem C70_gost34112012_256_contract : forall d, gs_new 32 = Some d ->
  forall ops, Forall op_bytes ops -> (ops_total ops < 2 ^ 61)%N -> run gs_impl d ops = ideal_run streebog256 [] ops.
Proof. intros d E ops HF HB. exact (gs_run 32 d (or_introl eq_refl) E ops HF HB). Qed.
Theorem C70_gost34112012_512_contract : forall d, gs_new 64 = Some d ->
  forall ops, Forall op_bytes ops -> (ops_total ops < 2 ^ 61)%N -> run gs_impl d ops = ideal_run streebog512 [] ops.
Proof. intros d E ops HF HB. exact (gs_run 64 d (or_intror eq_refl) E ops HF HB). Qed.
(** New panics exactly when the size is neither 32 nor 64. *)
Theorem C70_gost34112012_sizes : forall size, gs_new size = None <-> size <> 32 /\ size <> 64.
Proof.
  intros size. unfold gs_new. destruct (Nat.eqb_spec size 32) as [->|H1]; [split; [discriminate|intros [C _]; congruence]|].
  destruct (Nat.eqb_spec size 64) as [->|H2]; cbn [negb andb]; split; try discriminate; auto. intros [_ C]. congruence.
Qed.
Example C70_nonvacuous : exists d, gs_new 32 = Some d /\
  run gs_impl d [Write (firstn 5 st_M1); Sum [7%N]; Write (skipn 5 st_M1); Sum []]
  = [Wrote 5; Summed (7%N :: streebog256 (firstn 5 st_M1)); Wrote 58; Summed (hex "9d151eefd8590b89daa6ba6cb74af9275dd051026bb149a452fd84e5e57b5500")].
Proof. eexists. split; [reflexivity|]. vm_compute. reflexivity. Qed.

(** ** C71: saving and restoring a gost34112012 state. *)
(** After any history, MarshalBinary followed by UnmarshalBinary (into any object) gives the same state. *)
Theorem C71_gost_marshal_roundtrip : forall size d ops, (size = 32 \/ size = 64) -> gs_new size = Some d ->
  Forall op_bytes ops -> (ops_total ops < 2 ^ 61)%N -> gs_unmarshal (gs_marshal (exec gs_impl d ops)) = Some (exec gs_impl d ops).
Proof.
  intros size d ops Hsz Ed HF HB.
  assert (Hd : grel size d []). { unfold gs_new in Ed. destruct (_ && _); [discriminate|]. apply some_inj in Ed. subst d. now apply grel_new. }
  assert (G : forall ops d m, Forall op_bytes ops -> (N.of_nat (length m) + ops_total ops < 2 ^ 61)%N -> grel size d m ->
    exists m', (N.of_nat (length m') < 2 ^ 61)%N /\ grel size (exec gs_impl d ops) m').
  { clear - Hsz. induction ops as [|o ops IH]; intros d m HF HB HR; [exists m; split; [cbn [ops_total] in HB; lia|exact HR]|].
    pose proof (Forall_inv HF) as Ho. apply Forall_inv_tail in HF. destruct o as [p|i|]; cbn [exec ops_total] in *.
    - apply (IH _ (m ++ p) HF). + rewrite app_length. lia. + apply grel_write; auto. rewrite app_length. lia.
    - apply (IH _ m HF HB). exact HR.
    - apply (IH _ [] HF); [cbn [length]; lia|]. apply grel_new. apply HR. }
  destruct (G ops d [] HF ltac:(cbn [length]; lia) Hd) as (m & HL & HR). pose proof (grel_n_bits _ _ _ HR) as En. destruct HR as (Es & _ & _ & _ & Hok).
  destruct Hok as (Lh & Lc & _). apply gs_roundtrip; auto.
  - rewrite Es. lia. - unfold is64. change (2 ^ 64)%N with (8 * 2 ^ 61)%N. lia.
Qed.
(** A state that UnmarshalBinary accepts can make Sum panic (the buffered part is not bounded by the
    block size) ... *)
Theorem C71_gost_unmarshal_then_sum_refuted : exists data d, isbytes data /\ gs_unmarshal data = Some d /\ gs_checkSum d = None.
Proof.
  exists (gs_name ++ [32%N] ++ zeros 8 ++ zeros 64 ++ zeros 64 ++ zeros 64). eexists.
  split; [repeat (apply isbytes_app; split); try apply zeros_isbytes; repeat constructor|]. split; [vm_compute; reflexivity|]. vm_compute. reflexivity.
Qed.
(** ... and a wrong size byte is accepted: every size other than 32 behaves like 64 in Sum although
    Size() reports the byte. *)
Theorem C71_gost_unmarshal_size_refuted : exists data d s, isbytes data /\ gs_unmarshal data = Some d /\ gs_checkSum d = Some s /\ length s <> go_size d.
Proof.
  exists (gs_name ++ [7%N] ++ zeros 8 ++ zeros 64 ++ zeros 64). eexists. eexists.
  split; [repeat (apply isbytes_app; split); try apply zeros_isbytes; repeat constructor|].
  split; [vm_compute; reflexivity|]. split; [vm_compute; reflexivity|]. vm_compute. discriminate.
Qed.

(** ** C72: the streebog package. *)
(** The contract it does satisfy: the standard's construction with a checksum addition that loses a
    carry whenever a word sum is exactly 2^64 - 1 and a carry comes in. *)
Theorem C72_streebog256_lossy_contract : forall ops, Forall op_bytes ops -> (ops_total ops < 2 ^ 61)%N ->
  run (sb_impl 256) (sb_new_hs 256) ops = ideal_run (st_hash_with lossy_add 32) [] ops.
Proof. intros ops HF HB. exact (sb_run 256 (or_introl eq_refl) ops HF HB). Qed.
Theorem C72_streebog512_lossy_contract : forall ops, Forall op_bytes ops -> (ops_total ops < 2 ^ 61)%N ->
  run (sb_impl 512) (sb_new_hs 512) ops = ideal_run (st_hash_with lossy_add 64) [] ops.
Proof. intros ops HF HB. exact (sb_run 512 (or_intror eq_refl) ops HF HB). Qed.
(** It is the standard digest of every message for which no carry is lost, *)
Theorem C72_streebog_no_lost_carry : forall m, isbytes m -> no_lost_carries (zeros 64) (st_blocks m) ->
  st_hash_with lossy_add 32 m = streebog256 m /\ st_hash_with lossy_add 64 m = streebog512 m.
Proof. intros m Hm HN. split; now apply lossless. Qed.
(** in particular of every message shorter than one block, *)
Lemma no_lost_zero : forall a b, (forall x, In x a -> x = 0%N) -> Forall is64 b -> no_lost_carry 0 a b.
Proof.
  induction a as [|x a IH]; intros [|y b] Ha Hb; cbn [no_lost_carry]; auto. split; [now right|].
  rewrite (Ha x (or_introl eq_refl)), N.add_0_l. pose proof (Forall_inv Hb) as Hy. unfold is64 in Hy.
  replace (2 ^ 64 <=? y)%N with false by (symmetry; apply N.leb_gt; exact Hy). apply IH; [intros z Hz; apply Ha; now right|now apply Forall_inv_tail in Hb].
Qed.
Theorem C72_streebog_short : forall m, isbytes m -> length m < 64 ->
  st_hash_with lossy_add 32 m = streebog256 m /\ st_hash_with lossy_add 64 m = streebog512 m.
Proof.
  intros m Hm Hl. apply C72_streebog_no_lost_carry; [exact Hm|]. unfold st_blocks. rewrite chunks_short, rest_short by exact Hl. cbn [app no_lost_carries]. split; [|exact I].
  apply no_lost_zero.
  - intros x Hx. vm_compute in Hx. repeat (destruct Hx as [<-|Hx]; [reflexivity|]). destruct Hx.
  - set (b := m ++ _). assert (Lb : length b = 64) by (unfold b; rewrite app_length; cbn [length]; rewrite zeros_length; lia).
    assert (Bb : isbytes b) by (unfold b; apply isbytes_app; split; [exact Hm|constructor; [reflexivity|apply zeros_isbytes]]).
    unfold words64. rewrite <- kwm. apply (kwords_w8s b Lb Bb).
Qed.
(** but not of every message: two blocks suffice to make it differ from the standard (and from the
    gost34112012 package). *)
Definition lost_msg : list N := repeat 255%N 16 ++ zeros 48 ++ 1%N :: zeros 63.
Theorem C72_streebog256_standard_refuted : exists m d, isbytes m /\ gs_new 32 = Some d /\
  run (sb_impl 256) (sb_new_hs 256) [Write m; Sum []] <> ideal_run streebog256 [] [Write m; Sum []] /\
  run (sb_impl 256) (sb_new_hs 256) [Write m; Sum []] <> run gs_impl d [Write m; Sum []].
Proof.
  exists lost_msg. eexists. split; [repeat constructor|]. split; [reflexivity|]. split; vm_compute; discriminate.
Qed.
Theorem C72_streebog512_standard_refuted : exists m, isbytes m /\
  run (sb_impl 512) (sb_new_hs 512) [Write m; Sum []] <> ideal_run streebog512 [] [Write m; Sum []].
Proof. exists lost_msg. split; [repeat constructor|]. vm_compute; discriminate. Qed.
(** the constructor accepts exactly 256 and 512 *)
Theorem C72_streebog_sizes : forall hs, sb_new hs <> None <-> hs = 256 \/ hs = 512.
Proof.
  intros hs. unfold sb_new. destruct (Nat.eqb_spec hs 256) as [->|H1]; [cbn [orb]; split; [now left|discriminate]|].
  destruct (Nat.eqb_spec hs 512) as [->|H2]; cbn [orb]; split; intros C.
  - now right. - discriminate. - congruence. - destruct C; congruence.
Qed.

(** ** C45: TLSTree *)
Definition tls_masked (p : N * N * N) (n : N) : N * N * N := let '(a, b, c) := p in (N.land n a, N.land n b, N.land n c).
Definition tls_key (p : N * N * N) (root : list N) (n : N) : list N := let '(a, b, c) := p in tlstree_spec a b c root n.
Opaque kdf_spec gs_kdf.
Lemma tls_key_masked : forall p root a b, tls_masked p a = tls_masked p b -> tls_key p root a = tls_key p root b.
Proof. intros [[p0 p1] p2] root a b H. cbn [tls_masked] in H. injection H as H1 H2 H3. unfold tls_key, tlstree_spec. now rewrite H1, H2, H3. Qed.
Lemma tls_chain : forall p0 p1 p2 root n, isbytes root -> (N.of_nat (length root) < 2 ^ 61)%N ->
  gs_kdf (gs_kdf (gs_kdf root (lv 1) (be_bytes 8 (N.land n p0))) (lv 2) (be_bytes 8 (N.land n p1))) (lv 3) (be_bytes 8 (N.land n p2)) = tls_key (p0, p1, p2) root n
  /\ length (tls_key (p0, p1, p2) root n) = 32.
Proof.
  intros p0 p1 p2 root n Hr HL. apply (kdf3 root); auto using be_bytes_isbytes; rewrite be_bytes_length; lia.
Qed.
Lemma copy32 : forall k, length k = 32 -> copy_at (zeros 32) 0 k = k.
Proof. intros k L. apply copy0_all. now rewrite zeros_length. Qed.
(** Once a key has been computed for [prev], Derive returns the key of the tree for every number. *)
Lemma tls_run_warm : forall p root, isbytes root -> (N.of_nat (length root) < 2 ^ 61)%N ->
  forall ns prev, tls_run (mktls p root prev (tls_key p root prev)) ns = map (tls_key p root) ns.
Proof.
  intros [[p0 p1] p2] root Hr HL. induction ns as [|n ns IH]; intros prev; [reflexivity|]. cbn [tls_run map]. unfold tls_derive, tls_derive_cached. cbn [tl_params tl_prev tl_root tl_key].
  destruct (_ && _ && _ && _)%N eqn:Ec.
  - rewrite !andb_true_iff, !N.eqb_eq in Ec. destruct Ec as [[[_ E0] E1] E2].
    assert (Em : tls_key (p0, p1, p2) root n = tls_key (p0, p1, p2) root prev) by (apply tls_key_masked; cbn [tls_masked]; congruence).
    rewrite copy32 by apply (tls_chain p0 p1 p2 root prev Hr HL). rewrite <- Em at 1. f_equal. apply IH.
  - destruct (tls_chain p0 p1 p2 root n Hr HL) as [E L]. rewrite E. rewrite copy32 by exact L. f_equal. apply IH.
Qed.
(** A sequence of Derive calls whose first number is 0 or has a non-zero masked part returns the
    standard's key for every number. *)
Theorem C45_tlstree_derive : forall p root n ns, isbytes root -> (N.of_nat (length root) < 2 ^ 61)%N ->
  (n = 0%N \/ tls_masked p n <> (0%N, 0%N, 0%N)) ->
  tls_run (NewTLSTree p root) (n :: ns) = map (tls_key p root) (n :: ns).
Proof.
  intros [[p0 p1] p2] root n ns Hr HL Hn. cbn [tls_run map]. unfold tls_derive, tls_derive_cached, NewTLSTree. cbn [tl_params tl_prev tl_root tl_key].
  destruct (_ && _ && _ && _)%N eqn:Ec.
  - exfalso. rewrite !andb_true_iff, !N.eqb_eq, !N.land_0_l, N.ltb_lt in Ec. destruct Ec as [[[E E0] E1] E2]. destruct Hn as [->|Hn]; [discriminate|].
    apply Hn. cbn [tls_masked]. congruence.
  - destruct (tls_chain p0 p1 p2 root n Hr HL) as [E L]. rewrite E. rewrite copy32 by exact L. f_equal. apply (tls_run_warm (p0, p1, p2) root Hr HL).
Qed.
(** On a fresh tree a positive number whose masked parts are all zero yields 32 zero bytes, whatever the root key. *)
Theorem C45_tlstree_fresh_zero_key : forall p root n, (0 < n)%N -> tls_masked p n = (0%N, 0%N, 0%N) ->
  tls_run (NewTLSTree p root) [n] = [zeros 32].
Proof.
  intros [[p0 p1] p2] root n Hn Hm. cbn [tls_masked] in Hm. injection Hm as H0 H1 H2.
  cbn [tls_run]. unfold tls_derive, tls_derive_cached, NewTLSTree. cbn [tl_params tl_prev tl_root tl_key].
  rewrite H0, H1, H2, !N.land_0_l. apply N.ltb_lt in Hn. rewrite Hn. reflexivity.
Qed.
(** So the key is not a function of the root key and the number (TLSMagmaCTROMAC, number 1). *)
Definition TLSMagmaCTROMAC : N * N * N := (0xFFFFFFC000000000, 0xFFFFFFFFFE000000, 0xFFFFFFFFFFFFF000)%N.
Theorem C45_tlstree_history_refuted : exists root n, isbytes root /\
  tls_run (NewTLSTree TLSMagmaCTROMAC root) [n] = [zeros 32] /\
  tls_run (NewTLSTree TLSMagmaCTROMAC root) [0%N; n] = [tls_key TLSMagmaCTROMAC root 0; tls_key TLSMagmaCTROMAC root n] /\
  tls_key TLSMagmaCTROMAC root n <> zeros 32.
Proof.
  exists (zeros 32), 1%N. assert (Hz : isbytes (zeros 32)) by apply zeros_isbytes. split; [exact Hz|]. split; [now apply C45_tlstree_fresh_zero_key|]. split.
  - apply C45_tlstree_derive; [exact Hz|reflexivity|now left].
  - vm_compute. discriminate.
Qed.

(** ** C46: ESPTree *)
Definition esp_key (root is : list N) : list N := esptree_spec root (at_ is 0) (slice is 1 3) (slice is 3 5).
Lemma esp_chain : forall root is, isbytes root -> (N.of_nat (length root) < 2 ^ 61)%N -> isbytes is ->
  gs_kdf (gs_kdf (gs_kdf root (lv 1) ([0%N] ++ [at_ is 0])) (lv 2) (slice is 1 3)) (lv 3) (slice is 3 5) = esp_key root is
  /\ length (esp_key root is) = 32.
Proof.
  intros root is Hr HL Hi. apply (kdf3 root); auto.
  - constructor; [reflexivity|]. constructor; [now apply at_isbyte|constructor].
  - now apply isbytes_firstn, isbytes_skipn. - now apply isbytes_firstn, isbytes_skipn.
  - cbn. lia. - unfold slice. rewrite firstn_length. lia. - unfold slice. rewrite firstn_length. lia.
Qed.
Lemma esp_cached_ok : forall root prev is, isbytes root -> (N.of_nat (length root) < 2 ^ 61)%N -> isbytes is -> length is = 5 ->
  esp_derive_cached (mkesp root prev (esp_key root prev)) is
  = Some (mkesp root is (esp_key root is), (esp_key root is, if list_eq_dec N.eq_dec prev is then true else false)).
Proof.
  intros root prev is Hr HL Hi L. unfold esp_derive_cached. rewrite L. cbn [Nat.eqb negb es_prev es_root es_key].
  destruct (list_eq_dec N.eq_dec prev is) as [->|Hne]; [reflexivity|].
  destruct (esp_chain root is Hr HL Hi) as [E _]. rewrite E. reflexivity.
Qed.
Lemma esp_new_ok : forall root, isbytes root -> (N.of_nat (length root) < 2 ^ 61)%N ->
  NewESPTree root = Some (mkesp root (zeros 5) (esp_key root (zeros 5))).
Proof.
  intros root Hr HL. unfold NewESPTree, esp_derive_cached. change (length (zeros 5) =? 5) with true. cbn [negb es_prev es_root es_key].
  destruct (list_eq_dec _ _ _) as [C|_]; [discriminate C|]. destruct (esp_chain root (zeros 5) Hr HL (zeros_isbytes 5)) as [E _]. rewrite E. reflexivity.
Qed.
Lemma esp_run_ok : forall root, isbytes root -> (N.of_nat (length root) < 2 ^ 61)%N ->
  forall iss prev, Forall (fun is => isbytes is /\ length is = 5) iss ->
  esp_run (mkesp root prev (esp_key root prev)) iss = map (esp_key root) iss.
Proof.
  intros root Hr HL. induction iss as [|is iss IH]; intros prev HF; [reflexivity|]. cbn [esp_run map]. unfold esp_derive.
  pose proof (Forall_inv HF) as [Hi L]. apply Forall_inv_tail in HF. rewrite esp_cached_ok by assumption. cbn [option_map].
  rewrite copy32 by apply (esp_chain root is Hr HL Hi). f_equal. now apply IH.
Qed.
(** Whatever was derived before, Derive returns the key of the tree for its identifier. *)
Theorem C46_esptree_derive : forall root iss, isbytes root -> (N.of_nat (length root) < 2 ^ 61)%N ->
  Forall (fun is => isbytes is /\ length is = 5) iss ->
  exists t, NewESPTree root = Some t /\ esp_run t iss = map (esp_key root) iss.
Proof.
  intros root iss Hr HL HF. eexists. split; [now apply esp_new_ok|]. now apply esp_run_ok.
Qed.
(** DeriveCached reports a cache hit exactly for the identifier of the previous successful call
    (00 00 00 00 00 on a fresh tree), and any other length panics. *)
Theorem C46_esptree_cached_flag : forall root prev is, isbytes root -> (N.of_nat (length root) < 2 ^ 61)%N -> isbytes prev -> length prev = 5 -> isbytes is -> length is = 5 ->
  exists t0 t k, NewESPTree root = Some t0 /\ (exists r, esp_derive_cached t0 prev = Some (t, r)) /\
  exists t', esp_derive_cached t is = Some (t', (esp_key root is, k)) /\ (k = true <-> is = prev).
Proof.
  intros root prev is Hr HL Hp Lp Hi Li. eexists. eexists. eexists. split; [now apply esp_new_ok|].
  split; [eexists; now apply esp_cached_ok|]. eexists. split; [now apply esp_cached_ok|].
  destruct (list_eq_dec N.eq_dec prev is) as [->|Hne]; split; auto; try discriminate; intros E; exfalso; apply Hne; congruence.
Qed.
Theorem C46_esptree_length : forall t is, esp_derive t is = None <-> length is <> 5.
Proof.
  intros t is. unfold esp_derive, esp_derive_cached. destruct (Nat.eqb_spec (length is) 5) as [H|H]; cbn [negb].
  - split; [|contradiction]. destruct (list_eq_dec N.eq_dec (es_prev t) is); discriminate.
  - split; auto.
Qed.
Example C46_nonvacuous : exists t, NewESPTree (zeros 8) = Some t /\
  esp_run t [[1; 2; 3; 4; 5]%N; zeros 5; [1; 2; 3; 4; 5]%N] = map (esp_key (zeros 8)) [[1; 2; 3; 4; 5]%N; zeros 5; [1; 2; 3; 4; 5]%N].
Proof. apply C46_esptree_derive; [apply zeros_isbytes|reflexivity|repeat constructor]. Qed.
