(** PropAscon.v -- final theorems about package ascon. *)
From Coq Require Import List NArith Arith Lia Bool.
From Verif Require Import Base Words HashAPI Buf Refine SpecAscon Ascon Ascon2.
Import ListNotations.

(** ** C28: NewHash and NewHasha are Ascon-Hash and Ascon-Hasha under every call history. *)
Theorem C28_ascon_hash_contract : forall ops, Forall op_bytes ops ->
  run ascon_hash_impl NewHash ops = ideal_run (ascon_hash 12) [] ops.
Proof.
  intros ops HF. apply hash_refines; auto. unfold NewHash. rewrite reset_12 by auto. apply fresh_rel.
Qed.
Theorem C28_ascon_hasha_contract : forall ops, Forall op_bytes ops ->
  run ascon_hash_impl NewHasha ops = ideal_run (ascon_hash 8) [] ops.
Proof.
  intros ops HF. apply hash_refines; auto. unfold NewHasha. rewrite reset_8. apply fresh_rel.
Qed.
Example C28_nonvacuous : Forall op_bytes [Write (zeros 9); Sum []; Write [1]%N; Sum [7]%N; Reset; Sum []] /\
  ascon_hash 8 [0]%N <> ascon_hash 8 [].
Proof.
  split; [repeat constructor|]. vm_compute; discriminate.
Qed.

(** ** C66: the zero value of type Hash is Ascon-Hash if it is written or Reset before the first Sum,
    and is not otherwise. *)
Theorem C66_zero_hash_after_write_or_reset : forall ops, Forall op_bytes ops ->
  (forall i t, ops <> Sum i :: t) ->
  run ascon_hash_impl zero_hash ops = ideal_run (ascon_hash 12) [] ops.
Proof.
  intros ops HF HS. destruct ops as [|[p|i|] ops]; [reflexivity| |exfalso; eapply HS; reflexivity|].
  - inversion HF as [|? ? Hp HF']; subst. cbn [run ideal_run i_write ascon_hash_impl].
    unfold hash_write. change (ab zero_hash =? 0) with true. cbv iota. change (ab zero_hash) with 0. rewrite reset_12 by auto.
    f_equal. apply hash_refines; auto. apply (ad_write_rel 12 (ivs 12) _ [] p); auto. apply fresh_rel.
  - inversion HF as [|? ? Hp HF']; subst. cbn [run ideal_run i_reset ascon_hash_impl].
    change (ab zero_hash) with 0. rewrite reset_12 by auto. apply hash_refines; auto. apply fresh_rel.
Qed.
Theorem C66_zero_hash_sum_refuted : run ascon_hash_impl zero_hash [Sum []] <> ideal_run (ascon_hash 12) [] [Sum []].
Proof. vm_compute. discriminate. Qed.

(** ** C29: the XOF.  [ideal_xof m rp ops]: Writes append to the message until the first Read; the Reads
    return consecutive pieces of Ascon-Xof(message); Write after Read panics; Reset starts again. *)
Theorem C29_ascon_xof_contract : forall ops, Forall xop_bytes ops -> xof_run NewXof ops = ideal_xof [] None ops.
Proof. intros ops HF. apply xof_run_ok; auto. apply xof_reset_rel. reflexivity. Qed.
Theorem C29_ascon_xof_zero_value : forall ops, Forall xop_bytes ops -> xof_run zero_hash ops = ideal_xof [] None ops.
Proof.
  intros ops HF. assert (E : xof_run zero_hash ops = xof_run NewXof ops); [|rewrite E; now apply C29_ascon_xof_contract].
  destruct ops as [|[p|n|] ops]; [reflexivity| | |reflexivity].
  - cbn [xof_run]. unfold xof_write. change (ab zero_hash =? 0) with true. change (ab NewXof =? 0) with false. reflexivity.
  - cbn [xof_run]. unfold xof_read. change (ab zero_hash =? 0) with true. change (ab NewXof =? 0) with false. reflexivity.
Qed.
(** Cutting the reads: two Reads return what one Read of the total size returns. *)
Lemma xof_prefix : forall m k n, firstn k (ascon_xof m (k + n)) = ascon_xof m k.
Proof.
  intros m k n. rewrite !xof_ivx, !stream_bytes. rewrite seq_app, map_app. cbn [plus].
  apply firstn_app_len. now rewrite map_length, seq_length.
Qed.
Theorem C29_ascon_xof_reads_split : forall m a b, isbytes m ->
  exists x y, xof_run NewXof [XWrite m; XRead a; XRead b] = [XWrote (length m); XBytes x; XBytes y] /\
              xof_run NewXof [XWrite m; XRead (a + b)] = [XWrote (length m); XBytes (x ++ y)].
Proof.
  intros m a b Hm. rewrite !C29_ascon_xof_contract by (repeat constructor; auto). cbn [ideal_xof app plus].
  exists (ascon_xof m a), (skipn a (ascon_xof m (a + b))). cbn [skipn]. split; auto. rewrite <- (xof_prefix m a b) at 1. now rewrite firstn_skipn.
Qed.
Example C29_nonvacuous : Forall xop_bytes [XWrite (zeros 3); XWrite [5]%N; XRead 3; XRead 20; XReset; XRead 1] /\
  ascon_xof [0]%N 8 <> ascon_xof [] 8.
Proof. split; [repeat constructor|]. vm_compute; discriminate. Qed.

(** ** C30: the AEAD.  [ascon128 key nonce ad pt] is the specification's (ciphertext, tag). *)
Theorem C30_seal_is_ascon128 : forall key dst nonce pt ad, length key = 16 -> isbytes key -> length nonce = 16 -> isbytes nonce ->
  isbytes pt -> isbytes ad -> exists c t, ascon128 key nonce ad pt = (c, t) /\ length c = length pt /\ length t = 16 /\
  Seal key dst nonce pt ad = Some (dst ++ c ++ t).
Proof.
  intros key dst nonce pt ad Lk Bk Ln Bn Hp Ha. rewrite Seal_ok by (auto; split; auto).
  assert (K : kwf key) by (split; auto). assert (Kn : kwf nonce) by (split; auto).
  destruct (start_ok key nonce ad K Kn Ha) as [ES WS].
  pose proof (enc_spec_wf pt _ WS Hp) as (LC & _). rewrite ascon128_enc, <- ES. destruct (enc_spec _ pt) as [c s]. cbn [fst snd] in *.
  eexists _, _. split; [reflexivity|]. split; [exact LC|]. split; [|reflexivity]. unfold ascon128_final. destruct s as [[[[? ?] ?] ?] ?].
  destruct (ascon_p 12 _) as [[[[? ?] ?] ?] ?]. now rewrite app_length, !be_bytes_length.
Qed.
(** Open succeeds with [pt] exactly on the ciphertext and tag of [pt]; ... *)
Theorem C30_open_succeeds_iff : forall key dst nonce ct ad pt, length key = 16 -> isbytes key -> length nonce = 16 -> isbytes nonce ->
  isbytes ct -> isbytes ad -> isbytes pt ->
  (Open key dst nonce ct ad = Some (dst ++ pt, true) <-> exists c t, ascon128 key nonce ad pt = (c, t) /\ ct = c ++ t).
Proof.
  intros key dst nonce ct ad pt Lk Bk Ln Bn Hc Ha Hp. rewrite Open_iff by (auto; split; auto).
  destruct (ascon128 key nonce ad pt) as [c t]. cbn [fst snd]. split; [eauto|]. intros (c' & t' & E & ->). now inversion E.
Qed.
(** ... in particular it inverts Seal; ... *)
Theorem C30_open_inverts_seal : forall key nonce pt ad, length key = 16 -> isbytes key -> length nonce = 16 -> isbytes nonce ->
  isbytes pt -> isbytes ad -> exists ct, Seal key [] nonce pt ad = Some ct /\ forall dst, Open key dst nonce ct ad = Some (dst ++ pt, true).
Proof.
  intros key nonce pt ad Lk Bk Ln Bn Hp Ha. assert (K : kwf key) by (split; auto). assert (Kn : kwf nonce) by (split; auto).
  rewrite (Seal_ok key [] nonce pt ad) by auto. eexists. split; [reflexivity|]. intros dst. cbn [app].
  apply Open_iff; auto. destruct (start_ok key nonce ad K Kn Ha) as [ES WS]. pose proof (enc_spec_wf pt _ WS Hp) as (_ & BC & _).
  rewrite ascon128_enc, <- ES. destruct (enc_spec _ pt) as [c s]. cbn [fst snd] in *. apply isbytes_app. split; auto.
  unfold ascon128_final. destruct s as [[[[? ?] ?] ?] ?]. destruct (ascon_p 12 _) as [[[[? ?] ?] ?] ?]. apply isbytes_app; split; apply be_bytes_isbytes.
Qed.
(** ... and it fails exactly when the input is shorter than a tag or is no (ciphertext, tag) of any plaintext. *)
Theorem C30_open_fails_iff : forall key dst nonce ct ad, length key = 16 -> isbytes key -> length nonce = 16 -> isbytes nonce ->
  isbytes ct -> isbytes ad ->
  exists out ok, Open key dst nonce ct ad = Some (out, ok) /\
  (ok = false <-> forall pt, isbytes pt -> ct <> fst (ascon128 key nonce ad pt) ++ snd (ascon128 key nonce ad pt)).
Proof.
  intros key dst nonce ct ad Lk Bk Ln Bn Hc Ha. assert (K : kwf key) by (split; auto). assert (Kn : kwf nonce) by (split; auto).
  destruct (Nat.lt_ge_cases (length ct) 16) as [L|L].
  - exists dst, false. unfold Open. rewrite Ln. change (negb (16 =? 16)) with false. cbv iota. destruct (Nat.ltb_spec (length ct) 16); [|lia].
    split; auto. split; auto. intros _ pt Hp E. pose proof (proj2 (Open_iff key dst nonce ct ad pt K Kn Hc Ha Hp) E) as H0.
    unfold Open in H0. rewrite Ln in H0. change (negb (16 =? 16)) with false in H0. cbv iota in H0. destruct (Nat.ltb_spec (length ct) 16); [discriminate|lia].
  - destruct (Open_ok key dst nonce ct ad K Kn Hc Ha L) as (B & LP & EC & ok & EO & Hok).
    exists (dst ++ open_pt key nonce ad (firstn (length ct - 16) ct)), ok. split; auto. split.
    + intros -> pt Hp E. pose proof (proj2 (Open_iff key dst nonce ct ad pt K Kn Hc Ha Hp) E) as H0. rewrite EO in H0. apply some_inj in H0.
      inversion H0.
    + intros H. destruct ok; auto. exfalso. apply (H _ B). rewrite EC. rewrite <- (proj1 Hok eq_refl). symmetry. apply firstn_skipn.
Qed.
Definition k16 : list N := SpecAscon.iota 16.
Example C30_nonvacuous : length k16 = 16 /\ isbytes k16 /\
  Seal k16 [9]%N k16 (iota 11) [1; 2]%N = Some (9%N :: fst (ascon128 k16 k16 [1; 2]%N (iota 11)) ++ snd (ascon128 k16 k16 [1; 2]%N (iota 11))) /\
  Open k16 [] k16 (zeros 20) [] <> Some ([], true).
Proof.
  split; [reflexivity|]. assert (B : forall n, n <= 256 -> isbytes (iota n)).
  { intros n Hn. apply Forall_forall. intros x Hx. apply in_map_iff in Hx. destruct Hx as (i & <- & Hi). apply in_seq in Hi. unfold isbyte. lia. }
  assert (K : kwf k16) by (split; [reflexivity|apply B; lia]). split; [apply K|]. split.
  - apply Seal_ok; auto. apply B. lia. repeat constructor.
  - vm_compute. discriminate.
Qed.

(** ** C67: a failing Open still returns dst extended with the unauthenticated plaintext
    (crypto/cipher implementations return nil). *)
Theorem C67_failed_open_releases_plaintext_refuted :
  exists key nonce ct ad out, kwf key /\ kwf nonce /\ isbytes ct /\ isbytes ad /\
  Open key [] nonce ct ad = Some (out, false) /\ out <> [] /\ out = [104; 105]%N.
Proof.
  exists k16, k16, (fst (ascon128 k16 k16 [] [104; 105]%N) ++ zeros 16), [], [104; 105]%N.
  split; [split; [reflexivity|repeat constructor]|]. split; [split; [reflexivity|repeat constructor]|].
  split; [vm_compute; repeat constructor|]. split; [constructor|]. split; [vm_compute; reflexivity|]. split; [discriminate|reflexivity].
Qed.
Theorem C67_open_always_returns_decryption : forall key dst nonce ct ad, length key = 16 -> isbytes key -> length nonce = 16 -> isbytes nonce ->
  isbytes ct -> isbytes ad -> 16 <= length ct ->
  exists pt ok, Open key dst nonce ct ad = Some (dst ++ pt, ok) /\ isbytes pt /\
                fst (ascon128 key nonce ad pt) = firstn (length ct - 16) ct.
Proof.
  intros key dst nonce ct ad Lk Bk Ln Bn Hc Ha L. assert (K : kwf key) by (split; auto). assert (Kn : kwf nonce) by (split; auto).
  destruct (Open_ok key dst nonce ct ad K Kn Hc Ha L) as (B & LP & EC & ok & EO & Hok). eauto 6.
Qed.

(** ** C68: the MAC *)
Theorem C68_ascon_mac_contract : forall key, length key = 16 -> isbytes key ->
  exists d, NewMAC key = Some d /\ forall ops, Forall op_bytes ops -> Forall no_reset ops ->
  run mac_impl d ops = ideal_run (ascon_mac key) [] ops.
Proof.
  intros key L B. assert (K : kwf key) by (split; auto). destruct (mac_new_rel key K) as (d & E & R). exists d. split; auto.
  intros ops HF HN. now apply mac_refines.
Qed.
Theorem C68_ascon_mac_verify : forall key pieces mac, length key = 16 -> isbytes key -> Forall isbytes pieces -> isbytes mac ->
  exists d, NewMAC key = Some d /\
  (mac_verify (fold_left (fun d p => fst (mac_write d p)) pieces d) mac = true <-> mac = ascon_mac key (concat pieces)).
Proof.
  intros key pieces mac L B HP HM. assert (K : kwf key) by (split; auto). destruct (mac_new_rel key K) as (d & E & R). exists d. split; auto.
  apply mac_verify_ok; auto. change (concat pieces) with ([] ++ concat pieces). clear E. revert d R. generalize (@nil N).
  induction HP as [|p ps Hp HP IH]; intros m d R; cbn [fold_left concat]; [now rewrite app_nil_r|].
  rewrite app_assoc. apply IH. now apply mac_write_rel.
Qed.
Example C68_nonvacuous : exists d, NewMAC k16 = Some d /\ mac_verify d (ascon_mac k16 []) = true /\ mac_verify d (zeros 16) = false.
Proof. eexists. split; [vm_compute; reflexivity|]. split; vm_compute; reflexivity. Qed.
