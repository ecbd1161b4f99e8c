(** Murmur.v -- model of /repo/murmur3 (digest.go, murmur32.go, murmur64.go, murmur128.go) and proofs.

    The field tail is a view of d.buf; it is modelled as the list of its bytes.  append(d.tail, ..) in
    Write never exceeds the 16 bytes of d.buf and copy(d.buf[:], d.tail) is a memmove, so the list is
    what later calls see.  unsafe loads are little-endian loads (amd64/arm64). *)
From Coq Require Import List NArith Arith Lia Bool.
From Verif Require Import Base Words HashAPI Buf Refine SpecMurmur.
Import ListNotations.

(** digest.go:9-15, with the hash words h of murmur32.go:16-19 / murmur128.go:21-25.  clen is kept
    as a number; it is only read modulo 2^32 or 2^64. *)
Record mdig (S : Type) := mkmd { mh : S; mtail : list N; mclen : N; mseed : N }.
Arguments mkmd {S}. Arguments mh {S}. Arguments mtail {S}. Arguments mclen {S}. Arguments mseed {S}.

Section Digest.
Context {S : Type}.
Variable size : nat.
Variable mix : S -> list N -> S.
Variable init : N -> S.
(** murmur32.go:59-77 / murmur128.go:72-100 bmix: all whole blocks; the rest is returned *)
Fixpoint bmix_loop (n : nat) (i : nat) (h : S) (p : list N) : S :=
  match n with
  | O => h
  | Datatypes.S n' => bmix_loop n' (i + 1) (mix h (slice p (i * size) (i * size + size))) p
  end.
Definition bmix (h : S) (p : list N) : S * list N :=
  let nblocks := length p / size in (bmix_loop nblocks 0 h p, skipn (nblocks * size) p).
(** digest.go:27-53 Write *)
Definition mm_write (d : mdig S) (p : list N) : mdig S * nat :=
  let n := length p in
  let '(h, p) :=
    if 0 <? length (mtail d) then
      let nfree := size - length (mtail d) in
      if nfree <? length p then (fst (bmix (mh d) (mtail d ++ firstn nfree p)), skipn nfree p)
      else (mh d, mtail d ++ p)
    else (mh d, p) in
  let '(h, tail) := bmix h p in
  (mkmd h (firstn (Nat.min 16 (length tail)) tail) (mclen d + N.of_nat n)%N (mseed d), n).
(** digest.go:21-25 Reset, with reset() of the package files *)
Definition mm_reset (d : mdig S) : mdig S := mkmd (init (mseed d)) [] 0 (mseed d).
(** NewXWithSeed: murmur32.go:27-33, murmur128.go:33-39 *)
Definition mm_new (seed : N) : mdig S := mm_reset (mkmd (init 0%N) [] 0 seed).
End Digest.

(** murmur32.go:64-73, one block *)
Definition mm32_step (h1 : N) (b : list N) : N :=
  let k1 := le_val b in
  let k1 := mul32 k1 0xcc9e2d51 in
  let k1 := N.lor (shl32 k1 15) (N.shiftr k1 17) in
  let k1 := mul32 k1 0x1b873593 in
  let h1 := N.lxor h1 k1 in
  let h1 := N.lor (shl32 h1 13) (N.shiftr h1 19) in
  add32 (add32 (mul32 h1 4) h1) 0xe6546b64.
(** murmur32.go:79-111 Sum32 *)
Definition mm32_sum32 (d : mdig N) : N :=
  let h1 := mh d in
  let n := length (mtail d) mod 4 in
  let h1 := if 1 <=? n then
              let k1 := tail_xor (mtail d) n 0 in
              let k1 := mul32 k1 0xcc9e2d51 in
              let k1 := N.lor (shl32 k1 15) (N.shiftr k1 17) in
              N.lxor h1 (mul32 k1 0x1b873593)
            else h1 in
  let h1 := N.lxor h1 (w32 (mclen d)) in
  let h1 := N.lxor h1 (N.shiftr h1 16) in
  let h1 := mul32 h1 0x85ebca6b in
  let h1 := N.lxor h1 (N.shiftr h1 13) in
  let h1 := mul32 h1 0xc2b2ae35 in
  N.lxor h1 (N.shiftr h1 16).
(** murmur32.go:46-56 Sum, checkSum *)
Definition mm32_sum (d : mdig N) (inp : list N) : mdig N * list N := (d, inp ++ be_bytes 4 (mm32_sum32 d)).
Definition mm32_new : N -> mdig N := mm_new (fun s => s).
Definition mm32_impl : impl (mdig N) := mkimpl (mm_write 4 mm32_step) mm32_sum (mm_reset (fun s => s)).
(** murmur32.go:132-179 Sum32WithSeed *)
Definition mm32_oneshot (data : list N) (seed : N) : N :=
  let nblocks := length data / 4 in
  let h1 := bmix_loop 4 mm32_step nblocks 0 seed data in
  mm32_sum32 (mkmd h1 (skipn (nblocks * 4) data) (N.of_nat (length data)) seed).

(** murmur128.go:76-96, one block *)
Definition mm128_step (h : N * N) (b : list N) : N * N :=
  let '(h1, h2) := h in
  let k1 := le_val (slice b 0 8) in
  let k2 := le_val (slice b 8 16) in
  let k1 := mul64 k1 0x87c37b91114253d5 in
  let k1 := N.lor (shl64 k1 31) (N.shiftr k1 33) in
  let k1 := mul64 k1 0x4cf5ad432745937f in
  let h1 := N.lxor h1 k1 in
  let h1 := N.lor (shl64 h1 27) (N.shiftr h1 37) in
  let h1 := add64 h1 h2 in
  let h1 := add64 (mul64 h1 5) 0x52dce729 in
  let k2 := mul64 k2 0x4cf5ad432745937f in
  let k2 := N.lor (shl64 k2 33) (N.shiftr k2 31) in
  let k2 := mul64 k2 0x87c37b91114253d5 in
  let h2 := N.lxor h2 k2 in
  let h2 := N.lor (shl64 h2 31) (N.shiftr h2 33) in
  let h2 := add64 h2 h1 in
  let h2 := add64 (mul64 h2 5) 0x38495ab5 in
  (h1, h2).
(** murmur128.go:182-189 fmix64 *)
Definition fmix64 (k : N) : N :=
  let k := N.lxor k (N.shiftr k 33) in
  let k := mul64 k 0xff51afd7ed558ccd in
  let k := N.lxor k (N.shiftr k 33) in
  let k := mul64 k 0xc4ceb9fe1a85ec53 in
  N.lxor k (N.shiftr k 33).
(** murmur128.go:102-180 Sum128 *)
Definition mm128_sum128 (d : mdig (N * N)) : N * N :=
  let '(h1, h2) := mh d in
  let n := length (mtail d) mod 16 in
  let h2 := if 9 <=? n then
              let k2 := tail_xor (skipn 8 (mtail d)) (n - 8) 0 in
              let k2 := mul64 k2 0x4cf5ad432745937f in
              let k2 := N.lor (shl64 k2 33) (N.shiftr k2 31) in
              N.lxor h2 (mul64 k2 0x87c37b91114253d5)
            else h2 in
  let h1 := if 1 <=? n then
              let k1 := tail_xor (mtail d) (Nat.min n 8) 0 in
              let k1 := mul64 k1 0x87c37b91114253d5 in
              let k1 := N.lor (shl64 k1 31) (N.shiftr k1 33) in
              N.lxor h1 (mul64 k1 0x4cf5ad432745937f)
            else h1 in
  let h1 := N.lxor h1 (w64 (mclen d)) in
  let h2 := N.lxor h2 (w64 (mclen d)) in
  let h1 := add64 h1 h2 in
  let h2 := add64 h2 h1 in
  let h1 := fmix64 h1 in
  let h2 := fmix64 h2 in
  let h1 := add64 h1 h2 in
  let h2 := add64 h2 h1 in
  (h1, h2).
(** murmur128.go:49-70 Sum, checkSum *)
Definition mm128_sum (d : mdig (N * N)) (inp : list N) : mdig (N * N) * list N :=
  let '(h1, h2) := mm128_sum128 d in (d, inp ++ (be_bytes 8 h1 ++ be_bytes 8 h2)).
Definition mm128_new : N -> mdig (N * N) := mm_new (fun s => (s, s)).
Definition mm128_impl : impl (mdig (N * N)) := mkimpl (mm_write 16 mm128_step) mm128_sum (mm_reset (fun s => (s, s))).
(** murmur64.go:22-41 Sum, checkSum, Sum64: the first half *)
Definition mm64_sum (d : mdig (N * N)) (inp : list N) : mdig (N * N) * list N :=
  (d, inp ++ be_bytes 8 (fst (mm128_sum128 d))).
Definition mm64_impl : impl (mdig (N * N)) := mkimpl (mm_write 16 mm128_step) mm64_sum (mm_reset (fun s => (s, s))).
(** murmur128.go:208-214 Sum128WithSeed (murmur64.go:58-65 Sum64WithSeed returns the first half) *)
Definition mm128_oneshot (data : list N) (seed : N) : N * N :=
  let '(h, tail) := bmix 16 mm128_step (seed, seed) data in
  mm128_sum128 (mkmd h tail (N.of_nat (length data)) seed).
(** Size(): murmur32.go:35-37, murmur128.go:41-43; digest64 has no method of its own and promotes
    that of the digest128 stored in its bmixer field (murmur64.go:8, 17-20). *)
Definition mm32_size : nat := 4.
Definition mm128_size : nat := 16.
Definition mm64_size : nat := 16.

(** * Proofs *)
Section Generic.
Context {S : Type}.
Variable size : nat.
Variable mix : S -> list N -> S.
Variable init : N -> S.
Hypothesis Hs : 0 < size <= 16.
Lemma bmix_loop_ok : forall p n i h, n * size + i * size <= length p ->
  bmix_loop size mix n i h p = fold_left mix (map (fun j => slice p ((i + j) * size) ((i + j) * size + size)) (seq 0 n)) h.
Proof.
  induction n as [|n IH]; intros i h H; [reflexivity|]. cbn [bmix_loop].
  rewrite IH by lia. rewrite seq_cons. cbn [map fold_left]. rewrite Nat.add_0_r. f_equal.
  rewrite <- seq_shift, map_map. apply map_ext. intros j. now replace (i + 1 + j) with (i + Datatypes.S j) by lia.
Qed.
Lemma bmix_ok : forall h p, bmix size mix h p = (fold_left mix (chunks size p) h, rest size p).
Proof.
  intros h p. unfold bmix, rest. f_equal. rewrite bmix_loop_ok.
  - f_equal. unfold chunks. apply map_ext. intros j. unfold slice. cbn [plus]. f_equal. lia.
  - pose proof (Nat.div_mod (length p) size ltac:(lia)). lia.
Qed.
Definition mm_rel (seed : N) (d : mdig S) (m : list N) : Prop :=
  mh d = fold_left mix (chunks size m) (init seed) /\ mtail d = rest size m /\ mclen d = N.of_nat (length m) /\ mseed d = seed.
Lemma mm_new_rel : forall seed, mm_rel seed (mm_new init seed) [].
Proof.
  intros. unfold mm_rel, mm_new, mm_reset. cbn [mh mtail mclen mseed].
  rewrite chunks_short, rest_short by (cbn [length]; lia). auto.
Qed.
Lemma mm_reset_rel : forall seed d m, mm_rel seed d m -> mm_rel seed (mm_reset init d) [].
Proof.
  intros seed d m (_ & _ & _ & E). unfold mm_rel, mm_reset. cbn [mh mtail mclen mseed]. rewrite E.
  rewrite chunks_short, rest_short by (cbn [length]; lia). auto.
Qed.
Lemma mm_write_rel : forall seed d m p, mm_rel seed d m -> mm_rel seed (fst (mm_write size mix d p)) (m ++ p).
Proof.
  intros seed d m p (Eh & Et & Ec & Es).
  assert (T : length (rest size m) < size) by (apply rest_length_lt; lia).
  assert (K : exists h q, (if 0 <? length (mtail d) then
      let nfree := size - length (mtail d) in
      if nfree <? length p then (fst (bmix size mix (mh d) (mtail d ++ firstn nfree p)), skipn nfree p)
      else (mh d, mtail d ++ p)
    else (mh d, p)) = (h, q) /\ fold_left mix (chunks size q) h = fold_left mix (chunks size (m ++ p)) (init seed) /\
      rest size q = rest size (m ++ p)).
  { rewrite Et. destruct (Nat.ltb_spec 0 (length (rest size m))) as [G|G].
    - cbn zeta. set (nf := size - length (rest size m)). destruct (Nat.ltb_spec nf (length p)) as [F|F].
      + eexists _, _. split; [reflexivity|]. rewrite bmix_ok. cbn [fst].
        assert (Lb : length (rest size m ++ firstn nf p) = size) by (rewrite app_length, firstn_length; lia).
        rewrite (chunks_one _ size _ ltac:(lia) Lb).
        rewrite (chunks_app _ size m p) by lia. rewrite (rest_app _ size m p) by lia.
        assert (EP : rest size m ++ p = (rest size m ++ firstn nf p) ++ skipn nf p) by (rewrite <- app_assoc, firstn_skipn; reflexivity).
        rewrite EP.
        rewrite (chunks_app _ size (rest size m ++ firstn nf p) (skipn nf p)) by lia.
        rewrite (rest_app _ size (rest size m ++ firstn nf p) (skipn nf p)) by lia.
        rewrite (chunks_one _ size (rest size m ++ firstn nf p) ltac:(lia) Lb).
        rewrite (rest_one _ size (rest size m ++ firstn nf p) ltac:(lia) Lb). cbn [app].
        rewrite !fold_left_app. cbn [fold_left]. rewrite Eh. auto.
      + eexists _, _. split; [reflexivity|]. rewrite (chunks_app _ size m p), (rest_app _ size m p), fold_left_app, Eh by lia. auto.
    - eexists _, _. split; [reflexivity|]. assert (E : rest size m = []) by (apply length_zero_iff_nil; lia).
      rewrite (chunks_app _ size m p), (rest_app _ size m p), fold_left_app, Eh, E by lia. auto. }
  unfold mm_write. destruct K as (h & q & E & F1 & F2). cbv zeta in E |- *. rewrite E, bmix_ok. cbn [fst].
  unfold mm_rel. cbn [mh mtail mclen mseed]. repeat split; auto.
  - assert (length (rest size q) < size) by (apply rest_length_lt; lia).
    rewrite firstn_all2 by lia. exact F2.
  - rewrite Ec, app_length. lia.
Qed.
Lemma mm_write_count : forall d p, snd (mm_write size mix d p) = length p.
Proof.
  intros. unfold mm_write. cbv zeta.
  match goal with |- context [let '(_, _) := ?X in _] => destruct X as [h1 q1] end.
  destruct (bmix size mix h1 q1). reflexivity.
Qed.
End Generic.

Lemma rotl32_or : forall x n k, (n + k = 32)%N -> N.lor (shl32 x n) (N.shiftr x k) = rotl32 x n.
Proof. intros x n k H. unfold rotl32, shl32. now replace (32 - n)%N with k by lia. Qed.
Lemma rotl64_or : forall x n k, (n + k = 64)%N -> N.lor (shl64 x n) (N.shiftr x k) = rotl64 x n.
Proof. intros x n k H. unfold rotl64, shl64. now replace (64 - n)%N with k by lia. Qed.
Lemma w32_mul_l : forall a b, w32 (w32 a * b) = w32 (a * b).
Proof. intros. rewrite !w32_mod. now rewrite N.mul_mod_idemp_l by discriminate. Qed.
Lemma mul5 : forall h, add32 (mul32 h 4) h = mul32 h 5.
Proof. intros. unfold add32, mul32. rewrite w32_add_l. f_equal. lia. Qed.
Lemma mm32_step_ok : forall h b, mm32_step h b = mm32_body h b.
Proof.
  intros. unfold mm32_step, mm32_body, mm32_k. cbv zeta.
  rewrite (rotl32_or _ 15 17), (rotl32_or _ 13 19), mul5 by reflexivity. reflexivity.
Qed.
Lemma mm32_sum_ok : forall seed d m, isbytes m -> mm_rel 4 mm32_step (fun s => s) seed d m ->
  mm32_sum32 d = murmur32_spec seed m.
Proof.
  intros seed d m Hm (Eh & Et & Ec & Es). unfold mm32_sum32, murmur32_spec. rewrite Eh, Et, Ec.
  assert (T : length (rest 4 m) < 4) by (apply rest_length_lt; lia).
  rewrite (Nat.mod_small (length (rest 4 m)) 4) by lia.
  assert (B : isbytes (rest 4 m)) by now apply isbytes_rest.
  assert (F : fold_left mm32_step (chunks 4 m) seed = fold_left mm32_body (chunks 4 m) seed).
  { apply fold_left_ext_in. intros. apply mm32_step_ok. }
  rewrite F. set (h := fold_left mm32_body (chunks 4 m) seed). unfold fmix32. cbv zeta.
  assert (X : (if 1 <=? length (rest 4 m) then N.lxor h (mul32 (N.lor (shl32 (mul32 (tail_xor (rest 4 m) (length (rest 4 m)) 0) 0xcc9e2d51) 15)
             (N.shiftr (mul32 (tail_xor (rest 4 m) (length (rest 4 m)) 0) 0xcc9e2d51) 17)) 0x1b873593) else h) = N.lxor h (mm32_k (le_val (rest 4 m)))).
  { destruct (Nat.leb_spec 1 (length (rest 4 m))) as [G|G].
    - rewrite tail_xor_ok by (auto; lia). rewrite firstn_all, N.lxor_0_l. rewrite (rotl32_or _ 15 17) by reflexivity. reflexivity.
    - assert (E : rest 4 m = []) by (apply length_zero_iff_nil; lia). rewrite E.
      change (mm32_k (le_val [])) with 0%N. now rewrite N.lxor_0_r. }
  rewrite X. reflexivity.
Qed.
Lemma mm32_contract_lemma : forall seed ops, Forall op_bytes ops ->
  run mm32_impl (mm32_new seed) ops = ideal_run (fun m => be_bytes 4 (murmur32_spec seed m)) [] ops.
Proof.
  intros seed ops Ho.
  eapply run_refines_bytes with (R := fun d m => isbytes m /\ mm_rel 4 mm32_step (fun s => s) seed d m); auto; cbn [mm32_impl i_write i_sum i_reset].
  - intros d m p Hp [Hm R]. split; [now apply isbytes_app|]. now apply mm_write_rel; [lia|].
  - intros d m p Hp _. apply mm_write_count.
  - intros d m i [Hm R]. unfold mm32_sum. cbn [snd]. now rewrite (mm32_sum_ok seed d m).
  - intros d m [Hm R]. split; [constructor|]. now apply mm_reset_rel with m; [lia|].
  - split; [constructor|]. apply mm_new_rel. lia.
Qed.
Lemma mm32_oneshot_lemma : forall seed data, isbytes data -> mm32_oneshot data seed = murmur32_spec seed data.
Proof.
  intros seed data H. unfold mm32_oneshot.
  change (bmix_loop 4 mm32_step (length data / 4) 0 seed data) with (fst (bmix 4 mm32_step seed data)).
  rewrite bmix_ok by lia. cbn [fst]. apply mm32_sum_ok; auto. repeat split.
Qed.

Lemma mm128_step_ok : forall h b, length b = 16 -> mm128_step h b = mm128_body h b.
Proof.
  intros [h1 h2] b L. unfold mm128_step, mm128_body, mm128_k1, mm128_k2. cbv zeta.
  assert (E1 : slice b 0 8 = firstn 8 b) by reflexivity.
  assert (E2 : slice b 8 16 = skipn 8 b) by (unfold slice; apply firstn_all2; rewrite skipn_length; lia).
  rewrite E1, E2. rewrite (rotl64_or _ 31 33), (rotl64_or _ 27 37), (rotl64_or _ 33 31), (rotl64_or _ 31 33) by reflexivity.
  reflexivity.
Qed.
Lemma mm128_sum_ok : forall seed d m, isbytes m -> mm_rel 16 mm128_step (fun s => (s, s)) seed d m ->
  mm128_sum128 d = murmur128_spec seed m.
Proof.
  intros seed d m Hm (Eh & Et & Ec & Es). unfold mm128_sum128, murmur128_spec. rewrite Eh, Et, Ec.
  assert (T : length (rest 16 m) < 16) by (apply rest_length_lt; lia).
  rewrite (Nat.mod_small (length (rest 16 m)) 16) by lia.
  assert (B : isbytes (rest 16 m)) by now apply isbytes_rest.
  assert (F : fold_left mm128_step (chunks 16 m) (seed, seed) = fold_left mm128_body (chunks 16 m) (seed, seed)).
  { apply fold_left_ext_in. intros s b Hb. apply mm128_step_ok.
    pose proof (chunks_all_length N 16 m ltac:(lia)) as A. rewrite Forall_forall in A. now apply A. }
  rewrite F. destruct (fold_left mm128_body (chunks 16 m) (seed, seed)) as [h1 h2].
  set (t := rest 16 m) in *. cbv zeta.
  assert (X2 : (if 9 <=? length t then N.lxor h2 (mul64 (N.lor (shl64 (mul64 (tail_xor (skipn 8 t) (length t - 8) 0) 0x4cf5ad432745937f) 33)
             (N.shiftr (mul64 (tail_xor (skipn 8 t) (length t - 8) 0) 0x4cf5ad432745937f) 31)) 0x87c37b91114253d5) else h2)
             = N.lxor h2 (mm128_k2 (le_val (skipn 8 t)))).
  { destruct (Nat.leb_spec 9 (length t)) as [G|G].
    - rewrite tail_xor_ok by (try apply isbytes_skipn; auto; rewrite skipn_length; lia).
      rewrite firstn_all2 by (rewrite skipn_length; lia). rewrite N.lxor_0_l, (rotl64_or _ 33 31) by reflexivity. reflexivity.
    - rewrite (skipn_all2 t) by lia. change (mm128_k2 (le_val [])) with 0%N. now rewrite N.lxor_0_r. }
  assert (X1 : (if 1 <=? length t then N.lxor h1 (mul64 (N.lor (shl64 (mul64 (tail_xor t (Nat.min (length t) 8) 0) 0x87c37b91114253d5) 31)
             (N.shiftr (mul64 (tail_xor t (Nat.min (length t) 8) 0) 0x87c37b91114253d5) 33)) 0x4cf5ad432745937f) else h1)
             = N.lxor h1 (mm128_k1 (le_val (firstn 8 t)))).
  { destruct (Nat.leb_spec 1 (length t)) as [G|G].
    - rewrite tail_xor_ok by (auto; lia). rewrite N.lxor_0_l, (rotl64_or _ 31 33) by reflexivity.
      assert (E : firstn (Nat.min (length t) 8) t = firstn 8 t).
      { destruct (Nat.le_gt_cases 8 (length t)); [f_equal; lia|]. rewrite !firstn_all2 by lia. reflexivity. }
      now rewrite E.
    - assert (E : t = []) by (apply length_zero_iff_nil; lia). rewrite E.
      change (mm128_k1 (le_val (firstn 8 []))) with 0%N. now rewrite N.lxor_0_r. }
  rewrite X1, X2. reflexivity.
Qed.
Lemma mm128_contract_lemma : forall seed ops, Forall op_bytes ops ->
  run mm128_impl (mm128_new seed) ops =
  ideal_run (fun m => be_bytes 8 (fst (murmur128_spec seed m)) ++ be_bytes 8 (snd (murmur128_spec seed m))) [] ops.
Proof.
  intros seed ops Ho.
  eapply run_refines_bytes with (R := fun d m => isbytes m /\ mm_rel 16 mm128_step (fun s => (s, s)) seed d m); auto; cbn [mm128_impl i_write i_sum i_reset].
  - intros d m p Hp [Hm R]. split; [now apply isbytes_app|]. now apply mm_write_rel; [lia|].
  - intros d m p Hp _. apply mm_write_count.
  - intros d m i [Hm R]. unfold mm128_sum. destruct (mm128_sum128 d). auto.
  - intros d m i [Hm R]. unfold mm128_sum. rewrite (mm128_sum_ok seed d m) by auto.
    destruct (murmur128_spec seed m). reflexivity.
  - intros d m [Hm R]. split; [constructor|]. now apply mm_reset_rel with m; [lia|].
  - split; [constructor|]. apply mm_new_rel. lia.
Qed.
Lemma mm64_contract_lemma : forall seed ops, Forall op_bytes ops ->
  run mm64_impl (mm128_new seed) ops = ideal_run (fun m => be_bytes 8 (fst (murmur128_spec seed m))) [] ops.
Proof.
  intros seed ops Ho.
  eapply run_refines_bytes with (R := fun d m => isbytes m /\ mm_rel 16 mm128_step (fun s => (s, s)) seed d m); auto; cbn [mm64_impl i_write i_sum i_reset].
  - intros d m p Hp [Hm R]. split; [now apply isbytes_app|]. now apply mm_write_rel; [lia|].
  - intros d m p Hp _. apply mm_write_count.
  - intros d m i [Hm R]. unfold mm64_sum. cbn [snd]. now rewrite (mm128_sum_ok seed d m).
  - intros d m [Hm R]. split; [constructor|]. now apply mm_reset_rel with m; [lia|].
  - split; [constructor|]. apply mm_new_rel. lia.
Qed.
Lemma mm128_oneshot_lemma : forall seed data, isbytes data -> mm128_oneshot data seed = murmur128_spec seed data.
Proof.
  intros seed data H. unfold mm128_oneshot. rewrite bmix_ok by lia. apply mm128_sum_ok; auto. repeat split.
Qed.
