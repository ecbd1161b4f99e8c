(** Xxh.v -- models of /repo/xxhash/xxhash32 and /repo/xxhash/xxhash64 (digest.go, utils.go, sbox.go)
    and proofs.  d.len is a uint64 compared with the block size, so the theorems speak of messages
    shorter than 2^64 bytes. *)
From Coq Require Import List NArith Arith Lia Bool.
From Verif Require Import Base Words HashAPI Buf Refine SpecXxh.
Import ListNotations.

(** digest.go:9-16 of both packages *)
Record xdig := mkxd { xs : list N; xx : list N; xnx : nat; xlen : N; xseed : N }.

(** ** xxhash32 *)
(** sbox.go:3-7 *)
Definition prime32 : list N := [0x9e3779b1; 0x85ebca77; 0xc2b2ae3d; 0x27d4eb2f; 0x165667b1]%N.
(** utils.go:53-59 round *)
Definition x32_round (acc input : N) : N :=
  let acc := add32 acc (mul32 input (at_ prime32 1)) in
  let acc := rotl32 acc 13 in
  mul32 acc (at_ prime32 0).
(** utils.go:61-69 avalanche *)
Definition x32_avalanche (h : N) : N :=
  let h := N.lxor h (N.shiftr h 15) in
  let h := mul32 h (at_ prime32 1) in
  let h := N.lxor h (N.shiftr h 13) in
  let h := mul32 h (at_ prime32 2) in
  N.lxor h (N.shiftr h 16).
(** digest.go:26-34 Reset (d.x is left as it is) *)
Definition x32_reset (d : xdig) : xdig :=
  let seed := xseed d in
  mkxd [add32 (add32 seed (at_ prime32 0)) (at_ prime32 1); add32 seed (at_ prime32 1); seed; sub32 seed (at_ prime32 0)]
    (xx d) 0 0 seed.
(** digest.go:18-23 newDigest *)
Definition x32_new (seed : N) : xdig := x32_reset (mkxd (zeros 4) (zeros 16) 0 0 seed).
(** digest.go:116-123 compress, with utils.go:20-31 bytesToUint32s *)
Definition x32_compress (s : list N) (data : list N) : list N :=
  [x32_round (at_ s 0) (le_val (slice data 0 4)); x32_round (at_ s 1) (le_val (slice data 4 8));
   x32_round (at_ s 2) (le_val (slice data 8 12)); x32_round (at_ s 3) (le_val (slice data 12 16))].
(** digest.go:47-71 Write *)
Definition x32_write (d : xdig) (p : list N) : xdig * nat :=
  let '(s, x, nx, _) := writeA 16 (fun s x _ => x32_compress s x) (xs d) (xx d) (xnx d) p in
  (mkxd s x nx (add64 (xlen d) (N.of_nat (length p))) (xseed d), length p).
(** digest.go:100-103: for n := n - 4; p <= n; p += 4; returns (p, tmp) *)
Fixpoint x32_words (fuel p n : nat) (x : list N) (tmp : N) : nat * N :=
  match fuel with
  | O => (p, tmp)
  | S f => if p + 4 <=? n then
             let tmp := add32 tmp (mul32 (le_val (slice x p (p + 4))) (at_ prime32 2)) in
             let tmp := mul32 (rotl32 tmp 17) (at_ prime32 3) in
             x32_words f (p + 4) n x tmp
           else (p, tmp)
  end.
(** digest.go:105-108: for ; p < n; p++ *)
Fixpoint x32_bytes (fuel p n : nat) (x : list N) (tmp : N) : N :=
  match fuel with
  | O => tmp
  | S f => if p <? n then
             let tmp := add32 tmp (mul32 (at_ x p) (at_ prime32 4)) in
             let tmp := mul32 (rotl32 tmp 11) (at_ prime32 0) in
             x32_bytes f (p + 1) n x tmp
           else tmp
  end.
(** digest.go:88-113 Sum32 *)
Definition x32_sum32 (d : xdig) : N :=
  let tmp := w32 (xlen d) in
  let tmp := if (16 <=? xlen d)%N
             then add32 tmp (add32 (add32 (add32 (rotl32 (at_ (xs d) 0) 1) (rotl32 (at_ (xs d) 1) 7))
                     (rotl32 (at_ (xs d) 2) 12)) (rotl32 (at_ (xs d) 3) 18))
             else add32 tmp (add32 (xseed d) (at_ prime32 4)) in
  let n := xnx d in
  let '(p, tmp) := x32_words n 0 n (xx d) tmp in
  let tmp := x32_bytes n p n (xx d) tmp in
  x32_avalanche tmp.
(** digest.go:74-86 Sum, checkSum *)
Definition x32_sum (d : xdig) (inp : list N) : xdig * list N := (d, inp ++ be_bytes 4 (x32_sum32 d)).
Definition x32_impl : impl xdig := mkimpl x32_write x32_sum x32_reset.
(** digest.go:126-131 checksum (used by Checksum, ChecksumWithSeed, Sum, SumWithSeed) *)
Definition x32_checksum (data : list N) (seed : N) : N := x32_sum32 (fst (x32_write (x32_new seed) data)).

(** ** xxhash64 *)
(** sbox.go:3-7 *)
Definition prime64 : list N := [0x9e3779b185ebca87; 0xc2b2ae3d27d4eb4f; 0x165667b19e3779f9; 0x85ebca77c2b2ae63; 0x27d4eb2f165667c5]%N.
(** utils.go:53-58 round *)
Definition x64_round (acc input : N) : N :=
  let acc := add64 acc (mul64 input (at_ prime64 1)) in
  let acc := rotl64 acc 31 in
  mul64 acc (at_ prime64 0).
(** utils.go:60-65 mergeRound *)
Definition x64_merge (acc val : N) : N :=
  let val := x64_round 0 val in
  let acc := N.lxor acc val in
  add64 (mul64 acc (at_ prime64 0)) (at_ prime64 3).
(** utils.go:67-74 avalanche *)
Definition x64_avalanche (h : N) : N :=
  let h := N.lxor h (N.shiftr h 33) in
  let h := mul64 h (at_ prime64 1) in
  let h := N.lxor h (N.shiftr h 29) in
  let h := mul64 h (at_ prime64 2) in
  N.lxor h (N.shiftr h 32).
(** digest.go:27-35 Reset *)
Definition x64_reset (d : xdig) : xdig :=
  let seed := xseed d in
  mkxd [add64 (add64 seed (at_ prime64 0)) (at_ prime64 1); add64 seed (at_ prime64 1); seed; sub64 seed (at_ prime64 0)]
    (xx d) 0 0 seed.
(** digest.go:19-24 newDigest *)
Definition x64_new (seed : N) : xdig := x64_reset (mkxd (zeros 4) (zeros 32) 0 0 seed).
(** digest.go:133-140 compress *)
Definition x64_compress (s : list N) (data : list N) : list N :=
  [x64_round (at_ s 0) (le_val (slice data 0 8)); x64_round (at_ s 1) (le_val (slice data 8 16));
   x64_round (at_ s 2) (le_val (slice data 16 24)); x64_round (at_ s 3) (le_val (slice data 24 32))].
(** digest.go:48-72 Write *)
Definition x64_write (d : xdig) (p : list N) : xdig * nat :=
  let '(s, x, nx, _) := writeA 32 (fun s x _ => x64_compress s x) (xs d) (xx d) (xnx d) p in
  (mkxd s x nx (add64 (xlen d) (N.of_nat (length p))) (xseed d), length p).
(** digest.go:107-111 *)
Fixpoint x64_words (fuel p n : nat) (x : list N) (tmp : N) : nat * N :=
  match fuel with
  | O => (p, tmp)
  | S f => if p + 8 <=? n then
             let tmp := N.lxor tmp (mul64 (rotl64 (mul64 (le_val (slice x p (p + 8))) (at_ prime64 1)) 31) (at_ prime64 0)) in
             let tmp := add64 (mul64 (rotl64 tmp 27) (at_ prime64 0)) (at_ prime64 3) in
             x64_words f (p + 8) n x tmp
           else (p, tmp)
  end.
(** digest.go:120-123 *)
Fixpoint x64_bytes (fuel p n : nat) (x : list N) (tmp : N) : N :=
  match fuel with
  | O => tmp
  | S f => if p <? n then
             let tmp := N.lxor tmp (mul64 (at_ x p) (at_ prime64 4)) in
             let tmp := mul64 (rotl64 tmp 11) (at_ prime64 0) in
             x64_bytes f (p + 1) n x tmp
           else tmp
  end.
(** digest.go:89-130 Sum64 *)
Definition x64_sum64 (d : xdig) : N :=
  let tmp := if (32 <=? xlen d)%N
             then
               let tmp := add64 (add64 (add64 (rotl64 (at_ (xs d) 0) 1) (rotl64 (at_ (xs d) 1) 7))
                     (rotl64 (at_ (xs d) 2) 12)) (rotl64 (at_ (xs d) 3) 18) in
               let tmp := x64_merge tmp (at_ (xs d) 0) in
               let tmp := x64_merge tmp (at_ (xs d) 1) in
               let tmp := x64_merge tmp (at_ (xs d) 2) in
               let tmp := x64_merge tmp (at_ (xs d) 3) in
               add64 tmp (xlen d)
             else add64 (add64 (xseed d) (at_ prime64 4)) (xlen d) in
  let n := xnx d in
  let '(p, tmp) := x64_words n 0 n (xx d) tmp in
  let '(p, tmp) :=
    if p + 4 <=? n then
      let tmp := N.lxor tmp (mul64 (le_val (slice (xx d) p (p + 4))) (at_ prime64 0)) in
      (p + 4, add64 (mul64 (rotl64 tmp 23) (at_ prime64 1)) (at_ prime64 2))
    else (p, tmp) in
  let tmp := x64_bytes n p n (xx d) tmp in
  x64_avalanche tmp.
(** digest.go:75-87 Sum, checkSum *)
Definition x64_sum (d : xdig) (inp : list N) : xdig * list N := (d, inp ++ be_bytes 8 (x64_sum64 d)).
Definition x64_impl : impl xdig := mkimpl x64_write x64_sum x64_reset.
(** digest.go:143-148 checksum *)
Definition x64_checksum (data : list N) (seed : N) : N := x64_sum64 (fst (x64_write (x64_new seed) data)).

(** * Proofs *)
Lemma chunks4 : forall w (b : list N), 0 < w -> length b = w + (w + (w + w)) ->
  chunks w b = [slice b 0 w; slice b w (w + w); slice b (w + w) (w + w + w); slice b (w + w + w) (w + w + w + w)].
Proof.
  intros w b Hw L. unfold slice.
  rewrite chunks_cons by (try rewrite !skipn_length; lia). rewrite chunks_cons by (try rewrite !skipn_length; lia).
  rewrite chunks_cons by (try rewrite !skipn_length; lia). rewrite chunks_cons by (rewrite ?skipn_length; lia).
  rewrite !skipn_skipn. rewrite chunks_short by (rewrite skipn_length; lia). rewrite skipn_O.
  repeat f_equal; lia.
Qed.
Definition x_rel (bs : nat) (f : list N -> list N -> list N) (init : N -> list N) (seed : N) (d : xdig) (m : list N) : Prop :=
  isbytes m /\ xs d = fold_left f (chunks bs m) (init seed) /\ buf_ok bs bs (xx d) (xnx d) m /\
  xlen d = w64 (N.of_nat (length m)) /\ xseed d = seed.
Lemma x_write_rel : forall bs f init seed d m p, 0 < bs -> isbytes p -> x_rel bs f init seed d m ->
  x_rel bs f init seed (let '(s, x, nx, _) := writeA bs (fun s x _ => f s x) (xs d) (xx d) (xnx d) p in
     mkxd s x nx (add64 (xlen d) (N.of_nat (length p))) (xseed d)) (m ++ p).
Proof.
  intros bs f init seed d m p Hbs Hp (Hm & Es & Hb & El & Esd).
  destruct (writeA_plain _ f bs (init seed) m p (xx d) (xnx d)) as (x' & nx' & r & W & Hb'); [lia|auto|].
  rewrite Es, W. repeat split; cbn [xs xx xnx xlen xseed]; auto; try apply Hb'.
  - now apply isbytes_app.
  - rewrite El. unfold add64. rewrite w64_add_l, app_length. f_equal. lia.
Qed.
Lemma x32_compress_ok : forall s b, length s = 4 -> length b = 16 -> x32_compress s b = xxh32_stripe s b.
Proof.
  intros s b Ls Lb. destruct s as [|s0 [|s1 [|s2 [|s3 [|]]]]]; try discriminate.
  unfold xxh32_stripe. rewrite (chunks4 4) by (auto; lia). reflexivity.
Qed.
Lemma x64_compress_ok : forall s b, length s = 4 -> length b = 32 -> x64_compress s b = xxh64_stripe s b.
Proof.
  intros s b Ls Lb. destruct s as [|s0 [|s1 [|s2 [|s3 [|]]]]]; try discriminate.
  unfold xxh64_stripe. rewrite (chunks4 8) by (auto; lia). reflexivity.
Qed.
Lemma x32_fold_ok : forall l s, length s = 4 -> Forall (fun b => length b = 16) l ->
  fold_left x32_compress l s = fold_left xxh32_stripe l s /\ length (fold_left xxh32_stripe l s) = 4.
Proof.
  induction l as [|b l IH]; intros s Ls F; [auto|]. inversion F; subst. cbn [fold_left].
  rewrite x32_compress_ok by assumption. apply IH; auto. rewrite <- x32_compress_ok by assumption. reflexivity.
Qed.
Lemma x64_fold_ok : forall l s, length s = 4 -> Forall (fun b => length b = 32) l ->
  fold_left x64_compress l s = fold_left xxh64_stripe l s /\ length (fold_left xxh64_stripe l s) = 4.
Proof.
  induction l as [|b l IH]; intros s Ls F; [auto|]. inversion F; subst. cbn [fold_left].
  rewrite x64_compress_ok by assumption. apply IH; auto. rewrite <- x64_compress_ok by assumption. reflexivity.
Qed.

(** The two byte loops over d.x[p:n]. *)
Lemma slice_skipn : forall (x : list N) p n k, p + k <= n -> slice x p (p + k) = firstn k (skipn p (firstn n x)).
Proof.
  intros. unfold slice. rewrite skipn_firstn_comm, firstn_firstn. f_equal. lia.
Qed.
Lemma x32_words_ok : forall fuel p n x tmp, n <= length x -> n <= p + fuel -> p <= n ->
  x32_words fuel p n x tmp =
  (p + (n - p) / 4 * 4, fold_left xxh32_word (chunks 4 (skipn p (firstn n x))) tmp).
Proof.
  induction fuel as [|f IH]; intros p n x tmp Hx Hf Hp.
  - replace (n - p) with 0 by lia. cbn [x32_words]. rewrite chunks_short.
    + change (0 / 4 * 4) with 0. now rewrite Nat.add_0_r.
    + rewrite skipn_length, firstn_length. lia.
  - cbn [x32_words]. destruct (Nat.leb_spec (p + 4) n) as [G|G].
    + rewrite IH by lia. rewrite (chunks_cons N 4 (skipn p (firstn n x))) by (rewrite ?skipn_length, ?firstn_length; lia).
      rewrite skipn_skipn. rewrite (slice_skipn x p n 4) by lia. cbn [fold_left].
      replace (n - p) with ((n - (p + 4)) + 1 * 4) by lia. rewrite Nat.div_add by lia. f_equal. lia.
    + rewrite (Nat.div_small (n - p) 4) by lia. rewrite chunks_short by (rewrite skipn_length, firstn_length; lia).
      cbn [fold_left]. f_equal. lia.
Qed.
Lemma skipn_at : forall (l : list N) p, p < length l -> skipn p l = at_ l p :: skipn (p + 1) l.
Proof.
  induction l as [|a l IH]; intros p H; [simpl in H; lia|]. destruct p; [reflexivity|].
  cbn [skipn plus]. rewrite IH by (simpl in H; lia). reflexivity.
Qed.
Lemma at_firstn : forall n (x : list N) p, p < n -> at_ (firstn n x) p = at_ x p.
Proof.
  induction n; intros x p H; [lia|]. destruct x; [reflexivity|]. destruct p; [reflexivity|].
  cbn [firstn]. unfold at_ in *. cbn [nth]. apply IHn. lia.
Qed.
Lemma x32_bytes_ok : forall fuel p n x tmp, n <= length x -> n <= p + fuel ->
  x32_bytes fuel p n x tmp = fold_left xxh32_byte (skipn p (firstn n x)) tmp.
Proof.
  induction fuel as [|f IH]; intros p n x tmp Hx Hf.
  - rewrite skipn_all2 by (rewrite firstn_length; lia). reflexivity.
  - cbn [x32_bytes]. destruct (Nat.ltb_spec p n) as [G|G].
    + rewrite IH by lia. rewrite (skipn_at (firstn n x) p) by (rewrite firstn_length; lia).
      rewrite at_firstn by lia. reflexivity.
    + rewrite skipn_all2 by (rewrite firstn_length; lia). reflexivity.
Qed.
Lemma x64_round_0 : forall v, xxh64_round 0 v = mul64 (rotl64 (mul64 v X64_2) 31) X64_1.
Proof. intros. unfold xxh64_round, add64. rewrite N.add_0_l. unfold mul64 at 2. now rewrite w64_idem. Qed.
Lemma x64_words_ok : forall fuel p n x tmp, n <= length x -> n <= p + fuel -> p <= n ->
  x64_words fuel p n x tmp =
  (p + (n - p) / 8 * 8, fold_left xxh64_word (chunks 8 (skipn p (firstn n x))) tmp).
Proof.
  induction fuel as [|f IH]; intros p n x tmp Hx Hf Hp.
  - replace (n - p) with 0 by lia. cbn [x64_words]. rewrite chunks_short.
    + change (0 / 8 * 8) with 0. now rewrite Nat.add_0_r.
    + rewrite skipn_length, firstn_length. lia.
  - cbn [x64_words]. destruct (Nat.leb_spec (p + 8) n) as [G|G].
    + rewrite IH by lia. rewrite (chunks_cons N 8 (skipn p (firstn n x))) by (rewrite ?skipn_length, ?firstn_length; lia).
      rewrite skipn_skipn. rewrite (slice_skipn x p n 8) by lia. cbn [fold_left].
      replace (n - p) with ((n - (p + 8)) + 1 * 8) by lia. rewrite Nat.div_add by lia. f_equal; [lia|].
      f_equal. unfold xxh64_word. rewrite x64_round_0. reflexivity.
    + rewrite (Nat.div_small (n - p) 8) by lia. rewrite chunks_short by (rewrite skipn_length, firstn_length; lia).
      cbn [fold_left]. f_equal. lia.
Qed.
Lemma x64_bytes_ok : forall fuel p n x tmp, n <= length x -> n <= p + fuel ->
  x64_bytes fuel p n x tmp = fold_left xxh64_byte (skipn p (firstn n x)) tmp.
Proof.
  induction fuel as [|f IH]; intros p n x tmp Hx Hf.
  - rewrite skipn_all2 by (rewrite firstn_length; lia). reflexivity.
  - cbn [x64_bytes]. destruct (Nat.ltb_spec p n) as [G|G].
    + rewrite IH by lia. rewrite (skipn_at (firstn n x) p) by (rewrite firstn_length; lia).
      rewrite at_firstn by lia. reflexivity.
    + rewrite skipn_all2 by (rewrite firstn_length; lia). reflexivity.
Qed.

Lemma add32_comm : forall a b, add32 a b = add32 b a.
Proof. intros. unfold add32. f_equal. apply N.add_comm. Qed.
Lemma x32_sum_ok : forall seed d m, (N.of_nat (length m) < 2 ^ 64)%N -> x_rel 16 x32_compress xxh32_init seed d m ->
  x32_sum32 d = xxh32_spec seed m.
Proof.
  intros seed d m Hlen (Hm & Es & Hb & El & Esd). pose proof (buf_ok_nx_lt 16 16 _ _ _ ltac:(lia) Hb) as Hn.
  destruct Hb as (Lx & En & Ex). rewrite w64_small in El by exact Hlen.
  unfold x32_sum32, xxh32_spec. rewrite El, Esd, Es.
  destruct (x32_fold_ok (chunks 16 m) (xxh32_init seed) eq_refl (chunks_all_length N 16 m ltac:(lia))) as [F _]. rewrite F.
  rewrite x32_words_ok by lia. cbn [skipn plus]. rewrite Nat.sub_0_r, x32_bytes_ok by lia. rewrite Ex.
  set (t := rest 16 m) in *. assert (ER : rest 4 t = skipn (xnx d / 4 * 4) t) by (unfold rest; now rewrite En).
  rewrite ER. set (a := fold_left xxh32_stripe (chunks 16 m) (xxh32_init seed)).
  assert (EH : (if (16 <=? N.of_nat (length m))%N
      then add32 (w32 (N.of_nat (length m))) (add32 (add32 (add32 (rotl32 (at_ a 0) 1) (rotl32 (at_ a 1) 7)) (rotl32 (at_ a 2) 12)) (rotl32 (at_ a 3) 18))
      else add32 (w32 (N.of_nat (length m))) (add32 seed (at_ prime32 4))) =
    add32 (if length m <? 16 then add32 seed X32_5 else add32 (add32 (add32 (rotl32 (at_ a 0) 1) (rotl32 (at_ a 1) 7)) (rotl32 (at_ a 2) 12)) (rotl32 (at_ a 3) 18))
      (w32 (N.of_nat (length m)))).
  { destruct (N.leb_spec 16 (N.of_nat (length m))); destruct (Nat.ltb_spec (length m) 16); try lia; apply add32_comm. }
  rewrite EH. reflexivity.
Qed.

Lemma x64_sum_ok : forall seed d m, (N.of_nat (length m) < 2 ^ 64)%N -> x_rel 32 x64_compress xxh64_init seed d m ->
  x64_sum64 d = xxh64_spec seed m.
Proof.
  intros seed d m Hlen (Hm & Es & Hb & El & Esd). pose proof (buf_ok_nx_lt 32 32 _ _ _ ltac:(lia) Hb) as Hn.
  destruct Hb as (Lx & En & Ex). rewrite w64_small in El by exact Hlen.
  unfold x64_sum64, xxh64_spec. rewrite El, Esd, Es.
  destruct (x64_fold_ok (chunks 32 m) (xxh64_init seed) eq_refl (chunks_all_length N 32 m ltac:(lia))) as [F La]. rewrite F.
  rewrite x64_words_ok by lia. cbn [skipn plus]. rewrite Nat.sub_0_r. rewrite Ex.
  set (t := rest 32 m) in *. assert (ER : rest 8 t = skipn (xnx d / 8 * 8) t) by (unfold rest; now rewrite En).
  rewrite ER. set (a := fold_left xxh64_stripe (chunks 32 m) (xxh64_init seed)) in *.
  rewrite (w64_small (N.of_nat (length m))) by exact Hlen.
  assert (EH : (if (32 <=? N.of_nat (length m))%N
      then add64 (x64_merge (x64_merge (x64_merge (x64_merge (add64 (add64 (add64 (rotl64 (at_ a 0) 1) (rotl64 (at_ a 1) 7)) (rotl64 (at_ a 2) 12)) (rotl64 (at_ a 3) 18))
             (at_ a 0)) (at_ a 1)) (at_ a 2)) (at_ a 3)) (N.of_nat (length m))
      else add64 (add64 seed (at_ prime64 4)) (N.of_nat (length m))) =
    add64 (if length m <? 32 then add64 seed X64_5 else
        fold_left xxh64_merge a (add64 (add64 (add64 (rotl64 (at_ a 0) 1) (rotl64 (at_ a 1) 7)) (rotl64 (at_ a 2) 12)) (rotl64 (at_ a 3) 18)))
      (N.of_nat (length m))).
  { clearbody a. destruct a as [|a0 [|a1 [|a2 [|a3 [|]]]]]; try discriminate.
    destruct (N.leb_spec 32 (N.of_nat (length m))); destruct (Nat.ltb_spec (length m) 32); try lia; reflexivity. }
  cbv zeta. rewrite EH. clear EH. set (h0 := add64 (if length m <? 32 then _ else _) _). clearbody h0.
  set (h := fold_left xxh64_word (chunks 8 t) h0). clearbody h.
  set (p := xnx d / 8 * 8) in *.
  assert (Hp : p <= xnx d /\ xnx d < p + 8).
  { unfold p. pose proof (Nat.div_mod (xnx d) 8 ltac:(lia)). pose proof (Nat.mod_upper_bound (xnx d) 8 ltac:(lia)). lia. }
  assert (Lr : length (skipn p t) = xnx d - p) by (rewrite skipn_length, En; reflexivity).
  destruct (Nat.leb_spec (p + 4) (xnx d)) as [G|G].
  - rewrite x64_bytes_ok by lia. rewrite (slice_skipn (xx d) p (xnx d) 4) by lia. rewrite Ex.
    rewrite (chunks_cons N 4 (skipn p t)), (rest_cons N 4 (skipn p t)) by lia.
    rewrite (chunks_short N 4 (skipn 4 (skipn p t))), (rest_short N 4 (skipn 4 (skipn p t))) by (rewrite skipn_length; lia).
    rewrite skipn_skipn. reflexivity.
  - rewrite x64_bytes_ok by lia. rewrite Ex. rewrite (chunks_short N 4 (skipn p t)), (rest_short N 4 (skipn p t)) by lia. reflexivity.
Qed.

Lemma x32_contract_lemma : forall seed ops, Forall op_bytes ops -> (ops_total ops < 2 ^ 64)%N ->
  run x32_impl (x32_new seed) ops = ideal_run (fun m => be_bytes 4 (xxh32_spec seed m)) [] ops.
Proof.
  intros seed ops Ho Hl.
  eapply run_refines_total with (R := x_rel 16 x32_compress xxh32_init seed) (B := (2 ^ 64)%N); auto; cbn [x32_impl i_write i_sum i_reset].
  - intros d m p Hp _ R. pose proof (x_write_rel 16 x32_compress xxh32_init seed d m p ltac:(lia) Hp R) as K.
    unfold x32_write. destruct (writeA _ _ _ _ _ _) as [[[? ?] ?] ?]. exact K.
  - intros d m p Hp _ R. unfold x32_write. destruct (writeA _ _ _ _ _ _) as [[[? ?] ?] ?]. reflexivity.
  - intros d m i Hlm R. unfold x32_sum. cbn [snd]. now rewrite (x32_sum_ok seed d m).
  - intros d m (Hm & Es & Hb & El & Esd). unfold x32_reset, x_rel. cbn [xs xx xnx xlen xseed]. rewrite Esd.
    split; [constructor|]. repeat split; auto. apply Hb.
  - unfold x32_new, x32_reset, x_rel. cbn [xs xx xnx xlen xseed]. split; [constructor|]. repeat split; auto.
Qed.
Lemma x64_contract_lemma : forall seed ops, Forall op_bytes ops -> (ops_total ops < 2 ^ 64)%N ->
  run x64_impl (x64_new seed) ops = ideal_run (fun m => be_bytes 8 (xxh64_spec seed m)) [] ops.
Proof.
  intros seed ops Ho Hl.
  eapply run_refines_total with (R := x_rel 32 x64_compress xxh64_init seed) (B := (2 ^ 64)%N); auto; cbn [x64_impl i_write i_sum i_reset].
  - intros d m p Hp _ R. pose proof (x_write_rel 32 x64_compress xxh64_init seed d m p ltac:(lia) Hp R) as K.
    unfold x64_write. destruct (writeA _ _ _ _ _ _) as [[[? ?] ?] ?]. exact K.
  - intros d m p Hp _ R. unfold x64_write. destruct (writeA _ _ _ _ _ _) as [[[? ?] ?] ?]. reflexivity.
  - intros d m i Hlm R. unfold x64_sum. cbn [snd]. now rewrite (x64_sum_ok seed d m).
  - intros d m (Hm & Es & Hb & El & Esd). unfold x64_reset, x_rel. cbn [xs xx xnx xlen xseed]. rewrite Esd.
    split; [constructor|]. repeat split; auto. apply Hb.
  - unfold x64_new, x64_reset, x_rel. cbn [xs xx xnx xlen xseed]. split; [constructor|]. repeat split; auto.
Qed.
Lemma x32_oneshot_lemma : forall seed data, isbytes data -> (N.of_nat (length data) < 2 ^ 64)%N ->
  x32_checksum data seed = xxh32_spec seed data.
Proof.
  intros seed data H Hl. unfold x32_checksum. apply x32_sum_ok; auto.
  assert (R : x_rel 16 x32_compress xxh32_init seed (x32_new seed) []).
  { unfold x32_new, x32_reset, x_rel. cbn [xs xx xnx xlen xseed]. split; [constructor|]. repeat split; auto. }
  pose proof (x_write_rel 16 x32_compress xxh32_init seed (x32_new seed) [] data ltac:(lia) H R) as K.
  unfold x32_write. destruct (writeA _ _ _ _ _ _) as [[[? ?] ?] ?]. exact K.
Qed.
Lemma x64_oneshot_lemma : forall seed data, isbytes data -> (N.of_nat (length data) < 2 ^ 64)%N ->
  x64_checksum data seed = xxh64_spec seed data.
Proof.
  intros seed data H Hl. unfold x64_checksum. apply x64_sum_ok; auto.
  assert (R : x_rel 32 x64_compress xxh64_init seed (x64_new seed) []).
  { unfold x64_new, x64_reset, x_rel. cbn [xs xx xnx xlen xseed]. split; [constructor|]. repeat split; auto. }
  pose proof (x_write_rel 32 x64_compress xxh64_init seed (x64_new seed) [] data ltac:(lia) H R) as K.
  unfold x64_write. destruct (writeA _ _ _ _ _ _) as [[[? ?] ?] ?]. exact K.
Qed.
