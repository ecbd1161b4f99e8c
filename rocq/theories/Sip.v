(** Sip.v -- model of /repo/siphash (digest.go, utils.go, siphash.go) and its refinement proof. *)
From Coq Require Import List NArith Arith Lia Bool.
From Verif Require Import Base Words HashAPI Buf Refine SpecSip.
Import ListNotations.

(** utils.go:21-40 sipround on the four words. *)
Definition sipround (s : sstate) : sstate :=
  let '(v0, v1, v2, v3) := s in
  let v0 := add64 v0 v1 in
  let v1 := rotl64 v1 13 in
  let v1 := N.lxor v1 v0 in
  let v0 := rotl64 v0 32 in
  let v2 := add64 v2 v3 in
  let v3 := rotl64 v3 16 in
  let v3 := N.lxor v3 v2 in
  let v0 := add64 v0 v3 in
  let v3 := rotl64 v3 21 in
  let v3 := N.lxor v3 v0 in
  let v2 := add64 v2 v1 in
  let v1 := rotl64 v1 17 in
  let v1 := N.lxor v1 v2 in
  let v2 := rotl64 v2 32 in
  (v0, v1, v2, v3).
(** digest.go:22-31.  crounds and drounds are naturals: negative int32 arguments (converted to huge
    uint32 counts) are not modelled. *)
Record sdigest := mksd { ss : sstate; sx : list N; snx : nat; slen : N; shs : nat; scr : nat; sdr : nat }.
(** for i := 0; i < n; i++ { sipround } *)
Fixpoint sip_rounds (n : nat) (s : sstate) : sstate :=
  match n with O => s | S n' => sip_rounds n' (sipround s) end.
(** digest.go:216-226 transform *)
Definition sip_transform (cr : nat) (s : sstate) (x : list N) : sstate :=
  let m := le_val (firstn 8 x) in
  let '(v0, v1, v2, v3) := s in
  let '(v0, v1, v2, v3) := sip_rounds cr (v0, v1, v2, N.lxor v3 m) in
  (N.lxor v0 m, v1, v2, v3).
(** digest.go:182-188 adjustHashSize *)
Definition adjust_hs (hs : nat) : nat := if hs =? 0 then 16 else hs.
(** digest.go:165-180 setHashSize on a fresh digest (the change to s[1] is overwritten by
    expandKey; modelled for hs only). *)
Definition sip_set_hs (cur hs : nat) : nat :=
  let hs := adjust_hs hs in
  if negb (hs =? 8) && negb (hs =? 16) then cur
  else let cur := adjust_hs cur in if cur =? hs then cur else hs.
(** digest.go:34-44 newDigest with digest.go:190-214 expandKey; None = error return. *)
Definition sip_new (key : list N) (cr dr hs : nat) : option sdigest :=
  if negb (length key =? 16) then None
  else
    let hs := adjust_hs (sip_set_hs 0 hs) in
    let k0 := le_val (firstn 8 key) in
    let k1 := le_val (firstn 8 (skipn 8 key)) in
    let dr := if dr =? 0 then 4 else dr in
    let cr := if cr =? 0 then 2 else cr in
    let s1 := N.lxor 0x646f72616e646f6d k1 in
    Some (mksd (N.lxor 0x736f6d6570736575 k0, if hs =? 16 then N.lxor s1 0xee else s1,
                N.lxor 0x6c7967656e657261 k0, N.lxor 0x7465646279746573 k1)
           (zeros 8) 0 0 hs cr dr).
(** digest.go:54-59 Reset *)
Definition sip_reset (d : sdigest) : sdigest := mksd (ss d) (zeros 8) 0 0 (shs d) (scr d) (sdr d).
(** digest.go:61-86 Write *)
Definition sip_write (d : sdigest) (p : list N) : sdigest * nat :=
  let '(s, x, nx, _) := writeA 8 (fun s x _ => sip_transform (scr d) s x) (ss d) (sx d) (snx d) p in
  (mksd s x nx (add64 (slen d) (N.of_nat (length p))) (shs d) (scr d) (sdr d), length p).
(** digest.go:95-163 checkSum.  PUTU64(out, ..) into [hs] bytes. *)
Definition sip_checksum (d : sdigest) : list N :=
  if scr d =? 0 then []
  else
    let b := tail_or (sx d) (snx d) (shl64 (slen d) 56) in
    let bb := le_bytes 8 b in
    let '(s0, s1, s2, s3) := sip_transform (scr d) (ss d) bb in
    let s2 := if shs d =? 16 then N.lxor s2 0xee else N.lxor s2 0xff in
    let out := zeros (shs d) in
    let '(s0, s1, s2, s3) := sip_rounds (sdr d) (s0, s1, s2, s3) in
    let b := N.lxor (N.lxor (N.lxor s0 s1) s2) s3 in
    let out := copy_at out 0 (le_bytes 8 b) in
    if shs d =? 8 then out
    else
      let s1 := N.lxor s1 0xdd in
      let '(s0, s1, s2, s3) := sip_rounds (sdr d) (s0, s1, s2, s3) in
      let b := N.lxor (N.lxor (N.lxor s0 s1) s2) s3 in
      copy_at out 8 (le_bytes 8 b).
(** digest.go:88-93 Sum (on a copy) *)
Definition sip_sum (d : sdigest) (inp : list N) : sdigest * list N := (d, inp ++ sip_checksum d).
Definition sip_impl : impl sdigest := mkimpl sip_write sip_sum sip_reset.

(** * Proofs *)
Lemma sipround_ok : forall s, sipround s = sip_round_spec s.
Proof. intros [[[v0 v1] v2] v3]. reflexivity. Qed.
Lemma iter_shift : forall A n (f : A -> A) x, Nat.iter n f (f x) = f (Nat.iter n f x).
Proof. induction n; intros; auto. simpl. now rewrite IHn. Qed.
Lemma sip_rounds_ok : forall n s, sip_rounds n s = Nat.iter n sip_round_spec s.
Proof. induction n; intros s; auto. cbn [sip_rounds]. rewrite IHn, sipround_ok, iter_shift. reflexivity. Qed.
Lemma sip_transform_ok : forall c s x, length x = 8 -> sip_transform c s x = sip_compress c s (le_val x).
Proof.
  intros c [[[v0 v1] v2] v3] x H. unfold sip_transform, sip_compress. rewrite firstn_all2 by lia.
  now rewrite sip_rounds_ok.
Qed.

(** State reached from the initial words [s0] by the blocks of the message. *)
Definition sip_rel (s0 : sstate) (hs cr dr : nat) (d : sdigest) (m : list N) : Prop :=
  isbytes m /\ shs d = hs /\ scr d = cr /\ sdr d = dr /\ slen d = w64 (N.of_nat (length m)) /\
  buf_ok 8 8 (sx d) (snx d) m /\ ss d = fold_left (sip_transform cr) (chunks 8 m) s0 /\ isbytes (sx d).

Lemma loopA_isbytes : forall St (step : St -> list N -> nat -> St) bs fuel s x nx p,
  isbytes x -> isbytes p ->
  let '(_, x', _, p') := loopA bs step fuel s x nx p in isbytes x' /\ isbytes p'.
Proof.
  induction fuel; intros s x nx p Hx Hp; cbn [loopA]; auto.
  destruct (bs <=? nx + length p); auto.
  apply IHfuel; [now apply copy_at_isbytes|now apply isbytes_skipn].
Qed.
Lemma writeA_isbytes : forall St (step : St -> list N -> nat -> St) bs s x nx p,
  isbytes x -> isbytes p -> let '(_, x', _, _) := writeA bs step s x nx p in isbytes x'.
Proof.
  intros. unfold writeA. pose proof (loopA_isbytes St step bs (S (length p)) s x nx p H H0) as K.
  destruct (loopA bs step (S (length p)) s x nx p) as [[[s' x'] nx'] p']. destruct K. now apply copy_at_isbytes.
Qed.

Lemma sip_write_rel : forall s0 hs cr dr d m p, isbytes p -> sip_rel s0 hs cr dr d m ->
  sip_rel s0 hs cr dr (fst (sip_write d p)) (m ++ p).
Proof.
  intros s0 hs cr dr d m p Hp (Hm & E1 & E2 & E3 & El & Hb & Es & Hx).
  unfold sip_write. rewrite E2.
  destruct (writeA_plain _ (sip_transform cr) 8 s0 m p (sx d) (snx d)) as (x' & nx' & r & W & Hb'); [lia|auto|].
  pose proof (writeA_isbytes _ (fun s x _ => sip_transform cr s x) 8 (ss d) (sx d) (snx d) p Hx Hp) as Hx'.
  rewrite Es in *. rewrite W in *. cbn [fst]. repeat split; cbn [ss sx snx slen shs scr sdr]; auto; try apply Hb'.
  - now apply isbytes_app.
  - rewrite El. unfold add64. rewrite w64_add_l, app_length. f_equal. lia.
Qed.
Lemma shl64_mod : forall n, shl64 n 56 = N.shiftl (n mod 256) 56.
Proof.
  intros. unfold shl64. rewrite w64_mod, !N.shiftl_mul_pow2.
  change 18446744073709551616%N with (256 * 2 ^ 56)%N. rewrite N.mul_mod_distr_r; [reflexivity|discriminate|discriminate].
Qed.
Lemma w64_mod256 : forall n, (w64 n mod 256 = n mod 256)%N.
Proof. intros. rewrite w64_mod. change 18446744073709551616%N with (256 * 72057594037927936)%N. apply mod_mod_mul; discriminate. Qed.

Lemma sip_last_word : forall d m, isbytes m -> buf_ok 8 8 (sx d) (snx d) m -> isbytes (sx d) ->
  slen d = w64 (N.of_nat (length m)) ->
  le_val (le_bytes 8 (tail_or (sx d) (snx d) (shl64 (slen d) 56))) =
  le_val (rest 8 m ++ zeros (7 - length (rest 8 m)) ++ [(N.of_nat (length m) mod 256)%N]).
Proof.
  intros d m Hm Hb Hx El. pose proof (buf_ok_nx_lt 8 8 _ _ _ ltac:(lia) Hb) as Hn.
  destruct Hb as (Lx & En & Ex). rewrite tail_or_ok by (auto; lia). rewrite Ex, El, shl64_mod, w64_mod256.
  set (l := (N.of_nat (length m) mod 256)%N).
  assert (Hl : isbyte l) by (apply N.mod_lt; discriminate).
  rewrite <- En. set (r := rest 8 m) in *. assert (Hr : isbytes r) by now apply isbytes_rest.
  assert (E : N.lor (N.shiftl l 56) (le_val r) = le_val (r ++ zeros (7 - snx d) ++ [l])).
  { rewrite app_assoc, le_val_app_lor.
    - rewrite le_val_1, app_length, zeros_length, <- En. replace (8 * (snx d + (7 - snx d))) with 56 by lia.
      rewrite N.lor_comm. f_equal. rewrite le_val_app, le_val_zeros. lia.
    - apply isbytes_app. split; auto. apply zeros_isbytes. }
  rewrite E. rewrite le_val_le_bytes. apply N.mod_small.
  assert (Hall : isbytes (r ++ zeros (7 - snx d) ++ [l])).
  { rewrite !isbytes_app. repeat split; auto. apply zeros_isbytes. repeat constructor. exact Hl. }
  pose proof (le_val_lt _ Hall) as L. rewrite !app_length, zeros_length in L. cbn [length] in L.
  rewrite <- En in L. replace (8 * (snx d + (7 - snx d + 1))) with 64 in L by lia. exact L.
Qed.

Lemma sip_words_fold : forall c m s0, isbytes m ->
  fold_left (sip_compress c) (sip_words m) s0 =
  sip_compress c (fold_left (sip_transform c) (chunks 8 m) s0)
    (le_val (rest 8 m ++ zeros (7 - length (rest 8 m)) ++ [(N.of_nat (length m) mod 256)%N])).
Proof.
  intros c m s0 Hm. unfold sip_words. rewrite map_app, fold_left_app. cbn [map fold_left]. f_equal.
  pose proof (chunks_all_length N 8 m ltac:(lia)) as F. revert s0. induction F as [|b l Hb F IH]; intros s0; auto.
  cbn [map fold_left]. rewrite <- sip_transform_ok by assumption. apply IH.
Qed.

Lemma sip_checksum_ok : forall s0 (wide : bool) cr dr d m, 0 < cr ->
  sip_rel s0 (if wide then 16 else 8) cr dr d m ->
  sip_checksum d =
    let '(v0, v1, v2, v3) := fold_left (sip_compress cr) (sip_words m) s0 in
    let '(v0, v1, v2, v3) := Nat.iter dr sip_round_spec (v0, v1, N.lxor v2 (if wide then 0xee else 0xff), v3) in
    let first := le_bytes 8 (xor_all (v0, v1, v2, v3)) in
    if wide then first ++ le_bytes 8 (xor_all (Nat.iter dr sip_round_spec (v0, N.lxor v1 0xdd, v2, v3))) else first.
Proof.
  intros s0 wide cr dr d m Hc (Hm & E1 & E2 & E3 & El & Hb & Es & Hx). unfold sip_checksum.
  rewrite E1, E2, E3. destruct (Nat.eqb_spec cr 0); [lia|].
  rewrite sip_transform_ok by apply le_bytes_length.
  rewrite (sip_last_word d m Hm Hb Hx El), Es, <- sip_words_fold by assumption.
  destruct (fold_left (sip_compress cr) (sip_words m) s0) as [[[v0 v1] v2] v3].
  destruct wide; cbn [Nat.eqb].
  - rewrite sip_rounds_ok. destruct (Nat.iter dr sip_round_spec _) as [[[u0 u1] u2] u3].
    rewrite sip_rounds_ok. destruct (Nat.iter dr sip_round_spec _) as [[[t0 t1] t2] t3].
    unfold xor_all. set (a := le_bytes 8 (N.lxor (N.lxor (N.lxor u0 u1) u2) u3)).
    set (b := le_bytes 8 (N.lxor (N.lxor (N.lxor t0 t1) t2) t3)).
    assert (La : length a = 8) by apply le_bytes_length. assert (Lb : length b = 8) by apply le_bytes_length.
    clearbody a b. unfold copy_at. rewrite !app_length, !firstn_length, !skipn_length, !zeros_length, La, Lb. cbn [Nat.sub Nat.min plus].
    rewrite !firstn_O. cbn [app]. rewrite (firstn_all2 a) by lia.
    rewrite firstn_app_len by assumption. rewrite firstn_all2 by lia. rewrite skipn_all2. now rewrite app_nil_r.
    rewrite app_length, skipn_length, zeros_length, La. lia.
  - rewrite sip_rounds_ok. destruct (Nat.iter dr sip_round_spec _) as [[[u0 u1] u2] u3].
    unfold xor_all. set (a := le_bytes 8 _). assert (La : length a = 8) by apply le_bytes_length. clearbody a.
    unfold copy_at. rewrite La, zeros_length. cbn [Nat.sub Nat.min plus]. rewrite firstn_O. cbn [app].
    rewrite firstn_all2 by lia. rewrite skipn_all2 by (rewrite zeros_length; lia). apply app_nil_r.
Qed.

Definition sip_c (c : nat) := if c =? 0 then 2 else c.
Definition sip_d (d : nat) := if d =? 0 then 4 else d.
Definition sip_wide (hs : nat) : bool := negb (hs =? 8).
Lemma sip_new_rel : forall key cr dr hs d, sip_new key cr dr hs = Some d ->
  length key = 16 /\ sip_rel (sip_init (sip_wide hs) key) (if sip_wide hs then 16 else 8) (sip_c cr) (sip_d dr) d [].
Proof.
  intros key cr dr hs d H. unfold sip_new in H. destruct (Nat.eqb_spec (length key) 16) as [Lk|]; [|discriminate].
  split; auto. cbn [negb] in H.
  assert (Eh : adjust_hs (sip_set_hs 0 hs) = if sip_wide hs then 16 else 8).
  { unfold sip_set_hs, adjust_hs, sip_wide. destruct (Nat.eqb_spec hs 0) as [->|]; auto.
    destruct (Nat.eqb_spec hs 8) as [->|]; auto. destruct (Nat.eqb_spec hs 16) as [->|]; auto. }
  rewrite Eh in H. apply some_inj in H. subst d. unfold sip_rel. cbn [ss sx snx slen shs scr sdr].
  split; [constructor|]. repeat split; auto.
  - unfold sip_init. cbn [chunks fold_left]. rewrite (firstn_all2 (skipn 8 key)) by (rewrite skipn_length; lia).
    change (fold_left (sip_transform (sip_c cr)) (chunks 8 []) ?a) with a.
    destruct (sip_wide hs); cbn [Nat.eqb]; rewrite ?N.lxor_0_r.
    + rewrite (N.lxor_comm 0x736f6d6570736575), (N.lxor_comm 0x646f72616e646f6d), (N.lxor_comm 0x6c7967656e657261), (N.lxor_comm 0x7465646279746573). reflexivity.
    + rewrite (N.lxor_comm 0x736f6d6570736575), (N.lxor_comm 0x646f72616e646f6d), (N.lxor_comm 0x6c7967656e657261), (N.lxor_comm 0x7465646279746573). reflexivity.
  - apply zeros_isbytes.
Qed.
Lemma sip_c_pos : forall c, 0 < sip_c c.
Proof. intros. unfold sip_c. destruct (Nat.eqb_spec c 0); lia. Qed.
Lemma sip_contract_lemma : forall key cr dr hs d ops, sip_new key cr dr hs = Some d ->
  Forall op_bytes ops -> Forall no_reset ops ->
  run sip_impl d ops = ideal_run (sip_spec (sip_c cr) (sip_d dr) (sip_wide hs) key) [] ops.
Proof.
  intros key cr dr hs d ops Hn Ho Hr. destruct (sip_new_rel _ _ _ _ _ Hn) as [Lk R0].
  eapply run_refines_noreset with (R := sip_rel (sip_init (sip_wide hs) key) (if sip_wide hs then 16 else 8) (sip_c cr) (sip_d dr)); auto.
  - intros. cbn [sip_impl i_write]. now apply sip_write_rel.
  - intros d0 m p Hp R. cbn [sip_impl i_write]. unfold sip_write. destruct (writeA _ _ _ _ _ _) as [[[? ?] ?] ?]. reflexivity.
  - intros d0 m i R. cbn [sip_impl i_sum]. unfold sip_sum. cbn [snd]. f_equal.
    rewrite (sip_checksum_ok _ _ _ _ _ _ (sip_c_pos cr) R). reflexivity.
Qed.
(** What Reset does: the chaining state is kept. *)
Lemma sip_reset_lemma : forall key cr dr hs d m1 m2 inp, sip_new key cr dr hs = Some d -> isbytes m1 -> isbytes m2 ->
  run sip_impl d [Write m1; Reset; Write m2; Sum inp] =
  [Wrote (length m1); Wrote (length m2);
   Summed (inp ++ sip_from (sip_c cr) (sip_d dr) (sip_wide hs)
                   (fold_left (sip_compress (sip_c cr)) (map le_val (chunks 8 m1)) (sip_init (sip_wide hs) key)) m2)].
Proof.
  intros key cr dr hs d m1 m2 inp Hn H1 H2. destruct (sip_new_rel _ _ _ _ _ Hn) as [Lk R0].
  assert (FM : forall m s, fold_left (sip_transform (sip_c cr)) (chunks 8 m) s = fold_left (sip_compress (sip_c cr)) (map le_val (chunks 8 m)) s).
  { intros m. pose proof (chunks_all_length N 8 m ltac:(lia)) as F. induction F as [|b l Hb F IH]; intros s; auto.
    cbn [map fold_left]. rewrite sip_transform_ok by assumption. apply IH. }
  set (s1 := fold_left (sip_compress (sip_c cr)) (map le_val (chunks 8 m1)) (sip_init (sip_wide hs) key)).
  pose proof (sip_write_rel _ _ _ _ _ _ _ H1 R0) as (A0 & A1 & A2 & A3 & A4 & A5 & A6 & A7). cbn [app] in *.
  assert (R1 : sip_rel s1 (if sip_wide hs then 16 else 8) (sip_c cr) (sip_d dr) (sip_reset (fst (sip_write d m1))) []).
  { unfold sip_rel, sip_reset. cbn [ss sx snx slen shs scr sdr]. split; [constructor|]. repeat split; auto.
    - rewrite A6. unfold s1. rewrite FM. reflexivity.
    - apply zeros_isbytes. }
  pose proof (sip_write_rel _ _ _ _ _ _ _ H2 R1) as R2. cbn [app] in R2.
  cbn [run sip_impl i_write i_sum i_reset].
  assert (C : forall d0 p, snd (sip_write d0 p) = length p).
  { intros. unfold sip_write. destruct (writeA _ _ _ _ _ _) as [[[? ?] ?] ?]. reflexivity. }
  pose proof (C d m1) as C1. destruct (sip_write d m1) as [d1 n1]. cbn [fst snd] in *.
  pose proof (C (sip_reset d1) m2) as C2. destruct (sip_write (sip_reset d1) m2) as [d2 n2]. cbn [fst snd] in *. subst n1 n2.
  unfold sip_sum. rewrite (sip_checksum_ok _ _ _ _ _ _ (sip_c_pos cr) R2). reflexivity.
Qed.
