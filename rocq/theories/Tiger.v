(** Tiger.v -- model of package /repo/tiger (digest.go, utils.go, sbox.go) and its
    refinement proof. *)
From Coq Require Import List NArith Arith Lia Bool.
From Verif Require Import Base Words HashAPI Buf MD SpecTiger TigerTab.
Import ListNotations.

(** utils.go:33-49 round. *)
Definition tiger_round (a b c x mul : N) : N * N * N :=
  let c := N.lxor c x in
  let a := sub64 a (N.lxor (N.lxor (N.lxor
      (at_ tiger_t1 (N.to_nat (N.land c 255)))
      (at_ tiger_t2 (N.to_nat (N.land (N.shiftr c 16) 255))))
      (at_ tiger_t3 (N.to_nat (N.land (N.shiftr c 32) 255))))
      (at_ tiger_t4 (N.to_nat (N.land (N.shiftr c 48) 255)))) in
  let b := add64 b (N.lxor (N.lxor (N.lxor
      (at_ tiger_t4 (N.to_nat (N.land (N.shiftr c 8) 255)))
      (at_ tiger_t3 (N.to_nat (N.land (N.shiftr c 24) 255))))
      (at_ tiger_t2 (N.to_nat (N.land (N.shiftr c 40) 255))))
      (at_ tiger_t1 (N.to_nat (N.land (N.shiftr c 56) 255)))) in
  let b := mul64 b mul in
  (a, b, c).

(** utils.go:51-62 pass. *)
Definition tiger_pass (a b c : N) (x : list N) (mul : N) : N * N * N :=
  let '(a, b, c) := tiger_round a b c (at_ x 0) mul in
  let '(b, c, a) := tiger_round b c a (at_ x 1) mul in
  let '(c, a, b) := tiger_round c a b (at_ x 2) mul in
  let '(a, b, c) := tiger_round a b c (at_ x 3) mul in
  let '(b, c, a) := tiger_round b c a (at_ x 4) mul in
  let '(c, a, b) := tiger_round c a b (at_ x 5) mul in
  let '(a, b, c) := tiger_round a b c (at_ x 6) mul in
  let '(b, c, a) := tiger_round b c a (at_ x 7) mul in
  (a, b, c).

(** utils.go:64-81 keySchedule: the sixteen assignments, in place on the slice x. *)
Definition tiger_ks_steps : list (list N -> list N) := [
  (fun x => upd x 0 (sub64 (at_ x 0) (N.lxor (at_ x 7) 0xa5a5a5a5a5a5a5a5)));
  (fun x => upd x 1 (N.lxor (at_ x 1) (at_ x 0)));
  (fun x => upd x 2 (add64 (at_ x 2) (at_ x 1)));
  (fun x => upd x 3 (sub64 (at_ x 3) (N.lxor (at_ x 2) (shl64 (not64 (at_ x 1)) 19))));
  (fun x => upd x 4 (N.lxor (at_ x 4) (at_ x 3)));
  (fun x => upd x 5 (add64 (at_ x 5) (at_ x 4)));
  (fun x => upd x 6 (sub64 (at_ x 6) (N.lxor (at_ x 5) (N.shiftr (not64 (at_ x 4)) 23))));
  (fun x => upd x 7 (N.lxor (at_ x 7) (at_ x 6)));
  (fun x => upd x 0 (add64 (at_ x 0) (at_ x 7)));
  (fun x => upd x 1 (sub64 (at_ x 1) (N.lxor (at_ x 0) (shl64 (not64 (at_ x 7)) 19))));
  (fun x => upd x 2 (N.lxor (at_ x 2) (at_ x 1)));
  (fun x => upd x 3 (add64 (at_ x 3) (at_ x 2)));
  (fun x => upd x 4 (sub64 (at_ x 4) (N.lxor (at_ x 3) (N.shiftr (not64 (at_ x 2)) 23))));
  (fun x => upd x 5 (N.lxor (at_ x 5) (at_ x 4)));
  (fun x => upd x 6 (add64 (at_ x 6) (at_ x 5)));
  (fun x => upd x 7 (sub64 (at_ x 7) (N.lxor (at_ x 6) 0x0123456789abcdef)))].
Definition tiger_keySchedule (x : list N) : list N := fold_left (fun x f => f x) tiger_ks_steps x.

(** utils.go:7-18 bytesToUint64s on a 64-byte block. *)
Definition tiger_words (data : list N) : list N :=
  map (fun i => le_val (slice data (i * 8) (i * 8 + 8))) (seq 0 (length data / 8)).

(** digest.go:110-130 compress. *)
Definition tiger_compress (s : N * N * N) (data : list N) : N * N * N :=
  let '(s0, s1, s2) := s in
  let '(a, b, c) := (s0, s1, s2) in
  let x := tiger_words data in
  let '(s0, s1, s2) := tiger_pass s0 s1 s2 x 5 in
  let x := tiger_keySchedule x in
  let '(s2, s0, s1) := tiger_pass s2 s0 s1 x 7 in
  let x := tiger_keySchedule x in
  let '(s1, s2, s0) := tiger_pass s1 s2 s0 x 9 in
  (N.lxor s0 a, sub64 s1 b, add64 s2 c).

(** sbox.go:271-275 *)
Definition tiger_initH : N * N * N := (0x0123456789abcdef, 0xfedcba9876543210, 0xf096a5b4c3b2e187)%N.

(** digest.go:21-28, 38-42: the constructor starts from a zeroed struct, Reset keeps x. *)
Definition tiger_new : dig (N * N * N) := mkdig tiger_initH (zeros 64) 0 0.
Definition tiger_reset (d : dig (N * N * N)) : dig (N * N * N) := mkdig tiger_initH (dx d) 0 0.
(** digest.go:44-68 *)
Definition tiger_write : dig (N * N * N) -> list N -> dig (N * N * N) * nat := write_pre 64 tiger_compress.

Section Variant.
(** d.hs and d.ver, fixed by the constructor (tiger.go:8-40). *)
Variable hs : nat.
Variable ver : nat.
(** digest.go:77-108 *)
Definition tiger_checkSum (d : dig (N * N * N)) : list N :=
  let d' := finish_write tiger_write (if ver =? 1 then 0x01%N else 0x80%N) d in
  let '(a, b, c) := ds d' in
  firstn hs (le_bytes 8 a ++ le_bytes 8 b ++ le_bytes 8 c).
Definition tiger_sum (d : dig (N * N * N)) (inp : list N) : dig (N * N * N) * list N :=
  (d, inp ++ tiger_checkSum d).
Definition tiger_impl : impl (dig (N * N * N)) := mkimpl tiger_write tiger_sum tiger_reset.
End Variant.

(** ** Proofs *)
(** The tables in the repository are what the authors' generator produces. *)
Lemma tiger_tables_ok : tiger_sboxes = (tiger_t1, tiger_t2, tiger_t3, tiger_t4).
Proof. vm_compute. reflexivity. Qed.
Definition tiger_tabs : sboxes := (tiger_t1, tiger_t2, tiger_t3, tiger_t4).

Lemma tiger_round_ok : forall mul a b c x,
  tg_round tiger_tabs mul (a, b, c) x
  = let '(a', b', c') := tiger_round a b c x mul in (b', c', a').
Proof.
  intros. unfold tg_round, tiger_tabs, tiger_round, tbyte.
  change (8 * 0)%N with 0%N. rewrite N.shiftr_0_r. reflexivity.
Qed.

Lemma length8x : forall (s : list N), length s = 8 ->
  s = [at_ s 0; at_ s 1; at_ s 2; at_ s 3; at_ s 4; at_ s 5; at_ s 6; at_ s 7].
Proof.
  intros s L. do 8 (destruct s as [|? s]; [discriminate L|]).
  destruct s; [reflexivity|discriminate L].
Qed.

Lemma tiger_pass_ok : forall mul a b c x, length x = 8 ->
  fold_left (tg_round tiger_tabs mul) x (a, b, c)
  = let '(a', b', c') := tiger_pass a b c x mul in (c', a', b').
Proof.
  intros mul a b c x L. rewrite (length8x x L) at 1. unfold tiger_pass.
  rewrite !fold_left_cons, fold_left_nil.
  rewrite tiger_round_ok. destruct (tiger_round _ _ _ (at_ x 0) mul) as [[? ?] ?].
  rewrite tiger_round_ok. destruct (tiger_round _ _ _ (at_ x 1) mul) as [[? ?] ?].
  rewrite tiger_round_ok. destruct (tiger_round _ _ _ (at_ x 2) mul) as [[? ?] ?].
  rewrite tiger_round_ok. destruct (tiger_round _ _ _ (at_ x 3) mul) as [[? ?] ?].
  rewrite tiger_round_ok. destruct (tiger_round _ _ _ (at_ x 4) mul) as [[? ?] ?].
  rewrite tiger_round_ok. destruct (tiger_round _ _ _ (at_ x 5) mul) as [[? ?] ?].
  rewrite tiger_round_ok. destruct (tiger_round _ _ _ (at_ x 6) mul) as [[? ?] ?].
  rewrite tiger_round_ok. destruct (tiger_round _ _ _ (at_ x 7) mul) as [[? ?] ?].
  reflexivity.
Qed.

Lemma tiger_keys_ok : forall x, length x = 8 -> tiger_keySchedule x = tg_keys x.
Proof.
  intros x L. do 8 (destruct x as [|? x]; [discriminate L|]). destruct x; [|discriminate L].
  unfold tiger_keySchedule, tiger_ks_steps.
  do 16 (rewrite fold_left_cons; cbv beta; cbn [upd]; unfold at_; cbn [nth]).
  rewrite fold_left_nil. reflexivity.
Qed.
Lemma tiger_keys_length : forall x, length x = 8 -> length (tiger_keySchedule x) = 8.
Proof. intros x L. rewrite tiger_keys_ok by auto. do 8 (destruct x as [|? x]; [discriminate L|]). destruct x; [|discriminate L]. reflexivity. Qed.

Lemma tiger_words_ok : forall data, tiger_words data = map le_val (chunks 8 data).
Proof.
  intros. unfold tiger_words, chunks. rewrite map_map. apply map_ext. intros i. unfold slice. do 2 f_equal. lia.
Qed.

Lemma tiger_compress_ok : forall s data, length data = 64 ->
  tiger_compress s data = tg_compress tiger_tabs s data.
Proof.
  intros [[s0 s1] s2] data L. unfold tiger_compress, tg_compress.
  rewrite <- tiger_words_ok.
  assert (Lx : length (tiger_words data) = 8) by (unfold tiger_words; rewrite map_length, seq_length, L; reflexivity).
  set (x := tiger_words data) in *. clearbody x. cbv zeta.
  rewrite tiger_pass_ok by auto. destruct (tiger_pass s0 s1 s2 x 5) as [[a1 b1] c1].
  rewrite <- (tiger_keys_ok x) by auto.
  pose proof (tiger_keys_length x Lx) as L1. set (x1 := tiger_keySchedule x) in *. clearbody x1.
  rewrite tiger_pass_ok by auto. destruct (tiger_pass c1 a1 b1 x1 7) as [[a2 b2] c2].
  rewrite <- (tiger_keys_ok x1) by auto.
  pose proof (tiger_keys_length x1 L1) as L2. set (x2 := tiger_keySchedule x1) in *. clearbody x2.
  rewrite tiger_pass_ok by auto. destruct (tiger_pass c2 a2 b2 x2 9) as [[a3 b3] c3]. reflexivity.
Qed.

Lemma tiger_fold_ok : forall bl s, Forall (fun b : list N => length b = 64) bl ->
  fold_left tiger_compress bl s = fold_left (tg_compress tiger_sboxes) bl s.
Proof.
  intros bl s Hf. rewrite tiger_tables_ok.
  apply (fold_left_agree _ _ tiger_compress (tg_compress tiger_tabs) (fun _ => True) (fun b => length b = 64)); auto.
  intros. now apply tiger_compress_ok.
Qed.
Opaque tiger_compress tg_compress tiger_sboxes.

Definition tiger_rel (d : dig (N * N * N)) (m : list N) : Prop := dig_rel 64 tiger_compress tiger_initH 1 d m.
Lemma tiger_new_rel : tiger_rel tiger_new [].
Proof. apply dig_rel_new; [lia|reflexivity]. Qed.

Lemma tiger_checkSum_ok : forall hs ver d m, tiger_rel d m ->
  tiger_checkSum hs ver d = tiger_spec (if ver =? 1 then 0x01%N else 0x80%N) hs m.
Proof.
  intros hs ver d m H. unfold tiger_checkSum, tiger_spec. cbv zeta.
  set (mk := if ver =? 1 then _ else _). clearbody mk.
  pose proof (finish_write_rel _ tiger_compress tiger_initH tiger_write mk d m
    (fun d m p => write_pre_rel 64 tiger_compress ltac:(lia) tiger_initH d m p) H) as K.
  destruct K as (-> & _). rewrite tiger_fold_ok by (apply chunks_all_length; lia). reflexivity.
Qed.
Lemma tiger_history_lemma : forall hs ver ops,
  run (tiger_impl hs ver) tiger_new ops
  = ideal_run (tiger_spec (if ver =? 1 then 0x01%N else 0x80%N) hs) [] ops.
Proof.
  intros hs ver ops. apply run_refines with (R := tiger_rel); intros; unfold tiger_impl; cbn [i_write i_sum i_reset].
  - apply write_pre_rel; auto. lia.
  - apply write_pre_count.
  - exact H.
  - unfold tiger_sum. cbn [snd]. now rewrite (tiger_checkSum_ok hs ver d m).
  - apply dig_rel_new; [lia|]. destruct H as (_ & (L & _) & _). exact L.
  - apply tiger_new_rel.
Qed.

Transparent tiger_compress tg_compress tiger_sboxes.
(** Test vectors of tiger_test.go:16-25, 116-124. *)
From Coq Require Import String.
Example tiger_vec : run (tiger_impl 24 1) tiger_new [Write (bytes_of_string "message "); Write (bytes_of_string "digest"); Sum []]
  = [Wrote 8; Wrote 6; Summed (hex "d981f8cb78201a950dcf3048751e441c517fca1aa55a29f6")].
Proof. vm_compute. reflexivity. Qed.
Example tiger2_vec : run (tiger_impl 24 2) tiger_new [Write (bytes_of_string "abc"); Sum []; Reset; Sum [7%N]]
  = [Wrote 3; Summed (hex "f68d7bc5af4b43a06e048d7829560d4a9415658bb0b1f3bf");
     Summed (7%N :: hex "4441be75f6018773c206c22745374b924aa8313fef919f41")].
Proof. vm_compute. reflexivity. Qed.
