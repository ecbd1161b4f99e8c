(** Has160.v -- model of package /repo/has160 (digest.go, utils.go, sbox.go) and its
    refinement proof. *)
From Coq Require Import List NArith Arith Lia Bool.
From Verif Require Import Base Words HashAPI Buf MD SpecHas160 Ripemd Sha0.
Import ListNotations.

(** sbox.go:3-18 *)
Definition has160_initH : list N := [0x67452301; 0xefcdab89; 0x98badcfe; 0x10325476; 0xc3d2e1f0]%N.
Definition has160_s1 : list N := [5; 11; 7; 15; 6; 13; 8; 14; 7; 12; 9; 11; 8; 15; 6; 12; 9; 14; 5; 13]%N.
Definition has160_x1 : list N := [18; 0; 1; 2; 3; 19; 4; 5; 6; 7; 16; 8; 9; 10; 11; 17; 12; 13; 14; 15]%N.
Definition has160_x2 : list N := [18; 3; 6; 9; 12; 19; 15; 2; 5; 8; 16; 11; 14; 1; 4; 17; 7; 10; 13; 0]%N.
Definition has160_x3 : list N := [18; 12; 5; 14; 7; 19; 0; 9; 2; 11; 16; 4; 13; 6; 15; 17; 8; 1; 10; 3]%N.
Definition has160_x4 : list N := [18; 7; 2; 13; 8; 19; 3; 14; 9; 4; 16; 15; 10; 5; 0; 17; 11; 6; 1; 12]%N.

(** utils.go:51-69: f1..f4 have the same shape
      h[e] += rol(h[a], s1[j]) + x[xk[j]] + K + F(h[b], h[c], h[d]);  h[b] = rol(h[b], rb). *)
Definition has160_f (xk : list N) (K : N) (F : N -> N -> N -> N) (rb : N)
    (h : list N) (a b c d e : nat) (x : list N) (j : nat) : list N :=
  let h := upd h e (add32 (at_ h e)
     (add32 (add32 (add32 (rotl32 (at_ h a) (at_ has160_s1 j)) (at_ x (N.to_nat (at_ xk j)))) K)
            (F (at_ h b) (at_ h c) (at_ h d)))) in
  upd h b (rotl32 (at_ h b) rb).
Definition has160_f1 := has160_f has160_x1 0x00000000
  (fun b c d => N.lor (N.land b c) (N.land (not32 b) d)) 10.
Definition has160_f2 := has160_f has160_x2 0x5a827999 (fun b c d => N.lxor (N.lxor b c) d) 17.
Definition has160_f3 := has160_f has160_x3 0x6ed9eba1 (fun b c d => N.lxor c (N.lor b (not32 d))) 25.
Definition has160_f4 := has160_f has160_x4 0x8f1bbcdc (fun b c d => N.lxor (N.lxor b c) d) 30.

(** utils.go:20-31 bytesToUint32s on the block. *)
Definition has160_words (data : list N) : list N :=
  map (fun i => le_val (slice data (i * 4) (i * 4 + 4))) (seq 0 (length data / 4)).

Definition xor4 (x : list N) (a b c d : nat) : N :=
  N.lxor (N.lxor (N.lxor (at_ x a) (at_ x b)) (at_ x c)) (at_ x d).
(** The four assignments x[16..19] = ... before each round. *)
Definition has160_prep (q16 q17 q18 q19 : nat * nat * nat * nat) (x : list N) : list N :=
  let '(a, b, c, d) := q16 in let x := upd x 16 (xor4 x a b c d) in
  let '(a, b, c, d) := q17 in let x := upd x 17 (xor4 x a b c d) in
  let '(a, b, c, d) := q18 in let x := upd x 18 (xor4 x a b c d) in
  let '(a, b, c, d) := q19 in upd x 19 (xor4 x a b c d).
(** for i := 0; i < 20; i++ { fk(h, 4-(4+i)%5, ..., x, i) } *)
Definition has160_loop (f : list N -> nat -> nat -> nat -> nat -> nat -> list N -> nat -> list N)
    (x h : list N) : list N :=
  fold_left (fun h i => f h (4 - (4 + i) mod 5) (4 - (3 + i) mod 5) (4 - (2 + i) mod 5)
                          (4 - (1 + i) mod 5) (4 - i mod 5) x i) (seq 0 20) h.

(** digest.go:95-149 stepBlock. *)
Definition has160_block (s : list N) (block : list N) : list N :=
  let x := copy_at (zeros 20) 0 (has160_words block) in
  let h := s in
  let x := has160_prep (0, 1, 2, 3) (4, 5, 6, 7) (8, 9, 10, 11) (12, 13, 14, 15) x in
  let h := has160_loop has160_f1 x h in
  let x := has160_prep (3, 6, 9, 12) (2, 5, 8, 15) (1, 4, 11, 14) (0, 7, 10, 13) x in
  let h := has160_loop has160_f2 x h in
  let x := has160_prep (5, 7, 12, 14) (0, 2, 9, 11) (4, 6, 13, 15) (1, 3, 8, 10) x in
  let h := has160_loop has160_f3 x h in
  let x := has160_prep (2, 7, 8, 13) (3, 4, 9, 14) (0, 5, 10, 15) (1, 6, 11, 12) x in
  let h := has160_loop has160_f4 x h in
  [add32 (at_ s 0) (at_ h 0); add32 (at_ s 1) (at_ h 1); add32 (at_ s 2) (at_ h 2);
   add32 (at_ s 3) (at_ h 3); add32 (at_ s 4) (at_ h 4)].

(** digest.go:17-40 *)
Definition has160_new : dig (list N) := mkdig has160_initH (zeros 64) 0 0.
Definition has160_reset (d : dig (list N)) : dig (list N) := mkdig has160_initH (zeros 64) 0 0.
(** digest.go:42-67 *)
Definition has160_write : dig (list N) -> list N -> dig (list N) * nat := write_post 64 has160_block 1.
(** digest.go:75-93 *)
Definition has160_checkSum (d : dig (list N)) : list N :=
  concat (map (le_bytes 4) (finish_direct 64 has160_block 0x80 (le_bytes 8 (mul64 (dlen d) 8)) d)).
Definition has160_sum (d : dig (list N)) (inp : list N) : dig (list N) * list N :=
  (d, inp ++ has160_checkSum d).
Definition has160_impl : impl (dig (list N)) := mkimpl has160_write has160_sum has160_reset.

(** ** Proofs *)
(** The five registers live in fixed array cells while their roles rotate. *)
Definition rot5 (t : nat) (R v : list N) : Prop :=
  length R = 5 /\ length v = 5 /\ forall j, j < 5 -> at_ R ((j + 4 * t) mod 5) = at_ v j.
Lemma rot5_step : forall t R v T U, rot5 t R v ->
  rot5 (S t) (upd (upd R ((4 + 4 * t) mod 5) T) ((1 + 4 * t) mod 5) U)
       [T; at_ v 0; U; at_ v 2; at_ v 3].
Proof.
  intros t R v T U (LR & Lv & HR).
  pose proof (Nat.mod_upper_bound (1 + 4 * t) 5 ltac:(lia)) as Hm1.
  pose proof (Nat.mod_upper_bound (4 + 4 * t) 5 ltac:(lia)) as Hm4.
  assert (N14 : (4 + 4 * t) mod 5 <> (1 + 4 * t) mod 5)
    by (apply not_eq_sym, mod_neq; lia).
  split; [now rewrite !upd_length|]. split; [reflexivity|].
  intros j Hj.
  assert (G : forall j k, (j + 4) mod 5 = k mod 5 -> (j + 4 * S t) mod 5 = (k + 4 * t) mod 5).
  { intros a b E. replace (a + 4 * S t) with ((a + 4) + 4 * t) by lia.
    rewrite Nat.add_mod, E, <- Nat.add_mod by lia. reflexivity. }
  destruct j as [|[|[|[|[|j]]]]]; [| | | | |lia].
  - rewrite (G 0 4) by reflexivity. rewrite at_upd_other by auto.
    rewrite at_upd_same by lia. reflexivity.
  - rewrite (G 1 0) by reflexivity.
    rewrite at_upd_other by (apply not_eq_sym, mod_neq; lia).
    rewrite at_upd_other by (apply not_eq_sym, mod_neq; lia). rewrite HR by lia. reflexivity.
  - rewrite (G 2 1) by reflexivity. rewrite at_upd_same by (rewrite upd_length; lia). reflexivity.
  - rewrite (G 3 2) by reflexivity.
    rewrite at_upd_other by (apply mod_neq; lia).
    rewrite at_upd_other by (apply not_eq_sym, mod_neq; lia). rewrite HR by lia. reflexivity.
  - rewrite (G 4 3) by reflexivity.
    rewrite at_upd_other by (apply mod_neq; lia).
    rewrite at_upd_other by (apply not_eq_sym, mod_neq; lia). rewrite HR by lia. reflexivity.
Qed.

Lemma has_idx : forall i, i < 20 ->
  4 - (4 + i) mod 5 = (0 + 4 * i) mod 5 /\ 4 - (3 + i) mod 5 = (1 + 4 * i) mod 5 /\
  4 - (2 + i) mod 5 = (2 + 4 * i) mod 5 /\ 4 - (1 + i) mod 5 = (3 + 4 * i) mod 5 /\
  4 - i mod 5 = (4 + 4 * i) mod 5.
Proof.
  intros i Hi. do 20 (destruct i as [|i]; [repeat split; reflexivity|]). lia.
Qed.

Lemma add32_4 : forall a b c d e, add32 a (add32 (add32 (add32 b c) d) e) = add32 (add32 (add32 (add32 b e) a) c) d.
Proof.
  intros. assert (LC : forall x y z, add32 x (add32 y z) = add32 y (add32 x z))
    by (intros; rewrite <- !add32_assoc; f_equal; apply add32_comm).
  rewrite !add32_assoc. rewrite (LC a b). f_equal.
  rewrite (add32_comm d e), (LC c e), (LC a e). reflexivity.
Qed.

Lemma fold_combine_seq : forall A (f : A -> N * N -> A) (l s : list N) (n : nat) (v : A),
  length l = n -> length s = n ->
  fold_left f (combine l s) v = fold_left (fun v i => f v (at_ l i, at_ s i)) (seq 0 n) v.
Proof.
  intros A f. induction l as [|a l IH]; intros s n v L1 L2; subst n.
  - reflexivity.
  - destruct s as [|b s]; [discriminate L2|]. cbn [length combine seq fold_left].
    rewrite (IH s (length l)) by (cbn [length] in L2; lia).
    rewrite <- seq_shift.
    assert (G : forall q w, fold_left (fun v i => f v (at_ l i, at_ s i)) q w
      = fold_left (fun v i => f v (at_ (a :: l) i, at_ (b :: s) i)) (map S q) w).
    { induction q as [|y q IHq]; intros w; [reflexivity|]. cbn [map fold_left]. now rewrite IHq. }
    apply G.
Qed.

Definition has_v_ok (v : list N) : Prop := length v = 5 /\ Forall is32 v.

Lemma has_loop_ok : forall xk K F rb r x W,
  (forall b c d, is32 b -> is32 c -> is32 d -> F b c d = has_f r b c d) ->
  K = has_K r -> rb = has_s2 r ->
  length W = 20 -> (forall i, i < 20 -> at_ x (N.to_nat (at_ xk i)) = at_ W i) ->
  forall h, has_v_ok h ->
  has160_loop (has160_f xk K F rb) x h = fold_left (has_step r) (combine W has_s1) h
  /\ has_v_ok (has160_loop (has160_f xk K F rb) x h).
Proof.
  intros xk K F rb r x W HF HK Hrb LW HW h Hh.
  rewrite (fold_combine_seq _ _ W has_s1 20) by (auto; reflexivity).
  unfold has160_loop.
  set (fm := fun h i => has160_f xk K F rb h _ _ _ _ _ x i).
  set (fs := fun v i => has_step r v (at_ W i, at_ has_s1 i)).
  assert (Inv : forall n t R v, t + n <= 20 -> rot5 t R v -> has_v_ok v ->
    rot5 (t + n) (fold_left fm (seq t n) R) (fold_left fs (seq t n) v) /\ has_v_ok (fold_left fs (seq t n) v)).
  { induction n as [|n IH]; intros t R v Ht HR Hv.
    - cbn [seq fold_left]. now rewrite Nat.add_0_r.
    - rewrite seq_cons, !fold_left_cons. replace (t + S n) with (S t + n) by lia.
      assert (Es : fs v t = [at_ (fs v t) 0; at_ v 0; rotl32 (at_ v 1) (has_s2 r); at_ v 2; at_ v 3]) by reflexivity.
      apply IH; [lia| |].
      + rewrite Es. unfold fm.
        destruct (has_idx t ltac:(lia)) as (-> & -> & -> & -> & ->). unfold has160_f.
        pose proof HR as HR'. destruct HR as (LR & Lv & HR).
        assert (N14 : (4 + 4 * t) mod 5 <> (1 + 4 * t) mod 5) by (apply not_eq_sym, mod_neq; lia).
        cbv zeta. rewrite at_upd_other by auto. rewrite !HR by lia. rewrite HW by lia.
        rewrite Hrb.
        replace (add32 (at_ v 4) _) with (at_ (fs v t) 0).
        * apply rot5_step. exact HR'.
        * unfold fs, has_step. cbn [at_ nth]. rewrite add32_4, HK.
          rewrite HF by (apply at_list_is32; apply Hv). reflexivity.
      + destruct Hv as [Lv Fv]. rewrite Es. split; [reflexivity|].
        constructor; [|repeat constructor; first [apply at_list_is32; exact Fv | apply rotl32_is32, at_list_is32; exact Fv]].
        change (at_ (fs v t) 0) with (add32 (add32 (add32 (add32 (rotl32 (at_ v 0) (at_ has_s1 t)) (has_f r (at_ v 1) (at_ v 2) (at_ v 3))) (at_ v 4)) (at_ W t)) (has_K r)).
        apply add32_is32. }
  destruct (Inv 20 0 h h ltac:(lia)) as [(L1 & L2 & E) Hok]; auto.
  { destruct Hh as [L _]. split; [auto|]. split; [auto|]. intros j Hj.
    rewrite Nat.mul_0_r, Nat.add_0_r. now rewrite Nat.mod_small by lia. }
  assert (EE : fold_left fm (seq 0 20) h = fold_left fs (seq 0 20) h).
  { rewrite (length5 _ L1), (length5 _ L2).
    pose proof (E 0 ltac:(lia)) as E0. pose proof (E 1 ltac:(lia)) as E1.
    pose proof (E 2 ltac:(lia)) as E2. pose proof (E 3 ltac:(lia)) as E3.
    pose proof (E 4 ltac:(lia)) as E4.
    change ((0 + 4 * (0 + 20)) mod 5) with 0 in E0. change ((1 + 4 * (0 + 20)) mod 5) with 1 in E1.
    change ((2 + 4 * (0 + 20)) mod 5) with 2 in E2. change ((3 + 4 * (0 + 20)) mod 5) with 3 in E3.
    change ((4 + 4 * (0 + 20)) mod 5) with 4 in E4.
    rewrite E0, E1, E2, E3, E4. reflexivity. }
  rewrite EE. auto.
Qed.

(** Schedules: the array x after the four assignments of a round. *)
Definition has_x_ok (X x : list N) : Prop := length x = 20 /\ firstn 16 x = X.


Ltac sched :=
  match goal with |- forall X x, _ => intros X x [Lx Hx] end;
  match goal with Lx : length ?x = 20 |- _ =>
    do 20 (destruct x as [|? x]; [discriminate Lx|]);
    destruct x; [|discriminate Lx] end;
  match goal with Hx : firstn 16 _ = ?Y |- _ => subst Y end; cbn [has160_prep upd firstn]; unfold xor4, at_; cbn [nth];
  split; [split; reflexivity|];
  let i := fresh in let Hi := fresh in intros i Hi;
    do 20 (destruct i as [|i]; [lazy -[N.lxor]; rewrite ?N.lxor_0_l; try reflexivity; bitwise|]); lia.
Lemma has_sched1 : forall X x, has_x_ok X x ->
  let x' := has160_prep (0, 1, 2, 3) (4, 5, 6, 7) (8, 9, 10, 11) (12, 13, 14, 15) x in
  has_x_ok X x' /\ forall i, i < 20 -> at_ x' (N.to_nat (at_ has160_x1 i)) = at_ (has_schedule X 0) i.
Proof. sched. Qed.
Lemma has_sched2 : forall X x, has_x_ok X x ->
  let x' := has160_prep (3, 6, 9, 12) (2, 5, 8, 15) (1, 4, 11, 14) (0, 7, 10, 13) x in
  has_x_ok X x' /\ forall i, i < 20 -> at_ x' (N.to_nat (at_ has160_x2 i)) = at_ (has_schedule X 1) i.
Proof. sched. Qed.
Lemma has_sched3 : forall X x, has_x_ok X x ->
  let x' := has160_prep (5, 7, 12, 14) (0, 2, 9, 11) (4, 6, 13, 15) (1, 3, 8, 10) x in
  has_x_ok X x' /\ forall i, i < 20 -> at_ x' (N.to_nat (at_ has160_x3 i)) = at_ (has_schedule X 2) i.
Proof. sched. Qed.
Lemma has_sched4 : forall X x, has_x_ok X x ->
  let x' := has160_prep (2, 7, 8, 13) (3, 4, 9, 14) (0, 5, 10, 15) (1, 6, 11, 12) x in
  has_x_ok X x' /\ forall i, i < 20 -> at_ x' (N.to_nat (at_ has160_x4 i)) = at_ (has_schedule X 3) i.
Proof. sched. Qed.

Lemma has160_words_ok : forall b, has160_words b = map le_val (chunks 4 b).
Proof.
  intros. unfold has160_words, chunks. rewrite map_map. apply map_ext. intros i. unfold slice. do 2 f_equal. lia.
Qed.

Lemma has160_block_ok : forall s b, has_v_ok s -> length b = 64 ->
  has160_block s b = has_compress s b.
Proof.
  intros s b Hs Lb. unfold has160_block, has_compress. rewrite has160_words_ok.
  assert (LX : length (map le_val (chunks 4 b)) = 16) by (rewrite map_length, chunks_length, Lb; reflexivity).
  set (X := map le_val (chunks 4 b)) in *. clearbody X.
  assert (H0 : has_x_ok X (copy_at (zeros 20) 0 X)).
  { split; [rewrite copy_at_length; [reflexivity|lia]|].
    pose proof (copy_at_firstn _ (zeros 20) 0 X ltac:(lia) ltac:(rewrite zeros_length; lia)) as K.
    rewrite LX in K. exact K. }
  set (x0 := copy_at (zeros 20) 0 X) in *. clearbody x0.
  rewrite !fold_left_cons, fold_left_nil. unfold has_round.
  destruct (has_sched1 X x0 H0) as [H1 E1]. cbv zeta.
  set (x1 := has160_prep _ _ _ _ x0) in *. clearbody x1. clear H0.
  destruct (has_loop_ok has160_x1 0 (fun b c d => N.lor (N.land b c) (N.land (not32 b) d)) 10 0 x1 (has_schedule X 0))
    with (h := s) as [F1 V1]; auto.
  { intros b' c' d' _ _ Hd. unfold has_f. now rewrite not32_and. }
  fold has160_f1 in F1, V1. rewrite <- F1. set (h1 := has160_loop has160_f1 x1 s) in *. clearbody h1.
  destruct (has_sched2 X x1 H1) as [H2 E2].
  set (x2 := has160_prep _ _ _ _ x1) in *. clearbody x2. clear E1 H1.
  destruct (has_loop_ok has160_x2 0x5a827999 (fun b c d => N.lxor (N.lxor b c) d) 17 1 x2 (has_schedule X 1))
    with (h := h1) as [F2 V2]; auto.
  fold has160_f2 in F2, V2. rewrite <- F2. set (h2 := has160_loop has160_f2 x2 h1) in *. clearbody h2.
  destruct (has_sched3 X x2 H2) as [H3 E3].
  set (x3 := has160_prep _ _ _ _ x2) in *. clearbody x3. clear E2 H2.
  destruct (has_loop_ok has160_x3 0x6ed9eba1 (fun b c d => N.lxor c (N.lor b (not32 d))) 25 2 x3 (has_schedule X 2))
    with (h := h2) as [F3 V3]; auto.
  fold has160_f3 in F3, V3. rewrite <- F3. set (h3 := has160_loop has160_f3 x3 h2) in *. clearbody h3.
  destruct (has_sched4 X x3 H3) as [H4 E4].
  set (x4 := has160_prep _ _ _ _ x3) in *. clearbody x4. clear E3 H3.
  destruct (has_loop_ok has160_x4 0x8f1bbcdc (fun b c d => N.lxor (N.lxor b c) d) 30 3 x4 (has_schedule X 3))
    with (h := h3) as [F4 V4]; auto.
  fold has160_f4 in F4, V4. rewrite <- F4. set (h4 := has160_loop has160_f4 x4 h3) in *. clearbody h4.
  destruct Hs as [Ls _], V4 as [L4 _].
  rewrite (length5 h4 L4). rewrite (length5 s Ls) at 6. reflexivity.
Qed.
Lemma has160_block_st : forall s b, has_v_ok (has160_block s b).
Proof. intros. split; [reflexivity|]. unfold has160_block. cbv zeta. repeat constructor; apply add32_is32. Qed.

Lemma has160_fold_ok : forall bl, Forall (fun b : list N => length b = 64) bl ->
  fold_left has160_block bl has160_initH = fold_left has_compress bl has_iv.
Proof.
  intros bl Hf.
  apply (fold_left_agree _ _ has160_block has_compress has_v_ok (fun b => length b = 64)); auto.
  - intros. now apply has160_block_ok.
  - intros. apply has160_block_st.
  - split; [reflexivity|]. repeat constructor.
Qed.
Opaque has160_block has_compress.
Definition has160_rel (d : dig (list N)) (m : list N) : Prop := dig_rel 64 has160_block has160_initH 1 d m.
Lemma has160_new_rel : has160_rel has160_new [].
Proof. apply dig_rel_new; [lia|reflexivity]. Qed.
Lemma has160_checkSum_ok : forall d m, has160_rel d m -> has160_checkSum d = has160_spec m.
Proof.
  intros d m H. unfold has160_checkSum, has160_spec. cbv zeta.
  assert (El : le_bytes 8 (mul64 (dlen d) 8) = le_bytes 8 (8 * N.of_nat (length m))).
  { destruct H as (_ & _ & ->). unfold mul64. rewrite le_bytes8_w64.
    rewrite N.mul_1_l. rewrite <- le_bytes8_w64, w64_mul_l, le_bytes8_w64. f_equal. lia. }
  rewrite El. rewrite (finish_direct_ok _ 64 has160_block has160_initH 1 0x80 _ d m);
    [|lia|rewrite le_bytes_length; lia|exact H].
  now rewrite has160_fold_ok by (apply chunks_all_length; lia).
Qed.
Lemma has160_history_lemma : forall ops,
  run has160_impl has160_new ops = ideal_run has160_spec [] ops.
Proof.
  intros ops. apply run_refines with (R := has160_rel); intros; unfold has160_impl; cbn [i_write i_sum i_reset].
  - apply write_post_rel; auto. lia.
  - apply write_post_count.
  - exact H.
  - unfold has160_sum. cbn [snd]. now rewrite (has160_checkSum_ok d m).
  - apply dig_rel_new; [lia|reflexivity].
  - apply has160_new_rel.
Qed.
Transparent has160_block has_compress.
(** Test vectors of has160_test.go:15-49. *)
From Coq Require Import String.
Example has160_vec : run has160_impl has160_new
  [Write (bytes_of_string "ABCDEFGHIJKLMNOPQRSTUVWXYZabcdefghijklmnopqrstuvwxyz"); Write (bytes_of_string "0123456789"); Sum [];
   Reset; Sum [1%N]]
  = [Wrote 52; Wrote 10; Summed (hex "cb5d7efbca2f02e0fb7167cabb123af5795764e5");
     Summed (1%N :: hex "307964ef34151d37c8047adec7ab50f4ff89762d")].
Proof. vm_compute. reflexivity. Qed.
