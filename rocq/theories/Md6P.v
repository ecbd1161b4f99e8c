(** Md6P.v -- the compression function of Md6.v is that of SpecMd6.v, on whatever 89 words it is given. *)
From Coq Require Import List NArith ZArith Arith Lia Bool.
From Verif Require Import Base Words Refine Buf HashAPI SpecMd6 Md6.
Import ListNotations.
Local Open Scope nat_scope.

(** the 64-bit value of a pair *)
Definition val (w : W) : N := N.lor (N.shiftl (fst w) 32) (snd w).
Definition okW (w : W) : Prop := is32 (fst w) /\ is32 (snd w).
Lemma is32_bits : forall x, is32 x -> forall i, (32 <= i)%N -> N.testbit x i = false.
Proof. intros x H. now apply (proj1 (lt_pow2_bits 32 x)). Qed.
Lemma val_bit : forall w i, okW w -> N.testbit (val w) i = if (i <? 32)%N then N.testbit (snd w) i else N.testbit (fst w) (i - 32).
Proof.
  intros [a b] i [Ha Hb]. unfold val. cbn [fst snd] in *. rewrite N.lor_spec. destruct (N.ltb_spec i 32) as [H|H].
  - rewrite N.shiftl_spec_low by exact H. reflexivity.
  - rewrite N.shiftl_spec_high' by exact H. rewrite (is32_bits b Hb i H). apply orb_false_r.
Qed.
Lemma val_is64 : forall w, okW w -> is64 (val w).
Proof.
  intros w H. apply (proj2 (lt_pow2_bits 64 _)). intros i Hi. rewrite val_bit by exact H. destruct (N.ltb_spec i 32) as [K|K]; [lia|]. apply is32_bits; [apply H|lia].
Qed.
Lemma xor_ok : forall x y, okW x -> okW y -> okW (m6_xor x y).
Proof. intros x y [A B] [C D]. split; cbn [m6_xor fst snd]; now apply lxor_is32. Qed.
Lemma and_ok : forall x y, okW x -> okW y -> okW (m6_and x y).
Proof. intros x y [A B] [C D]. split; cbn [m6_and fst snd]; now apply land_lt_l. Qed.
Lemma val_xor : forall x y, okW x -> okW y -> val (m6_xor x y) = N.lxor (val x) (val y).
Proof.
  intros x y Hx Hy. apply N.bits_inj. intros i. rewrite N.lxor_spec, !val_bit by (auto using xor_ok). cbn [m6_xor fst snd]. destruct (i <? 32)%N; now rewrite N.lxor_spec.
Qed.
Lemma val_and : forall x y, okW x -> okW y -> val (m6_and x y) = N.land (val x) (val y).
Proof.
  intros x y Hx Hy. apply N.bits_inj. intros i. rewrite N.land_spec, !val_bit by (auto using and_ok). cbn [m6_and fst snd]. destruct (i <? 32)%N; now rewrite N.land_spec.
Qed.
Lemma w32_bit : forall x i, N.testbit (w32 x) i = if (i <? 32)%N then N.testbit x i else false.
Proof. intros. unfold w32. change 4294967295%N with (N.ones 32). rewrite N.land_spec. destruct (N.ltb_spec i 32) as [H|H]; [rewrite N.ones_spec_low by exact H; apply andb_true_r|rewrite N.ones_spec_high by exact H; apply andb_false_r]. Qed.
Lemma w64_bit : forall x i, N.testbit (w64 x) i = if (i <? 64)%N then N.testbit x i else false.
Proof. intros. unfold w64. change 18446744073709551615%N with (N.ones 64). rewrite N.land_spec. destruct (N.ltb_spec i 64) as [H|H]; [rewrite N.ones_spec_low by exact H; apply andb_true_r|rewrite N.ones_spec_high by exact H; apply andb_false_r]. Qed.
Lemma shl_bit : forall a n i, N.testbit (N.shiftl a n) i = if (i <? n)%N then false else N.testbit a (i - n).
Proof. intros. destruct (N.ltb_spec i n) as [H|H]; [now apply N.shiftl_spec_low|now apply N.shiftl_spec_high']. Qed.
Lemma shl_ok : forall x n, okW x -> (n < 64)%N -> okW (m6_shl x n).
Proof.
  intros [a b] n [A B] H. cbn [fst snd] in *. unfold m6_shl, shl32. destruct (N.leb_spec 32 n); split; cbn [fst snd]; try apply w32_is32; [reflexivity|].
  apply lor_lt; [apply w32_is32|now apply shiftr_lt].
Qed.
Lemma shr_ok : forall x n, okW x -> (n < 64)%N -> okW (m6_shr x n).
Proof.
  intros [a b] n [A B] H. cbn [fst snd] in *. unfold m6_shr, shl32. destruct (N.leb_spec 32 n); split; cbn [fst snd]; [reflexivity|now apply shiftr_lt|now apply shiftr_lt|].
  apply lor_lt; [apply w32_is32|now apply shiftr_lt].
Qed.
Ltac cases := repeat match goal with |- context [(?a <? ?b)%N] => destruct (N.ltb_spec a b) end; try lia.
Lemma val_shl : forall x n, okW x -> (n < 64)%N -> val (m6_shl x n) = shl64 (val x) n.
Proof.
  intros x n Hx Hn. apply N.bits_inj. intros i. rewrite val_bit by now apply shl_ok. unfold shl64. rewrite w64_bit, shl_bit, val_bit by exact Hx.
  destruct x as [a b]. destruct Hx as [Ha Hb]. cbn [fst snd] in *. unfold m6_shl, shl32. destruct (N.leb_spec 32 n) as [G|G]; cbn [fst snd].
  - rewrite w32_bit, shl_bit, N.bits_0. cases; auto. f_equal. lia.
  - rewrite N.lor_spec, !w32_bit, !shl_bit, N.shiftr_spec'. cases; auto.
    + rewrite orb_false_l. f_equal. lia.
    + replace (i - n - 32)%N with (i - 32 - n)%N by lia. rewrite (is32_bits b Hb) by lia. apply orb_false_r.
    + rewrite (is32_bits b Hb) by lia. reflexivity.
Qed.
Lemma val_shr : forall x n, okW x -> (0 < n < 64)%N -> val (m6_shr x n) = N.shiftr (val x) n.
Proof.
  intros x n Hx Hn. apply N.bits_inj. intros i. rewrite val_bit by (apply shr_ok; [exact Hx|lia]). rewrite N.shiftr_spec', val_bit by exact Hx.
  destruct x as [a b]. destruct Hx as [Ha Hb]. cbn [fst snd] in *. unfold m6_shr, shl32. destruct (N.leb_spec 32 n) as [G|G]; cbn [fst snd].
  - rewrite !N.shiftr_spec', N.bits_0. cases; auto. + f_equal. lia. + symmetry. apply is32_bits; [exact Ha|lia].
  - rewrite N.lor_spec, w32_bit, shl_bit, !N.shiftr_spec'. cases; auto.
    + rewrite (is32_bits b Hb) by lia. rewrite orb_false_r. f_equal. lia.
    + f_equal. lia.
Qed.

Lemma firstn_repeat : forall A (x : A) n k, firstn n (repeat x k) = repeat x (Nat.min n k).
Proof. intros A x. induction n as [|n IH]; intros [|k]; [reflexivity..|]. cbn [repeat firstn Nat.min]. now rewrite IH. Qed.
Lemma skipn_repeat : forall A (x : A) n k, skipn n (repeat x k) = repeat x (k - n).
Proof. intros A x. induction n as [|n IH]; intros [|k]; [reflexivity..|]. cbn [repeat skipn Nat.sub]. apply IH. Qed.
(** The array against the list of words computed so far, most recent first. *)
Definition arr (T : nat) (A : list W) (h : list N) : Prop :=
  length A = T /\ length h <= T /\ map val (firstn (length h) A) = rev h /\ Forall okW (firstn (length h) A).
Lemma arr_at : forall T A h t, arr T A h -> 1 <= t <= length h -> val (m6_A A (length h - t)) = nth (t - 1) h 0%N /\ okW (m6_A A (length h - t)).
Proof.
  intros T A h t (L & Lh & E & F) Ht. set (k := length h) in *.
  assert (EA : m6_A A (k - t) = nth (k - t) (firstn k A) (0, 0)%N).
  { unfold m6_A. rewrite <- (firstn_skipn k A) at 1. rewrite app_nth1; [reflexivity|]. rewrite firstn_length. lia. }
  rewrite EA. split.
  - change 0%N with (val (0, 0)%N) at 3. rewrite <- (map_nth val), E. rewrite rev_nth by (fold k; lia). fold k. f_equal. lia.
  - rewrite Forall_forall in F. apply F. apply nth_In. rewrite firstn_length. lia.
Qed.
Lemma arr_snoc : forall T A h w, arr T A h -> length h < T -> okW w -> arr T (upd A (length h) w) (val w :: h).
Proof.
  intros T A h w (L & Lh & E & F) Hl Hw. set (k := length h) in *. unfold arr. cbn [length].
  assert (EU : upd A k w = firstn k A ++ w :: skipn (S k) A).
  { rewrite upd_split by lia. reflexivity. }
  assert (Lf : length (firstn k A) = k) by (rewrite firstn_length; lia).
  assert (EF : firstn (S k) (upd A k w) = firstn k A ++ [w]).
  { rewrite EU. rewrite firstn_app, Lf. rewrite firstn_all2 by lia. replace (S k - k) with 1 by lia. reflexivity. }
  fold k. rewrite EF. split; [rewrite EU, app_length; cbn [length]; rewrite skipn_length; lia|]. split; [lia|]. split.
  - rewrite map_app, E. reflexivity.
  - apply Forall_app. split; [exact F|]. constructor; auto.
Qed.
Definition rl_ok (rl : N * N) : Prop := (0 < fst rl < 64)%N /\ (snd rl < 64)%N.
Lemma inner_ok : forall T K i s A h, arr T A h -> length h = i + s -> 89 <= i -> i + s < T -> okW K -> s < 16 ->
  arr T (m6_inner K i A s) (md6_step (val K) h (nth s md6_shifts (0, 0)%N)).
Proof.
  intros T K i s A h HA Hl Hi HT HK Hs.
  assert (Hrl : nth s md6_shifts (0, 0)%N = (nth s m6_rs 0%N, nth s m6_ls 0%N) /\ rl_ok (nth s m6_rs 0%N, nth s m6_ls 0%N)).
  { do 16 (destruct s as [|s]; [split; [reflexivity|unfold rl_ok; cbn; lia]|]). lia. }
  unfold m6_inner, md6_step. cbv zeta.
  destruct Hrl as [-> [Hr Hls]]. cbn [fst snd] in *. set (r := nth s m6_rs 0%N) in *. set (l := nth s m6_ls 0%N) in *. clearbody r l.
  destruct (arr_at T A h 89 HA ltac:(lia)) as [E5 O5]. destruct (arr_at T A h 17 HA ltac:(lia)) as [E0 O0].
  destruct (arr_at T A h 18 HA ltac:(lia)) as [E1 O1]. destruct (arr_at T A h 21 HA ltac:(lia)) as [E2 O2].
  destruct (arr_at T A h 31 HA ltac:(lia)) as [E3 O3]. destruct (arr_at T A h 67 HA ltac:(lia)) as [E4 O4].
  unfold m6_T, m6_t. cbn [nth]. rewrite <- Hl.
  set (a5 := m6_A A (length h - 89)) in *. set (a0 := m6_A A (length h - 17)) in *. set (a1 := m6_A A (length h - 18)) in *.
  set (a2 := m6_A A (length h - 21)) in *. set (a3 := m6_A A (length h - 31)) in *. set (a4 := m6_A A (length h - 67)) in *. clearbody a0 a1 a2 a3 a4 a5.
  rewrite <- E0, <- E1, <- E2, <- E3, <- E4, <- E5. clear E0 E1 E2 E3 E4 E5.
  set (x := m6_xor (m6_xor (m6_xor (m6_xor K a5) a0) (m6_and a1 a2)) (m6_and a3 a4)).
  assert (Ox : okW x) by (unfold x; repeat first [apply xor_ok|apply and_ok]; assumption).
  assert (Ex : N.lxor (N.lxor (N.lxor (N.lxor (val K) (val a5)) (val a0)) (N.land (val a1) (val a2))) (N.land (val a3) (val a4)) = val x).
  { unfold x. rewrite !val_xor, !val_and; repeat first [assumption|apply xor_ok|apply and_ok]. reflexivity. }
  rewrite Ex. clearbody x. set (y := m6_xor x (m6_shr x r)). assert (Oy : okW y) by (unfold y; apply xor_ok; [|apply shr_ok]; auto; lia).
  assert (Ey : N.lxor (val x) (N.shiftr (val x) r) = val y) by (unfold y; rewrite val_xor, val_shr; auto; apply shr_ok; auto; lia).
  rewrite Ey. clearbody y. rewrite <- val_shl by (auto; lia). assert (Os : okW (m6_shl y l)) by (apply shl_ok; auto; lia).
  rewrite <- val_xor by auto. apply arr_snoc; [exact HA|lia|now apply xor_ok].
Qed.
Lemma step_length : forall K h rl, length (md6_step K h rl) = S (length h).
Proof. reflexivity. Qed.
Lemma inner_fold : forall T K i n s A h, arr T A h -> length h = i + s -> 89 <= i -> i + s + n <= T -> okW K -> s + n <= 16 ->
  arr T (fold_left (m6_inner K i) (seq s n) A) (fold_left (md6_step (val K)) (firstn n (skipn s md6_shifts)) h).
Proof.
  intros T K i. induction n as [|n IH]; intros s A h HA Hl Hi HT HK Hs; [exact HA|].
  assert (E : firstn (S n) (skipn s md6_shifts) = nth s md6_shifts (0, 0)%N :: firstn n (skipn (S s) md6_shifts)).
  { clear - Hs. do 16 (destruct s as [|s]; [reflexivity|]). lia. }
  rewrite E, fold_left_cons. cbn [seq]. rewrite fold_left_cons. apply IH; auto; try lia; [apply inner_ok; auto; lia|rewrite step_length; lia].
Qed.
Lemma Sm_ok : okW m6_Sm. Proof. split; reflexivity. Qed.
Lemma outer_ok : forall T K A h j, arr T A h -> length h = 89 + 16 * j -> 89 + 16 * j + 16 <= T -> okW K ->
  let '(K', A') := m6_outer (K, A) j in let '(k', h') := md6_round (val K, h) in
  val K' = k' /\ okW K' /\ arr T A' h' /\ length h' = 89 + 16 * S j.
Proof.
  intros T K A h j HA Hl HT HK. unfold m6_outer, md6_round.
  pose proof (inner_fold T K (m6_n + 16 * j) 16 0 A h HA ltac:(unfold m6_n; lia) ltac:(unfold m6_n; lia) ltac:(unfold m6_n; lia) HK ltac:(lia)) as I.
  change (firstn 16 (skipn 0 md6_shifts)) with md6_shifts in I.
  split; [|split; [|split; [exact I|]]].
  - rewrite !val_xor, val_and, val_shl, val_shr; repeat first [assumption|apply Sm_ok|apply xor_ok|apply and_ok|apply shl_ok|apply shr_ok|lia]. reflexivity.
  - repeat first [assumption|apply Sm_ok|apply xor_ok|apply and_ok|apply shl_ok|apply shr_ok|lia].
  - clear - Hl. unfold md6_shifts. cbn [fold_left]. rewrite !step_length. lia.
Qed.
Lemma iter_out : forall A (f : A -> A) n x, Nat.iter n f (f x) = f (Nat.iter n f x).
Proof. intros A f n x. induction n as [|n IH]; [reflexivity|]. cbn [Nat.iter nat_rect]. unfold Nat.iter in IH. rewrite IH. reflexivity. Qed.
Lemma outer_fold : forall T n j K A h, arr T A h -> length h = 89 + 16 * j -> 89 + 16 * (j + n) <= T -> okW K ->
  let '(K', A') := fold_left m6_outer (seq j n) (K, A) in let '(k', h') := Nat.iter n md6_round (val K, h) in
  arr T A' h' /\ length h' = 89 + 16 * (j + n).
Proof.
  intros T. induction n as [|n IH]; intros j K A h HA Hl HT HK.
  - cbn. split; [exact HA|lia].
  - cbn [seq]. rewrite fold_left_cons. change (Nat.iter (S n) md6_round (val K, h)) with (md6_round (Nat.iter n md6_round (val K, h))). rewrite <- iter_out.
    pose proof (outer_ok T K A h j HA Hl ltac:(lia) HK) as O. destruct (m6_outer (K, A) j) as [K1 A1]. destruct (md6_round (val K, h)) as [k1 h1].
    destruct O as (<- & HK1 & HA1 & Hl1). specialize (IH (S j) K1 A1 h1 HA1 Hl1 ltac:(lia) HK1).
    destruct (fold_left m6_outer (seq (S j) n) (K1, A1)) as [K2 A2]. destruct (Nat.iter n md6_round (val K1, h1)) as [k2 h2]. destruct IH. split; [assumption|lia].
Qed.
Lemma S0_ok : okW m6_S0. Proof. split; reflexivity. Qed.
(** The compression function, on the first 89 words of its argument (zeros if there are fewer). *)
Lemma f_ok : forall r input full, (exists t, full = firstn 89 (input ++ repeat (0, 0)%N t) /\ length full = 89) -> Forall okW full -> 1 <= r ->
  map val (m6_f r input) = md6_f r (map val full) /\ Forall okW (m6_f r input) /\ length (m6_f r input) = 16.
Proof.
  intros r input full (t & Ef & Lf) F Hr. unfold m6_f, md6_f. set (A0 := copy_at (repeat (0, 0)%N (m6_n + r * 16)) 0 input). set (T := m6_n + r * 16) in *.
  assert (HT : T = 89 + 16 * r) by (unfold T, m6_n; lia). clearbody T.
  assert (LA : length A0 = T) by (unfold A0; rewrite copy_at_length; rewrite repeat_length; lia).
  assert (FA : firstn 89 A0 = full).
  { rewrite Ef in Lf. rewrite firstn_length, app_length, repeat_length in Lf. rewrite Ef. unfold A0, copy_at. rewrite repeat_length. rewrite firstn_O, app_nil_l. rewrite !firstn_app, firstn_firstn, firstn_length. replace (Nat.min 89 (T - 0)) with 89 by lia. f_equal.
    rewrite Nat.add_0_l, skipn_repeat, !firstn_repeat. f_equal. lia. }
  assert (I0 : arr T A0 (rev (map val full))).
  { assert (Lr : length (rev (map val full)) = 89) by (rewrite rev_length, map_length; exact Lf).
    unfold arr. rewrite Lr, FA, rev_involutive. split; [exact LA|]. split; [lia|]. split; [reflexivity|exact F]. }
  pose proof (outer_fold T r 0 m6_S0 A0 _ I0 ltac:(rewrite rev_length, map_length; exact Lf) ltac:(lia) S0_ok) as O.
  change (val m6_S0) with 0x0123456789abcdef%N in O.
  destruct (fold_left m6_outer (seq 0 r) (m6_S0, A0)) as [K A]. destruct (Nat.iter r md6_round (0x0123456789abcdef%N, rev (map val full))) as [k h].
  destruct O as ((LA' & _ & E & F') & Lh). cbn [snd]. rewrite LA'. rewrite firstn_all2 in E, F' by lia. split; [|split].
  - rewrite <- skipn_map, E, skipn_rev. f_equal. f_equal. lia.
  - rewrite Forall_forall in F' |- *. intros w Hw. apply F'. rewrite <- (firstn_skipn (T - 16) A). apply in_or_app. now right.
  - rewrite skipn_length. lia.
Qed.
