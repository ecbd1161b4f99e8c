(** PropShabal.v -- package shabal (C93). *)
From Coq Require Import List NArith Arith Lia Bool.
From Verif Require Import Base Words HashAPI Buf MD Bytes Kupyna Gost3411P ShaviteP SpecShabal Shabal LshP Pad.
Import ListNotations.

Lemma steps_tab : sb_steps = map (fun ji => let '(j, i) := ji in ((i + 16 * j) mod 12, ((i + 16 * j) mod 12 + 11) mod 12, (24 - i) mod 16, (i + 13) mod 16, (i + 9) mod 16, (i + 6) mod 16, i, i)) sh_order.
Proof. vm_compute. reflexivity. Qed.
Lemma not_lxor : forall a b, N.lxor (not32 a) b = N.lxor a (not32 b).
Proof. intros. unfold not32. rewrite !N.lxor_assoc. f_equal. apply N.lxor_comm. Qed.
Lemma fold_left_map' : forall A B C (f : A -> B -> A) (g : C -> B) l a, fold_left f (map g l) a = fold_left (fun a c => f a (g c)) l a.
Proof. intros A B C f g l. induction l as [|x l IH]; intro a; [reflexivity|]. cbn [map]. rewrite !fold_left_cons. apply IH. Qed.
Lemma steps_ok : forall C M AB, fold_left (sb_step C M) sb_steps AB = fold_left (sh_step C M) sh_order AB.
Proof.
  intros C M AB. rewrite steps_tab, fold_left_map'. apply fold_left_ext_in. intros [A B] [j i] _. unfold sb_step, sh_step, shU, shV. rewrite not_lxor. reflexivity.
Qed.
Lemma add3 : forall a x y z, add32 a (add32 (add32 x y) z) = add32 (add32 (add32 a z) y) x.
Proof.
  intros. unfold add32. transitivity (w32 (a + x + y + z)).
  - rewrite w32_add_r. rewrite (N.add_comm a), <- N.add_assoc, w32_add_l. f_equal. lia.
  - rewrite w32_add_l, <- (N.add_assoc (w32 (a + z)) y x), w32_add_l. f_equal. lia.
Qed.
Ltac list12 x H := do 12 (destruct x as [|? x]; [discriminate H|]); destruct x as [|? x]; [|discriminate H].
Lemma sums_ok : forall C A, length A = 12 -> fold_left (sb_sum1 C) sb_sums A = fold_left (fun A j => upd A (j mod 12) (add32 (at_ A (j mod 12)) (at_ C ((j + 3) mod 16)))) (seq 0 36) A.
Proof.
  intros C A H. list12 A H. 
  transitivity (fold_left (fun A a => upd A a (add32 (add32 (add32 (at_ A a) (at_ C ((a + 3) mod 16))) (at_ C ((a + 15) mod 16))) (at_ C ((a + 27) mod 16)))) [11; 10; 9; 8; 7; 6; 5; 4; 3; 2; 1; 0] [n; n0; n1; n2; n3; n4; n5; n6; n7; n8; n9; n10]).
  - change sb_sums with (map (fun a => (a, (a + 27) mod 16, (a + 15) mod 16, (a + 3) mod 16)) [11; 10; 9; 8; 7; 6; 5; 4; 3; 2; 1; 0]). rewrite fold_left_map'. apply fold_left_ext_in. intros A a _. unfold sb_sum1. rewrite add3. reflexivity.
  - reflexivity.
Qed.
Definition st3 : Type := list N * list N * list N.
Definition wf3 (st : list N * list N * list N) : Prop := let '(A, B, C) := st in length A = 12 /\ length B = 16 /\ length C = 16.
Definition flat (st : list N * list N * list N) : list N := let '(A, B, C) := st in A ++ B ++ C.
Lemma sh_steps_len : forall C M l A B, length A = 12 -> length B = 16 -> let '(A', B') := fold_left (sh_step C M) l (A, B) in length A' = 12 /\ length B' = 16.
Proof.
  intros C M l. induction l as [|[j i] l IH]; intros A B HA HB; [split; assumption|]. rewrite fold_left_cons. unfold sh_step at 2. apply IH; now rewrite upd_length.
Qed.
Lemma fold_upd_len : forall (g : list N -> nat -> N) (h : nat -> nat) l A, length (fold_left (fun A j => upd A (h j) (g A j)) l A) = length A.
Proof. intros g h l. induction l as [|j l IH]; intro A; [reflexivity|]. rewrite fold_left_cons, IH. apply upd_length. Qed.
Lemma map_seq_eq : forall (f g : nat -> N) n, (forall i, i < n -> f i = g i) -> map f (seq 0 n) = map g (seq 0 n).
Proof. intros f g n H. apply map_ext_in. intros i Hi. apply in_seq in Hi. apply H. lia. Qed.
Lemma sh_round_wf : forall W st b, wf3 st -> wf3 (sh_round W st b).
Proof.
  intros W [[A B] C] b (HA & HB & HC). unfold sh_round. cbv zeta. unfold sh_P.
  match goal with |- context [fold_left (sh_step C ?M) sh_order (?a, ?b)] => pose proof (sh_steps_len C M sh_order a b) as H; destruct (fold_left (sh_step C M) sh_order (a, b)) as [A' B'] end.
  destruct H as [LA LB]; [rewrite map_length; apply seq_length|rewrite !map_length; apply seq_length|]. unfold wf3. split; [|split; [rewrite map_length; apply seq_length|exact LB]].
  rewrite (fold_upd_len (fun A j => add32 (at_ A (j mod 12)) (at_ C ((j + 3) mod 16))) (fun j => j mod 12)). exact LA.
Qed.
Lemma one_ok : forall W st b, wf3 st -> length b = 64 -> (W < 2 ^ 64)%N -> sb_one (flat st, W) b = (flat (sh_round W st b), w64 (W + 1)).
Proof.
  intros W [[A B] C] b (HA & HB & HC) Lb HW. unfold sb_one, flat.
  replace (firstn 12 (A ++ B ++ C)) with A by (symmetry; now apply firstn_app_len). 
  replace (skipn 28 (A ++ B ++ C)) with C by (rewrite app_assoc; symmetry; apply skipn_app_len; rewrite app_length; lia).
  replace (slice (A ++ B ++ C) 12 28) with B.
  2:{ unfold slice. rewrite (skipn_app_len _ 12 A) by exact HA. symmetry. now apply firstn_app_len. }
  assert (EM : map (fun i => le_val (slice b (4 * i) (4 * i + 4))) (seq 0 16) = map le_val (chunks 4 b)) by (apply (slices_words b 16); lia).
  cbv zeta. rewrite EM. unfold sh_round. cbv zeta. set (M := map le_val (chunks 4 b)). clearbody M.
  assert (EB : map (fun i => rotl32 (add32 (at_ B i) (at_ M i)) 17) (seq 0 16) = map (fun b => rotl32 b 17) (map (fun i => add32 (at_ B i) (at_ M i)) (seq 0 16))) by (rewrite map_map; reflexivity).
  rewrite EB. set (B1 := map (fun i => add32 (at_ B i) (at_ M i)) (seq 0 16)).
  assert (EW : w32 (N.shiftr W 32) = N.shiftr W 32).
  { rewrite w32_mod. apply N.mod_small. rewrite N.shiftr_div_pow2. apply N.div_lt_upper_bound; [discriminate|]. exact HW. }
  rewrite EW.
  assert (EA : upd (upd A 0 (N.lxor (at_ A 0) (w32 W))) 1 (N.lxor (at_ (upd A 0 (N.lxor (at_ A 0) (w32 W))) 1) (N.shiftr W 32)) =
     map (fun i => N.lxor (at_ A i) (if i =? 0 then w32 W else if i =? 1 then N.shiftr W 32 else 0%N)) (seq 0 12)).
  { clear - HA. generalize (w32 W) (N.shiftr W 32). intros u v. list12 A HA. cbn [map seq Nat.eqb]. rewrite !N.lxor_0_r. reflexivity. }
  rewrite EA. set (A1 := map _ (seq 0 12)). unfold sh_P. rewrite steps_ok.
  pose proof (sh_steps_len C M sh_order A1 (map (fun b => rotl32 b 17) B1)) as HL. destruct (fold_left (sh_step C M) sh_order (A1, map (fun b => rotl32 b 17) B1)) as [A' B'].
  destruct HL as [LA LB]; [unfold A1; rewrite map_length; apply seq_length|unfold B1; rewrite !map_length; apply seq_length|]. rewrite sums_ok by exact LA. reflexivity.
Qed.
Lemma core_one : forall st b, length b = 64 -> sb_core st b 1 = sb_one st b.
Proof. intros st b L. unfold sb_core. cbn [seq fold_left]. change (64 * 0) with 0. unfold slice. rewrite skipn_O. rewrite firstn_all2 by lia. reflexivity. Qed.
Lemma core_chunks : forall st data, sb_core st data (length data / 64) = fold_left sb_one (chunks 64 data) st.
Proof.
  intros st data. unfold sb_core, chunks. rewrite fold_left_map'. apply fold_left_ext_in. intros s i _. unfold slice. replace (64 * i + 64 - 64 * i) with 64 by lia. now rewrite (Nat.mul_comm 64 i).
Qed.
Definition srel (w : nat) (d : dig (list N * N)) (m : list N) : Prop := dig_rel 64 sb_one (sb_iv w, 1%N) 1 d m.
Lemma sb_write_eq : forall w d m p, srel w d m -> sb_write d p = write_std 64 sb_one d p.
Proof.
  intros w d m p (Hs & (Lx & En & Ef) & Hl). unfold sb_write, write_std, writeB. pose proof (rest_length_lt N 64 m ltac:(lia)) as LR. rewrite <- En in LR.
  assert (F : forall st buf off nx, length buf = 64 -> (off = length p -> True) -> off <= length p -> nx = 0 ->
    (let num := (length p - off) / 64 in
     let '(st', off', plen') := if 0 <? num then (sb_core st (skipn off p) num, off + num * 64, (length p - off) mod 64) else (st, off, length p - off) in
     (mkdig st' (copy_at buf 0 (skipn off' p)) plen' (add64 (dlen d) (N.of_nat (length p))), length p)) =
    (let '(s', x', nx') := (let '(s2, p2) := loopB 64 sb_one (S (length (skipn off p))) st (skipn off p) in if 0 <? length p2 then (s2, copy_at buf 0 p2, length p2) else (s2, buf, nx)) in
     (mkdig s' x' nx' (add64 (dlen d) (N.of_nat (length p))), length p))).
  { intros st buf off nx Lb _ Ho ->. cbv zeta. rewrite (loopB_ok 64 sb_one ltac:(lia)) by lia. set (p' := skipn off p). assert (LP : length p - off = length p') by (unfold p'; rewrite skipn_length; reflexivity).
    rewrite LP. rewrite core_chunks. pose proof (rest_length N 64 p' ltac:(lia)) as L'.
    assert (E1 : (if 0 <? length p' / 64 then (fold_left sb_one (chunks 64 p') st, off + length p' / 64 * 64, length p' mod 64) else (st, off, length p')) = (fold_left sb_one (chunks 64 p') st, off + length p' / 64 * 64, length p' mod 64)).
    { destruct (Nat.ltb_spec 0 (length p' / 64)) as [H|H]; [reflexivity|]. assert (Z : length p' / 64 = 0) by lia. apply Nat.div_small_iff in Z as Z'; [|lia]. rewrite Z, Nat.mul_0_l, Nat.add_0_r, Nat.mod_small by exact Z'. rewrite chunks_short by lia. reflexivity. }
    rewrite E1. assert (E2 : skipn (off + length p' / 64 * 64) p = rest 64 p') by (unfold rest, p'; rewrite skipn_skipn; reflexivity). rewrite E2, <- L'.
    destruct (Nat.ltb_spec 0 (length (rest 64 p'))) as [H|H]; [reflexivity|]. destruct (rest 64 p'); [|cbn [length] in H; lia]. cbn [length].
    rewrite copy_at_over by (cbn; lia). reflexivity. }
  destruct (Nat.eqb_spec (dnx d) 0) as [Z|Z]; cbn [negb].
  - rewrite Z. change (0 <? 0) with false. cbv iota. specialize (F (ds d) (dx d) 0 0 Lx (fun _ => I) ltac:(lia) eq_refl). rewrite skipn_O, Nat.sub_0_r in F. exact F.
  - replace (0 <? dnx d) with true by (symmetry; apply Nat.ltb_lt; lia). cbv iota. rewrite Lx. destruct (Nat.ltb_spec (length p) (64 - dnx d)) as [H|H].
    + rewrite Nat.min_r by lia. replace (dnx d + length p =? 64) with false by (symmetry; apply Nat.eqb_neq; lia). rewrite skipn_all. cbn [length loopB]. change (64 <=? 0) with false. reflexivity.
    + rewrite Nat.min_l by lia. replace (dnx d + (64 - dnx d) =? 64) with true by (symmetry; apply Nat.eqb_eq; lia). cbv iota.
      assert (EC : copy_at (dx d) (dnx d) (firstn (64 - dnx d) p) = copy_at (dx d) (dnx d) p).
      { unfold copy_at. rewrite Lx, firstn_firstn, Nat.min_id, firstn_length. do 3 f_equal. f_equal. lia. }
      rewrite EC. rewrite core_one by (rewrite copy_at_length; lia). apply F; [rewrite copy_at_length; lia|trivial|lia|reflexivity].
Qed.
(** The initial values: stored tables and getIV are the specified initial state. *)
Lemma iv_ok : forall w, 1 <= w <= 16 -> sb_iv w = flat (sh_iv (32 * w)).
Proof.
  intros w Hw. assert (H : forallb (fun w => if list_eq_dec N.eq_dec (sb_iv w) (flat (sh_iv (32 * w))) then true else false) (seq 1 16) = true) by (vm_compute; reflexivity).
  rewrite forallb_forall in H. specialize (H w). rewrite in_seq in H. specialize (H ltac:(lia)). destruct (list_eq_dec N.eq_dec (sb_iv w) (flat (sh_iv (32 * w)))) as [E|E]; [exact E|discriminate H].
Qed.
Lemma count_ok : forall bl W st, wf3 st -> (W < 2 ^ 64)%N -> Forall (fun b => length b = 64) bl ->
  fold_left sb_one bl (flat st, W) = (flat (snd (fold_left sh_count bl (W, st))), w64 (W + N.of_nat (length bl))) /\ wf3 (snd (fold_left sh_count bl (W, st))) /\
  fst (fold_left sh_count bl (W, st)) = w64 (W + N.of_nat (length bl)).
Proof.
  intros bl. induction bl as [|b bl IH]; intros W st HS HW HF.
  - cbn [fold_left length]. rewrite N.add_0_r. assert (E : w64 W = W) by (rewrite w64_mod; now apply N.mod_small). rewrite E. repeat split. exact HS.
  - inversion HF as [|? ? Lb HF']; subst. rewrite !fold_left_cons. rewrite one_ok by assumption. unfold sh_count at 2 4 6. 
    destruct (IH (w64 (W + 1)) (sh_round W st b) (sh_round_wf W st b HS) (w64_is64 _) HF') as (A & B & C). rewrite A.
    assert (E : w64 (w64 (W + 1) + N.of_nat (length bl)) = w64 (W + N.of_nat (length (b :: bl)))) by (rewrite w64_add_l; f_equal; cbn [length]; lia).
    rewrite <- E. split; [reflexivity|]. split; [exact B|exact C].
Qed.
Lemma sub_back : forall W, (W < 2 ^ 64)%N -> sub64 (w64 (W + 1)) 1 = W.
Proof.
  intros W H. unfold sub64. destruct (N.eq_dec W (2 ^ 64 - 1)) as [->|Hn]; [reflexivity|].
  assert (E1 : w64 (W + 1) = (W + 1)%N) by (rewrite w64_mod; apply N.mod_small; change (2 ^ 64)%N with 18446744073709551616%N in *; lia). rewrite E1, w64_mod.
  change (2 ^ 64)%N with 18446744073709551616%N in *. replace (W + 1 + 18446744073709551616 - 1)%N with (W + 1 * 18446744073709551616)%N by lia. rewrite N.mod_add by discriminate. now apply N.mod_small.
Qed.
Lemma iv_wf : forall w, 1 <= w <= 16 -> wf3 (sh_iv (32 * w)).
Proof.
  intros w _. unfold sh_iv, sh_rounds. rewrite !fold_left_cons. unfold sh_count. cbn [fold_left snd]. apply sh_round_wf, sh_round_wf. repeat split.
Qed.
Lemma buf_last : forall x nx m, buf_ok 64 64 x nx m ->
  let buf := fold_left (fun b i => upd b i 0%N) (seq (nx + 1) (64 - (nx + 1))) (upd x nx 0x80%N) in
  chunks 64 (sh_pad m) = chunks 64 m ++ [buf] /\ length buf = 64.
Proof.
  intros x nx m (Lx & En & Ef) buf. pose proof (rest_length N 64 m ltac:(lia)) as LR. pose proof (Nat.mod_upper_bound (length m) 64 ltac:(lia)) as HM.
  assert (Z : buf = rest 64 m ++ 0x80%N :: zeros (63 - length m mod 64)).
  { unfold buf. rewrite zero_range by (rewrite upd_length; lia). rewrite upd_split by lia. rewrite Ef.
    rewrite firstn_app. rewrite firstn_all2 by lia. replace (nx + 1 - length (rest 64 m)) with 1 by lia. cbn [firstn]. rewrite skipn_all2 by (rewrite app_length; cbn [length]; rewrite skipn_length; lia).
    rewrite app_nil_r, <- app_assoc. cbn [app]. do 3 f_equal. lia. }
  assert (L : length buf = 64) by (rewrite Z, app_length; cbn [length]; rewrite zeros_length; lia).
  split; [|exact L]. unfold sh_pad. rewrite Z. apply chunks_last; [lia|]. rewrite <- Z. exact L.
Qed.
Lemma nth_skipn' : forall (l : list N) a i d, nth i (skipn a l) d = nth (a + i) l d.
Proof. intros l a. revert l. induction a as [|a IH]; intros l i d; [reflexivity|]. destruct l as [|x l]; [destruct i; reflexivity|]. cbn [skipn Nat.add nth]. apply IH. Qed.
Lemma sb_checkSum_ok : forall w d m, 1 <= w <= 16 -> srel w d m -> sb_checkSum w d = shabal (32 * w) m.
Proof.
  intros w d m Hw (Hs & Hb & _). unfold sb_checkSum. cbv zeta. destruct (buf_last _ _ _ Hb) as [A L]. cbv zeta in A, L. set (buf := fold_left (fun b i => upd b i 0%N) _ _) in *. clearbody buf.
  unfold shabal. cbv zeta. rewrite A, last_last. rewrite app_length. cbn [length]. unfold sh_rounds. rewrite fold_left_app.
  destruct (count_ok (chunks 64 m) 1 (sh_iv (32 * w)) (iv_wf w Hw) ltac:(reflexivity) (chunks_all_length N 64 m ltac:(lia))) as (C1 & C2 & C3).
  rewrite (iv_ok w Hw) in Hs. rewrite Hs, C1. destruct (fold_left sh_count (chunks 64 m) (1%N, sh_iv (32 * w))) as [W st]. cbn [fst snd fold_left sh_count] in *. rewrite <- C3.
  replace (w64 (N.of_nat (length (chunks 64 m) + 1))) with W by (rewrite C3; f_equal; lia).
  assert (HW : (W < 2 ^ 64)%N) by (rewrite C3; apply w64_is64). clear C1 C3 A Hs Hb.
  assert (ST : forall st, wf3 st -> (let '(s, W') := sb_core (flat st, W) buf 1 in (s, sub64 W' 1)) = (flat (sh_round W st buf), W)).
  { intros st' H'. rewrite core_one by exact L. rewrite one_ok by assumption. now rewrite sub_back. }
  cbn [Nat.iter nat_rect]. rewrite (ST st C2). rewrite ST by (now apply sh_round_wf). rewrite ST by (now apply sh_round_wf, sh_round_wf). rewrite ST by (now apply sh_round_wf, sh_round_wf, sh_round_wf).
  set (r := sh_round W (sh_round W (sh_round W (sh_round W st buf) buf) buf) buf).
  assert (HR : wf3 r) by (unfold r; now repeat apply sh_round_wf). clearbody r. destruct r as [[A B] C]. cbn [fst flat]. destruct HR as (LA & LB & LC).
  replace (32 * w / 32) with w by (rewrite Nat.mul_comm, Nat.div_mul; lia). apply f_equal. rewrite <- map_map with (f := fun k => at_ (A ++ B ++ C) (44 - w + k)) (g := le_bytes 4). apply f_equal.
  apply list_eq_at; [rewrite map_length, seq_length, skipn_length; lia|]. intros i Hi. rewrite map_length, seq_length in Hi. rewrite at_map_seq by exact Hi.
  unfold at_. rewrite app_assoc, app_nth2 by (rewrite app_length; lia). rewrite app_length, nth_skipn'. f_equal. lia.
Qed.
Lemma sb_new_rel : forall w, srel w (sb_new w) [].
Proof. intro w. apply (dig_rel_new 64 sb_one ltac:(lia)). reflexivity. Qed.
Lemma sb_write_rel : forall w d m p, srel w d m -> srel w (fst (sb_write d p)) (m ++ p).
Proof. intros w d m p H. rewrite (sb_write_eq w d m p H). apply (write_std_rel 64 sb_one ltac:(lia)). exact H. Qed.
(** C93: every history, for every output size accepted by New. *)
Theorem C93_shabal_histories : forall outSize, sb_valid outSize = true -> forall ops, run (sb_impl (outSize / 32)) (sb_new (outSize / 32)) ops = ideal_run (shabal outSize) [] ops.
Proof.
  intros outSize HV ops. unfold sb_valid in HV. apply negb_true_iff in HV. rewrite !orb_false_iff, negb_false_iff, !Nat.ltb_ge, Nat.eqb_eq in HV. destruct HV as [[H1 H2] H3].
  assert (E : outSize = 32 * (outSize / 32)) by (pose proof (Nat.div_mod outSize 32 ltac:(lia)); lia). rewrite E at 3. set (w := outSize / 32) in *. assert (Hw : 1 <= w <= 16) by lia. clearbody w.
  apply (run_refines _ (sb_impl w) (shabal (32 * w)) (srel w)); cbn [i_write i_sum i_reset sb_impl]; auto.
  - intros. now apply sb_write_rel.
  - intros d m p H. rewrite (sb_write_eq w d m p H). apply (write_std_count 64 sb_one).
  - intros d m i H. unfold sb_sum. cbn [snd]. apply f_equal. now apply sb_checkSum_ok.
  - intros. apply sb_new_rel.
  - apply sb_new_rel.
Qed.
Theorem C93_shabal_valid_sizes : forall outSize, sb_valid outSize = true <-> (exists w, outSize = 32 * w) /\ 32 <= outSize <= 512.
Proof.
  intro n. unfold sb_valid. rewrite negb_true_iff, !orb_false_iff, negb_false_iff, !Nat.ltb_ge, Nat.eqb_eq. split.
  - intros [[H1 H2] H3]. split; [|lia]. exists (n / 32). pose proof (Nat.div_mod n 32 ltac:(lia)). lia.
  - intros [[w ->] H]. rewrite Nat.mul_comm, Nat.mod_mul by lia. lia.
Qed.
Lemma shabal_length : forall w m, 1 <= w <= 16 -> length (shabal (32 * w) m) = 4 * w.
Proof.
  intros w m Hw. rewrite <- (sb_checkSum_ok w (fst (sb_write (sb_new w) m)) m Hw); [|apply (sb_write_rel w (sb_new w) [] m), sb_new_rel].
  unfold sb_checkSum. cbv zeta. set (st := fst (Nat.iter _ _ _)). clearbody st. rewrite <- map_map with (f := fun k => at_ st (44 - w + k)) (g := le_bytes 4). rewrite concat_le_length, map_length, seq_length. lia.
Qed.
(** Sum192 ... Sum512. *)
Theorem C93_shabal_oneshots : forall w m, In w [6; 7; 8; 12; 16] -> sb_oneshot w m = shabal (32 * w) m.
Proof.
  intros w m Hw'. assert (Hw : 1 <= w <= 16) by (cbn [In] in Hw'; lia). unfold sb_oneshot, sb_sum. cbn [snd app].
  rewrite (sb_checkSum_ok w _ m Hw) by (apply (sb_write_rel w (sb_new w) [] m), sb_new_rel).
  pose proof (shabal_length w m Hw) as L. rewrite firstn_all2 by lia. rewrite copy_at_over by (rewrite L, zeros_length; lia). rewrite L, zeros_skip. replace (w * 4 - 4 * w) with 0 by lia. apply app_nil_r.
Qed.

(** Known answers (shabal_test.go) and a concrete history. *)
Example shabal256_empty : shabal 256 [] = be_bytes 32 0xaec750d11feee9f16271922fbaf5a9be142f62019ef8d720f858940070889014.
Proof. vm_compute. reflexivity. Qed.
Example shabal224_empty : shabal 224 [] = be_bytes 28 0x562b4fdbe1706247552927f814b66a3d74b465a090af23e277bf8029.
Proof. vm_compute. reflexivity. Qed.
Example shabal_history : run (sb_impl 8) (sb_new 8) [Write (zeros 100); Sum [3%N]; Reset; Write []; Sum [7%N]] =
  [Wrote 100; Summed (3%N :: shabal 256 (zeros 100)); Wrote 0; Summed (7%N :: be_bytes 32 0xaec750d11feee9f16271922fbaf5a9be142f62019ef8d720f858940070889014)].
Proof. rewrite (C93_shabal_histories 256 eq_refl). cbn [ideal_run app length]. rewrite shabal256_empty. reflexivity. Qed.
