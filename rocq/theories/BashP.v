(** BashP.v -- proofs about the model of package bash. *)
From Coq Require Import List NArith ZArith Arith Lia Bool.
From Verif Require Import Base Words HashAPI Buf Refine SpecBash Bash.
Import ListNotations.

(** ** Byte order *)
Definition swap (x : N) : N := le_val (be_bytes 8 x).
Lemma byte_small : forall x, (w8 x < 256)%N. Proof. exact w8_lt. Qed.
Lemma land_ff : forall x k, N.land x (N.shiftl 255 k) = N.shiftl (w8 (N.shiftr x k)) k.
Proof.
  intros x k. unfold w8. apply N.bits_inj. intros i. rewrite N.land_spec.
  destruct (N.lt_ge_cases i k) as [L|L]; [rewrite !N.shiftl_spec_low by exact L; apply andb_false_r|].
  rewrite !N.shiftl_spec_high' by exact L. rewrite N.land_spec, N.shiftr_spec'. now replace (i - k + k)%N with i by lia.
Qed.
Lemma shl_small : forall b k, (b < 256)%N -> (k <= 56)%N -> shl64 b k = N.shiftl b k.
Proof.
  intros b k Hb Hk. unfold shl64. apply w64_small. rewrite N.shiftl_mul_pow2. assert (P : (2 ^ k <= 2 ^ 56)%N) by (apply N.pow_le_mono_r; lia).
  change 18446744073709551616%N with (256 * 2 ^ 56)%N. nia.
Qed.
Lemma shl_w64 : forall x, shl64 x 56 = N.shiftl (w8 x) 56.
Proof.
  intros x. unfold shl64, w64, w8. apply N.bits_inj. intros i. rewrite N.land_spec.
  destruct (N.lt_ge_cases i 56) as [L|L]; [rewrite !N.shiftl_spec_low by exact L; reflexivity|]. rewrite !N.shiftl_spec_high' by exact L. rewrite N.land_spec. f_equal.
  change 18446744073709551615%N with (N.ones 64). change 255%N with (N.ones 8). destruct (N.lt_ge_cases i 64) as [M|M]; [rewrite !N.ones_spec_low by lia|rewrite !N.ones_spec_high by lia]; reflexivity.
Qed.
Lemma le_val_8 : forall a b c d e f g h : N, isbytes [a; b; c; d; e; f; g; h] ->
  le_val [a; b; c; d; e; f; g; h] = N.lor (N.lor (N.lor (N.lor (N.lor (N.lor (N.lor (N.shiftl h 56) (N.shiftl g 48)) (N.shiftl f 40)) (N.shiftl e 32)) (N.shiftl d 24)) (N.shiftl c 16)) (N.shiftl b 8)) a.
Proof.
  intros a b c d e f g h H. unfold isbytes in H. repeat match goal with K : Forall isbyte (_ :: _) |- _ => apply Forall_cons_iff in K; destruct K end.
  assert (L : forall x l, isbyte x -> le_val (x :: l) = N.lor x (N.shiftl (le_val l) 8)).
  { intros x l Hx. cbn [le_val]. rewrite <- add_shift_lor by exact Hx. change (2 ^ 8)%N with 256%N. lia. }
  rewrite !L by assumption. change (le_val []) with 0%N. rewrite N.shiftl_0_l, N.lor_0_r. rewrite !N.shiftl_lor, !N.shiftl_shiftl. cbn [N.add Pos.add Pos.succ Pos.add_carry]. bitwise.
Qed.
Lemma shiftr_ff : forall x k j, N.land (N.shiftr x k) (N.shiftl 255 j) = N.shiftl (w8 (N.shiftr x (k + j))) j.
Proof. intros. rewrite land_ff, N.shiftr_shiftr. reflexivity. Qed.
Lemma shl_ff : forall x k j, (k + j <= 56)%N -> shl64 (N.shiftl (w8 x) j) k = N.shiftl (w8 x) (j + k).
Proof. intros x k j H. unfold shl64. rewrite N.shiftl_shiftl. apply shl_small; [apply byte_small|lia]. Qed.
Lemma top_byte : forall x, is64 x -> N.shiftr x 56 = w8 (N.shiftr x 56).
Proof.
  intros x H. symmetry. apply w8_small. rewrite N.shiftr_div_pow2. apply N.div_lt_upper_bound; [discriminate|]. exact H.
Qed.
Lemma SWAP64_ok : forall x, is64 x -> bash_SWAP64 x = swap x.
Proof.
  intros x Hx. unfold swap, be_bytes. unfold le_bytes. cbn [rev app]. rewrite le_val_8 by (repeat constructor; apply byte_small). rewrite !N.shiftr_shiftr.
  unfold bash_SWAP64. rewrite shl_w64. change 0xff00%N with (N.shiftl 255 8). change 0xff0000%N with (N.shiftl 255 16). change 0xff000000%N with (N.shiftl 255 24). rewrite !shiftr_ff.
  rewrite !land_ff. rewrite !shl_ff by (cbn; lia). rewrite (top_byte x Hx). reflexivity.
Qed.
Lemma swap_is64 : forall x, is64 (swap x).
Proof. intros x. unfold swap, is64. pose proof (le_val_lt (be_bytes 8 x) (be_bytes_isbytes 8 x)) as K. rewrite be_bytes_length in K. exact K. Qed.
Lemma swap_swap : forall x, is64 x -> swap (swap x) = x.
Proof.
  intros x H. unfold swap, be_bytes. pose proof (le_bytes_le_val (rev (le_bytes 8 x)) (isbytes_rev _ (le_bytes_isbytes 8 x))) as K. rewrite rev_length, le_bytes_length in K. rewrite K, rev_involutive.
  rewrite le_val_le_bytes. apply N.mod_small. exact H.
Qed.
Lemma swap_be : forall c, isbytes c -> length c = 8 -> swap (be_val c) = le_val c.
Proof. intros c B L. unfold swap. rewrite <- L, be_bytes_be_val by exact B. reflexivity. Qed.
Lemma be_swap : forall x, be_bytes 8 x = le_bytes 8 (swap x).
Proof. intros x. unfold swap. pose proof (le_bytes_le_val (be_bytes 8 x) (be_bytes_isbytes 8 x)) as K. rewrite be_bytes_length in K. now rewrite K. Qed.
Lemma w8_lxor : forall a b, w8 (N.lxor a b) = N.lxor (w8 a) (w8 b).
Proof. intros. unfold w8. bitwise. Qed.
Lemma le_val_8x : forall a b c d e f g h : N, isbytes [a; b; c; d; e; f; g; h] ->
  le_val [a; b; c; d; e; f; g; h] = N.lxor a (N.lxor (N.shiftl b 8) (N.lxor (N.shiftl c 16) (N.lxor (N.shiftl d 24) (N.lxor (N.shiftl e 32) (N.lxor (N.shiftl f 40) (N.lxor (N.shiftl g 48) (N.shiftl h 56))))))).
Proof.
  intros a b c d e f g h H. unfold isbytes in H. repeat match goal with K : Forall isbyte (_ :: _) |- _ => apply Forall_cons_iff in K; destruct K end.
  assert (L : forall x l, isbyte x -> le_val (x :: l) = N.lxor x (N.shiftl (le_val l) 8)).
  { intros x l Hx. cbn [le_val]. rewrite <- add_shift_lxor by exact Hx. change (2 ^ 8)%N with 256%N. lia. }
  rewrite !L by assumption. change (le_val []) with 0%N. rewrite N.shiftl_0_l, N.lxor_0_r. rewrite !N.shiftl_lxor, !N.shiftl_shiftl. reflexivity.
Qed.
Lemma xor4 : forall a a' r r' x, x = N.lxor r r' -> N.lxor (N.lxor a a') x = N.lxor (N.lxor a r) (N.lxor a' r').
Proof. intros. subst x. bitwise. Qed.
Lemma swap_lxor : forall a b, swap (N.lxor a b) = N.lxor (swap a) (swap b).
Proof.
  intros a b. unfold swap, be_bytes, le_bytes. cbn [rev app]. rewrite !le_val_8x by (repeat constructor; apply byte_small).
  rewrite !N.shiftr_lxor, !w8_lxor, !N.shiftl_lxor. do 7 apply xor4. reflexivity.
Qed.

(** ** bash-f *)
Lemma rothi_ok : forall x y, (0 < y < 64)%N -> bash_ROTHI x y = rotl64 x y.
Proof.
  intros x y H. unfold bash_ROTHI. replace (y <? 64)%N with true by (symmetry; apply N.ltb_lt; lia). replace (0 <? y)%N with true by (symmetry; apply N.ltb_lt; lia). reflexivity.
Qed.
Lemma rot_table : forall v, v < 8 -> nth v bash_rot [] = bash_rots v /\ (forall i, i < 4 -> (0 < at_ (bash_rots v) i < 64)%N).
Proof.
  intros v Hv. do 8 (destruct v as [|v]; [split; [reflexivity|]; intros i Hi; do 4 (destruct i as [|i]; [split; reflexivity|]); lia|]). lia.
Qed.
Lemma rc_table : forall i, i < 24 -> at_ bash_rc i = bash_const i.
Proof.
  intros i Hi. assert (K : forallb (fun i => N.eqb (at_ bash_rc i) (bash_const i)) (seq 0 24) = true) by (vm_compute; reflexivity).
  rewrite forallb_forall in K. apply N.eqb_eq, K, in_seq. lia.
Qed.
Lemma col_ok : forall S v, v < 8 -> bash_col S v = bash_column S v.
Proof.
  intros S v Hv. destruct (rot_table v Hv) as [E B]. unfold bash_col, bash_column. rewrite E. unfold bash_L3_S3, bash_s. cbv zeta.
  rewrite !rothi_ok by (apply B; lia). rewrite (Nat.add_comm v 8), (Nat.add_comm v 16). reflexivity.
Qed.
Lemma rnd_ok : forall S i, i < 24 -> bash_rnd S i = bash_round S i.
Proof.
  intros S i Hi. unfold bash_rnd, bash_round. cbv zeta. rewrite rc_table by exact Hi.
  assert (E : fold_left bash_col (seq 0 8) S = fold_left bash_column (seq 0 8) S) by (apply fold_left_ext_in; intros; apply col_ok; apply in_seq in H; lia).
  rewrite E. reflexivity.
Qed.
Lemma not64_is64 : forall x, is64 x -> is64 (not64 x).
Proof. intros. apply lxor_is64; [assumption|reflexivity]. Qed.
Lemma at_is64 : forall l i, Forall is64 l -> is64 (at_ l i).
Proof. intros l i H. unfold at_. destruct (nth_in_or_default i l 0%N) as [I|E]; [rewrite Forall_forall in H; now apply H|rewrite E; reflexivity]. Qed.
Lemma upd_is64 : forall l i v, Forall is64 l -> is64 v -> Forall is64 (upd l i v).
Proof. induction l as [|a l IH]; intros [|i] v H Hv; cbn [upd]; auto; inversion H; subst; constructor; auto. Qed.
Lemma s_is64 : forall a b c d w0 w1 w2, is64 w0 -> is64 w1 -> is64 w2 ->
  let '(x, y, z) := bash_s a b c d (w0, w1, w2) in is64 x /\ is64 y /\ is64 z.
Proof.
  intros. unfold bash_s. cbv zeta. set (t0 := rotl64 w0 a). assert (is64 t0) by (now apply rotl64_is64). set (v0 := N.lxor (N.lxor w0 w1) w2). assert (is64 v0) by (repeat apply lxor_is64; assumption).
  set (t1 := N.lxor w1 (rotl64 v0 b)). assert (is64 t1) by (apply lxor_is64; [assumption|now apply rotl64_is64]). set (v1 := N.lxor t0 t1). assert (is64 v1) by (now apply lxor_is64).
  set (v2 := N.lxor (N.lxor w2 (rotl64 w2 c)) (rotl64 t1 d)). assert (is64 v2) by (repeat apply lxor_is64; try assumption; now apply rotl64_is64). clearbody t0 v0 t1 v1 v2.
  split; [|split]; apply lxor_is64; auto; [apply lor_lt; [now apply not64_is64|assumption]|now apply lor_lt|now apply land_lt_l].
Qed.
Lemma column_is64 : forall S j, Forall is64 S -> Forall is64 (bash_column S j).
Proof.
  intros S j H. unfold bash_column. cbv zeta.
  match goal with |- context [bash_s ?a ?b ?c ?d (?x, ?y, ?z)] => pose proof (s_is64 a b c d x y z (at_is64 _ _ H) (at_is64 _ _ H) (at_is64 _ _ H)) as K; destruct (bash_s a b c d (x, y, z)) as [[u v] w] end.
  destruct K as (A & B & C). repeat apply upd_is64; assumption.
Qed.
Lemma column_len : forall S j, length (bash_column S j) = length S.
Proof. intros. unfold bash_column. cbv zeta. destruct (bash_s _ _ _ _ _) as [[u v] w]. now rewrite !upd_length. Qed.
Definition st (S : list N) : Prop := length S = 24 /\ Forall is64 S.
Lemma columns_is64 : forall l S, Forall is64 S -> Forall is64 (fold_left bash_column l S).
Proof. induction l as [|j l IH]; intros S H; [exact H|]. cbn [fold_left]. apply IH. now apply column_is64. Qed.
Lemma const_is64 : forall i, is64 (bash_const i).
Proof.
  intros i. unfold bash_const. induction i as [|i IH]; [reflexivity|]. cbn [Nat.iter nat_rect]. unfold bash_next at 1.
  set (c := nat_rect _ _ _ i) in *. change (is64 c) in IH. clearbody c. destruct (N.testbit c 0); [apply lxor_is64; [|reflexivity]|]; now apply shiftr_lt.
Qed.
Lemma round_st : forall S i, Forall is64 S -> st (bash_round S i).
Proof.
  intros S i H. unfold bash_round. cbv zeta. pose proof (columns_is64 (seq 0 8) S H) as H1. set (T := fold_left bash_column (seq 0 8) S) in *. clearbody T.
  assert (F : Forall is64 (map (at_ T) bash_pi)) by (apply Forall_map, Forall_forall; intros; now apply at_is64).
  split; [rewrite upd_length, map_length; reflexivity|]. apply upd_is64; [exact F|]. apply lxor_is64; [now apply at_is64|apply const_is64].
Qed.
Opaque bash_round bash_rnd.
Lemma f_st : forall S, st S -> st (bash_f S).
Proof. intros S H. unfold bash_f. 
  assert (G : forall l S, st S -> st (fold_left bash_round l S)). { induction l as [|i l IH]; intros T HT; [exact HT|]. cbn [fold_left]. apply IH. apply round_st. apply HT. }
  now apply G.
Qed.
Lemma BASHF_ok : forall s, st s -> map swap (BASHF s) = bash_f (map swap s) /\ st (BASHF s).
Proof.
  intros s [L W]. unfold BASHF.
  assert (E1 : map bash_SWAP64 s = map swap s) by (apply map_ext_in; intros x Hx; apply SWAP64_ok; rewrite Forall_forall in W; now apply W). rewrite E1.
  assert (S1 : st (map swap s)) by (split; [now rewrite map_length|apply Forall_map, Forall_forall; intros; apply swap_is64]).
  assert (E2 : fold_left bash_rnd (seq 0 24) (map swap s) = bash_f (map swap s)) by (apply fold_left_ext_in; intros T i Hi; apply in_seq in Hi; apply rnd_ok; lia). rewrite E2.
  pose proof (f_st _ S1) as [L2 W2]. set (T := bash_f (map swap s)) in *. clearbody T.
  assert (E3 : map bash_SWAP64 T = map swap T) by (apply map_ext_in; intros x Hx; apply SWAP64_ok; rewrite Forall_forall in W2; now apply W2). rewrite E3. split.
  - rewrite map_map. rewrite <- (map_id T) at 2. apply map_ext_in. intros x Hx. apply swap_swap. rewrite Forall_forall in W2. now apply W2.
  - split; [now rewrite map_length|]. apply Forall_map, Forall_forall. intros. apply swap_is64.
Qed.

(** ** processBlock *)
Lemma bytes_words : forall b, bash_bytesToUint64s b = map be_val (chunks 8 b).
Proof. intros b. unfold bash_bytesToUint64s, chunks. rewrite map_map. apply map_ext. intros i. unfold slice. f_equal. f_equal. lia. Qed.
Lemma at_map0 : forall (f : N -> N) l i, f 0%N = 0%N -> at_ (map f l) i = f (at_ l i).
Proof. intros f l i H. unfold at_. rewrite <- H at 1. apply map_nth. Qed.
Lemma words_swap : forall b, isbytes b -> map swap (map be_val (chunks 8 b)) = bash_words b.
Proof.
  intros b B. unfold bash_words. rewrite map_map. apply map_ext_in. intros c Hc. apply swap_be.
  - unfold chunks in Hc. apply in_map_iff in Hc. destruct Hc as (i & <- & _). now apply isbytes_firstn, isbytes_skipn.
  - pose proof (chunks_all_length _ 8 b ltac:(lia)) as A. rewrite Forall_forall in A. now apply A.
Qed.
Definition spec_absorb (S data : list N) : list N := bash_f (map (fun i => N.lxor (at_ S i) (at_ (bash_words data) i)) (seq 0 24)).
Lemma process_ok : forall s data, st s -> isbytes data -> length data = 192 ->
  map swap (bash_process s data) = spec_absorb (map swap s) data /\ st (bash_process s data).
Proof.
  intros s data [L W] B Ld. unfold bash_process, spec_absorb. cbv zeta. rewrite bytes_words. set (c := map be_val (chunks 8 data)).
  assert (Wc : Forall is64 c).
  { apply Forall_map, Forall_forall. intros k Hk. pose proof (chunks_all_length _ 8 data ltac:(lia)) as A. rewrite Forall_forall in A. specialize (A k Hk).
    unfold is64. unfold be_val. assert (Bk : isbytes (rev k)) by (apply isbytes_rev; unfold chunks in Hk; apply in_map_iff in Hk; destruct Hk as (i & <- & _); now apply isbytes_firstn, isbytes_skipn).
    pose proof (le_val_lt (rev k) Bk) as V. rewrite rev_length, A in V. exact V. }
  destruct (BASHF_ok (map (fun k => N.lxor (at_ s k) (at_ c k)) (seq 0 24))) as [E H].
  { split; [rewrite map_length; apply seq_length|]. apply Forall_map, Forall_forall. intros i _. apply lxor_is64; now apply at_is64. }
  split; [|exact H]. rewrite E. f_equal. rewrite map_map. apply map_ext. intros i. rewrite swap_lxor. rewrite <- words_swap by exact B. rewrite !at_map0 by reflexivity. reflexivity.
Qed.
Lemma xor_absorb : forall hs S X, bash_xor hs S X = spec_absorb S (X ++ zeros (2 * hs)). Proof. reflexivity. Qed.
Opaque bash_process spec_absorb bash_xor.

(** ** Writes that do not cross a block boundary *)
Section Fit.
Variable hs : nat.
Hypothesis Hhs : 1 <= hs <= 64.
Notation bs := (bash_bs hs).
Let Hbs : 64 <= bs. Proof. unfold bash_bs. lia. Qed.
Let Hbs2 : bs + 2 * hs = 192. Proof. unfold bash_bs. lia. Qed.
Definition bash_rel (d : bash) (m : list N) : Prop :=
  isbytes m /\ st (hs_s d) /\ map swap (hs_s d) = fold_left (bash_xor hs) (chunks bs m) (bash_init hs) /\
  length (hs_x d) = 192 /\ isbytes (hs_x d) /\ skipn bs (hs_x d) = zeros (2 * hs) /\ hs_nx d = length (rest bs m) /\ firstn (hs_nx d) (hs_x d) = rest bs m.
Lemma rest_mod : forall m : list N, length (rest bs m) = length m mod bs.
Proof. intros. apply rest_length. lia. Qed.
Lemma new_rel : bash_rel (bash_new hs) [].
Proof.
  assert (K : forallb (fun h => if list_eq_dec N.eq_dec (map swap (hs_s (bash_new h))) (bash_init h) then
     (length (hs_s (bash_new h)) =? 24) && forallb (fun x => N.ltb x 18446744073709551616) (hs_s (bash_new h)) else false) (seq 0 65) = true) by (vm_compute; reflexivity).
  rewrite forallb_forall in K. specialize (K hs). rewrite in_seq in K. specialize (K ltac:(lia)). destruct (list_eq_dec _ _ _) as [E|]; [|discriminate K]. apply andb_prop in K. destruct K as [K1 K2].
  split; [constructor|]. split.
  { split; [now apply Nat.eqb_eq|]. apply Forall_forall. intros x Hx. rewrite forallb_forall in K2. apply N.ltb_lt. now apply K2. }
  split. { rewrite E. rewrite chunks_short by (cbn [length]; lia). reflexivity. }
  split; [reflexivity|]. split; [apply zeros_isbytes|]. split; [|split].
  - cbn [hs_x bash_new bash_reset]. rewrite <- Hbs2. rewrite <- zeros_app. apply skipn_app_len. apply zeros_length.
  - rewrite rest_mod. rewrite Nat.mod_0_l by lia. reflexivity.
  - rewrite rest_short by (cbn [length]; lia). reflexivity.
Qed.
Lemma write_fit : forall d m p, isbytes p -> bash_rel d m -> length m mod bs + length p <= bs -> bash_rel (fst (bash_write bs d p)) (m ++ p).
Proof.
  intros [s x nx len] m p Bp (Bm & Hst & Hs & Lx & Bx & Tx & En & Ex) Hfit. cbn [hs_s hs_x hs_nx] in *. rewrite <- rest_mod, <- En in Hfit.
  assert (Hnx : nx < bs) by (rewrite En; apply rest_length_lt; lia).
  assert (CX : nx + length p <= bs -> copy_at x nx p = rest bs m ++ p ++ skipn (nx + length p) x).
  { intros H. unfold copy_at. rewrite Lx, Ex. rewrite (firstn_all2 p) by lia. rewrite Nat.min_r by lia. reflexivity. }
  assert (Bm' : isbytes (m ++ p)) by (apply Forall_app; split; assumption).
  unfold bash_write. cbn [hs_s hs_x hs_nx hs_len]. cbn [bash_loop]. destruct (Nat.leb_spec bs (nx + length p)) as [C|C].
  - assert (Ep : length p = bs - nx) by lia. specialize (CX ltac:(lia)). cbv zeta. replace (skipn (bs - nx) p) with (@nil N) by (symmetry; apply skipn_all2; lia).
    replace (nx + length p) with bs in CX by lia. rewrite Tx in CX.
    assert (E0 : forall s' x', bash_loop bs (length p) s' x' 0 [] = (s', x', 0, [])).
    { intros. destruct (length p); cbn [bash_loop]; [reflexivity|]. cbn [length]. replace (bs <=? 0 + 0) with false by (symmetry; apply Nat.leb_gt; lia). reflexivity. }
    rewrite E0. cbn [fst]. rewrite CX. set (b := rest bs m ++ p). assert (Lb : length b = bs) by (unfold b; rewrite app_length; lia).
    assert (Bb : isbytes b) by (apply Forall_app; split; [now apply isbytes_rest|assumption]). rewrite app_assoc. change (rest bs m ++ p) with b.
    destruct (process_ok s (b ++ zeros (2 * hs)) Hst) as [P1 P2]. { apply Forall_app. split; [exact Bb|apply zeros_isbytes]. } { rewrite app_length, zeros_length. lia. }
    assert (EC : chunks bs (m ++ p) = chunks bs m ++ [b]) by (rewrite chunks_app by lia; f_equal; apply chunks_one; [lia|exact Lb]).
    assert (ER : rest bs (m ++ p) = []) by (apply length_zero_iff_nil; rewrite rest_mod, app_length; pose proof (rest_mod m); pose proof (Nat.div_mod (length m) bs ltac:(lia)); replace (length m + length p) with ((length m / bs + 1) * bs) by nia; apply Nat.mod_mul; lia).
    split; [exact Bm'|]. cbn [hs_s hs_x hs_nx]. split; [exact P2|]. split; [rewrite EC, fold_left_app; cbn [fold_left]; rewrite P1, Hs, <- xor_absorb; reflexivity|].
    assert (EN : copy_at (b ++ zeros (2 * hs)) 0 [] = b ++ zeros (2 * hs)) by (unfold copy_at; cbn [firstn length app]; rewrite firstn_nil, Nat.min_0_r; reflexivity).
    rewrite EN. split; [rewrite app_length, zeros_length; lia|]. split; [apply Forall_app; split; [exact Bb|apply zeros_isbytes]|]. split; [apply skipn_app_len; exact Lb|]. rewrite ER. split; reflexivity.
  - cbn [fst]. specialize (CX ltac:(lia)). rewrite CX.
    assert (EC : chunks bs (m ++ p) = chunks bs m) by (rewrite chunks_app by lia; rewrite (chunks_short _ bs (rest bs m ++ p)) by (rewrite app_length; lia); apply app_nil_r).
    assert (ER : rest bs (m ++ p) = rest bs m ++ p) by (rewrite rest_app by lia; apply rest_short; rewrite app_length; lia).
    split; [exact Bm'|]. cbn [hs_s hs_x hs_nx]. split; [exact Hst|]. split; [rewrite EC; exact Hs|]. assert (LT : length (skipn (nx + length p) x) = 192 - (nx + length p)) by (rewrite skipn_length; lia).
    split; [rewrite !app_length; lia|]. split; [apply Forall_app; split; [now apply isbytes_rest|apply Forall_app; split; [exact Bp|now apply isbytes_skipn]]|]. split; [|split].
    + rewrite app_assoc, skipn_app. rewrite skipn_all2 by (rewrite app_length; lia). rewrite app_length, <- En. cbn [app]. rewrite skipn_skipn. replace (nx + length p + (bs - (nx + length p))) with bs by lia. exact Tx.
    + rewrite ER, app_length, <- En. reflexivity.
    + rewrite ER, app_assoc. apply firstn_app_len. rewrite app_length. lia.
Qed.
Lemma bash_bytes_swap : forall s, bash_uint64sToBytes s = bash_bytes (map swap s).
Proof. intros s. unfold bash_uint64sToBytes, bash_bytes. rewrite map_map. f_equal. apply map_ext. intros. apply be_swap. Qed.
Lemma sum_fit : forall d m, bash_rel d m -> bash_checkSum hs bs d = bash_sponge hs m.
Proof.
  intros [s x nx len] m (Bm & Hst & Hs & Lx & Bx & Tx & En & Ex). cbn [hs_s hs_x hs_nx] in *.
  assert (Hnx : nx < bs) by (rewrite En; apply rest_length_lt; lia).
  unfold bash_checkSum, bash_sponge. cbn [hs_s hs_x hs_nx]. rewrite bash_bytes_swap. f_equal. f_equal.
  assert (EX : upd (copy_at x nx (zeros bs)) nx 64%N = (rest bs m ++ [64%N] ++ zeros (bs - 1 - length m mod bs)) ++ zeros (2 * hs)).
  { assert (E1 : copy_at x nx (zeros bs) = rest bs m ++ zeros (192 - nx)).
    { unfold copy_at. rewrite Ex, Lx, firstn_zeros, zeros_length. f_equal. replace (Nat.min (192 - nx) bs) with (Nat.min bs (192 - nx)) by lia.
      assert (A : skipn (nx + Nat.min bs (192 - nx)) x = zeros (192 - nx - Nat.min bs (192 - nx))).
      { replace (nx + Nat.min bs (192 - nx)) with (bs + (nx + Nat.min bs (192 - nx) - bs)) by lia. rewrite <- skipn_skipn, Tx, skipn_zeros. f_equal. lia. }
      rewrite A, zeros_app. f_equal. lia. }
    rewrite E1. replace (192 - nx) with (S (bs - 1 - nx + 2 * hs)) by lia. change (zeros (S ?k)) with (0%N :: zeros k). rewrite En. rewrite upd_app_at. rewrite <- rest_mod, <- zeros_app, <- !app_assoc. reflexivity. }
  rewrite EX. set (b := rest bs m ++ [64%N] ++ zeros (bs - 1 - length m mod bs)).
  assert (Lb : length b = bs) by (unfold b; rewrite <- rest_mod, !app_length, zeros_length; cbn [length]; lia).
  assert (Bb : isbytes b) by (apply Forall_app; split; [now apply isbytes_rest|apply Forall_app; split; [repeat constructor|apply zeros_isbytes]]).
  destruct (process_ok s (b ++ zeros (2 * hs)) Hst) as [P1 _]. { apply Forall_app. split; [exact Bb|apply zeros_isbytes]. } { rewrite app_length, zeros_length. lia. }
  rewrite P1, <- xor_absorb, Hs. unfold bash_pad. change (bash_rate hs) with bs. rewrite chunks_app by lia. fold b. rewrite (chunks_one _ bs b) by (lia || exact Lb). rewrite fold_left_app. reflexivity.
Qed.
(** every Write stays within the current block *)
Fixpoint fits (hist : list N) (ops : list op) : Prop :=
  match ops with
  | [] => True
  | Write p :: t => length hist mod bs + length p <= bs /\ fits (hist ++ p) t
  | Sum _ :: t => fits hist t
  | Reset :: t => fits [] t
  end.
Lemma history_fit : forall ops d m, Forall op_bytes ops -> fits m ops -> bash_rel d m -> run (bash_impl hs) d ops = ideal_run (bash_sponge hs) m ops.
Proof.
  induction ops as [|o ops IH]; intros d m HB HF HR; [reflexivity|]. inversion HB as [|? ? Ho HB']; subst. destruct o as [p|i|]; cbn [run ideal_run fits] in *.
  - destruct HF as [F1 F2]. unfold bash_impl at 1. cbn [i_write]. pose proof (write_fit d m p Ho HR F1) as K. assert (C : snd (bash_write bs d p) = length p) by (unfold bash_write; destruct (bash_loop _ _ _ _ _ _) as [[[? ?] ?] ?]; reflexivity).
    destruct (bash_write bs d p) as [d' n]. cbn [fst snd] in *. subst n. f_equal. now apply IH.
  - unfold bash_impl at 1. cbn [i_sum]. unfold bash_sum. rewrite (sum_fit d m HR). f_equal. now apply IH.
  - apply IH; auto. apply new_rel.
Qed.
End Fit.
