(** Rabin.v -- model of /repo/rabin (poly.go, table.go, digest.go) and the proof that the rolling
    hash is the GF(2) remainder of the current window. *)
From Coq Require Import List NArith Arith Lia Bool.
From Verif Require Import Base Words HashAPI Buf SpecGf2 Gf2 Cmac.
Import ListNotations.

(** poly.go:73-99 Mod: synthetic division; [n] = number of remaining values of i (i = n-1 .. 0). *)
Fixpoint poly_mod_loop (n : nat) (out b db : N) : N :=
  match n with
  | O => out
  | S i => poly_mod_loop i (if N.testbit out (N.of_nat i + db) then N.lxor out (N.shiftl b (N.of_nat i)) else out) b db
  end.
(** poly.go:24-26: Degree = BitLen - 1 = log2 for non-zero polynomials.  [N.size] is BitLen. *)
Definition poly_mod (a b : N) : N :=
  poly_mod_loop (N.to_nat (N.size a - (N.size b - 1))) a b (N.size b - 1).

(** table.go:11-17 *)
Record rtable := mkrtable { rpush : list N; rpop : list N; rdegree : N; rshift : N; rwindow : nat }.

(** table.go:34-73 NewTable; None = panic.  big.Int.Uint64 is the low 64 bits. *)
Definition rabin_table (p : N) (window : nat) : option rtable :=
  if (N.size p <? 9)%N then None
  else
    let deg := (N.size p - 1)%N in
    let push := map (fun i => let f := N.shiftl (N.of_nat i) deg in
                              let f2 := poly_mod f p in w64 (N.lxor f f2)) (seq 0 256) in
    let pop := if 0 <? window then
                 map (fun i => w64 (poly_mod (N.shiftl (N.of_nat i) (N.of_nat ((window - 1) * 8))) p)) (seq 0 256)
               else zeros 256 in
    Some (mkrtable push pop deg (deg - 8) window).

(** table.go:115-118 / digest.go:98-99: one byte. *)
Definition rabin_push (t : rtable) (hash b : N) : N :=
  let top := w8 (N.shiftr hash (rshift t mod 64)) in
  N.lxor (N.lor (shl64 hash 8) b) (at_ (rpush t) (N.to_nat top)).
(** table.go:77-121 update *)
Definition rabin_update (t : rtable) (hash : N) (p : list N) : N := fold_left (rabin_push t) p hash.

(** digest.go:6-11 (rmsg = None models nil) *)
Record rdigest := mkrd { rhash : N; rmsg : option (list N); rpos : nat }.
(** digest.go:15-27 *)
Definition rabin_new (t : rtable) : rdigest :=
  mkrd 0 (if 0 <? rwindow t then Some (zeros (rwindow t)) else None) 0.
(** digest.go:30-38 Reset *)
Definition rabin_reset (d : rdigest) : rdigest :=
  match rmsg d with
  | None => mkrd 0 None (rpos d)
  | Some m => mkrd 0 (Some (map (fun _ => 0%N) m)) 0
  end.
(** digest.go:90-100: body of the rolling loop. *)
Definition rabin_roll (t : rtable) (st : list N * nat * N) (b : N) : list N * nat * N :=
  let '(msg, pos, hash) := st in
  let window := length msg in
  let pop := at_ msg pos in
  let msg := upd msg pos b in
  let pos := S pos in
  let pos := if pos =? window then 0 else pos in
  let hash := N.lxor hash (at_ (rpop t) (N.to_nat pop)) in
  (msg, pos, rabin_push t hash b).
(** digest.go:67-104 Write *)
Definition rabin_write (t : rtable) (d : rdigest) (p : list N) : rdigest * nat :=
  let n := length p in
  match rmsg d with
  | None => (mkrd (rabin_update t (rhash d) p) None (rpos d), n)
  | Some msg =>
    let window := length msg in
    if window <=? length p then
      let p := skipn (length p - window) p in
      (mkrd (rabin_update t 0 p) (Some (copy_at msg 0 p)) 0, n)
    else
      let '(msg, pos, hash) := fold_left (rabin_roll t) p (msg, rpos d, rhash d) in
      (mkrd hash (Some msg) pos, n)
  end.
(** digest.go:42-45 Size *)
Definition rabin_size (t : rtable) : nat := N.to_nat ((rdegree t + 1 + 7) / 8).
(** digest.go:108-122: Sum on a deep copy (digest.go:129-141), so the receiver is unchanged. *)
Definition rabin_sum (t : rtable) (d : rdigest) (inp : list N) : rdigest * list N :=
  (d, inp ++ firstn (rabin_size t) (map (fun i => w8 (N.shiftr (rhash d) (N.of_nat (i * 8)))) (seq 0 8))).
Definition rabin_impl (t : rtable) : impl rdigest := mkimpl (rabin_write t) (rabin_sum t) rabin_reset.

(** * Proofs *)
Lemma at_map_seq : forall (f : nat -> N) n i, i < n -> at_ (map f (seq 0 n)) i = f i.
Proof.
  intros f n i H. unfold at_. rewrite nth_indep with (d' := f 0) by (rewrite map_length, seq_length; assumption).
  rewrite map_nth, seq_nth by assumption. reflexivity.
Qed.
Lemma some_inj : forall A (a b : A), Some a = Some b -> a = b.
Proof. congruence. Qed.
Lemma size_log2 : forall p, (p <> 0)%N -> (N.size p = N.log2 p + 1)%N.
Proof. intros. rewrite N.size_log2 by assumption. lia. Qed.

Lemma poly_mod_loop_rem : forall n out b, (1 < b)%N -> (out < 2 ^ (N.of_nat n + N.log2 b))%N ->
  is_rem b out (poly_mod_loop n out b (N.log2 b)).
Proof.
  induction n as [|i IH]; intros out b Hb Ho.
  - apply is_rem_small. exact Ho.
  - cbn [poly_mod_loop]. destruct (N.testbit out (N.of_nat i + N.log2 b)) eqn:B.
    + apply is_rem_congr with (a := N.lxor out (N.shiftl b (N.of_nat i))) (q := N.shiftl 1 (N.of_nat i)).
      * apply IH; auto. apply lt_pow2_bits. intros j Hj. rewrite N.lxor_spec.
        rewrite N.shiftl_spec_high' by lia.
        destruct (N.eq_dec j (N.of_nat i + N.log2 b)) as [->|Hne].
        -- rewrite B. replace (N.of_nat i + N.log2 b - N.of_nat i)%N with (N.log2 b) by lia.
           rewrite N.bit_log2 by lia. reflexivity.
        -- rewrite (N.bits_above_log2 b) by lia. rewrite (proj1 (lt_pow2_bits _ _) Ho) by lia. reflexivity.
      * rewrite clmul_shiftl, clmul_1_l, N.lxor_assoc, N.lxor_nilpotent, N.lxor_0_r. reflexivity.
    + apply IH; auto. apply lt_pow2_bits. intros j Hj.
      destruct (N.eq_dec j (N.of_nat i + N.log2 b)) as [->|Hne]; auto.
      apply (proj1 (lt_pow2_bits _ _) Ho). lia.
Qed.
Lemma lt_size : forall a, (a < 2 ^ N.size a)%N.
Proof. apply N.size_gt. Qed.
Lemma poly_mod_rem : forall a b, (1 < b)%N -> is_rem b a (poly_mod a b).
Proof.
  intros a b Hb. unfold poly_mod. rewrite (size_log2 b) by lia.
  replace (N.log2 b + 1 - 1)%N with (N.log2 b) by lia.
  apply poly_mod_loop_rem; auto. apply N.lt_le_trans with (1 := lt_size a).
  apply N.pow_le_mono_r; lia.
Qed.

Section T.
Variables (p : N) (window : nat) (t : rtable).
Hypothesis Ht : rabin_table p window = Some t.
Hypothesis Hp64 : (p < 2 ^ 64)%N.
Notation n := (N.log2 p).

Lemma tab_deg : (8 <= n)%N /\ (n <= 63)%N /\ (1 < p)%N /\ rdegree t = n /\ rshift t = (n - 8)%N /\ rwindow t = window.
Proof.
  unfold rabin_table in Ht. destruct (N.ltb_spec (N.size p) 9) as [|H]; [discriminate|].
  assert (p <> 0)%N by (intros ->; simpl in H; lia).
  rewrite size_log2 in * by assumption. apply some_inj in Ht; rewrite <- Ht in *; clear Ht. cbn [rdegree rshift rwindow].
  assert (n <= 63)%N. { destruct (N.le_gt_cases n 63); auto. exfalso.
    assert (64 <= n)%N by lia. apply N.log2_le_pow2 in H2; lia. }
  assert (1 < p)%N. { destruct (N.lt_ge_cases 1 p); auto. exfalso. assert (p = 1)%N as E by lia. rewrite E in H. simpl in H. lia. }
  repeat split; try lia.
Qed.
Lemma tab_push : forall i, i < 256 -> exists r, is_rem p (N.shiftl (N.of_nat i) n) r /\
  at_ (rpush t) i = w64 (N.lxor (N.shiftl (N.of_nat i) n) r).
Proof.
  intros i Hi. destruct tab_deg as (D1 & D2 & D3 & D4 & D5 & D6). unfold rabin_table in Ht.
  destruct (N.size p <? 9)%N; [discriminate|]. apply some_inj in Ht; rewrite <- Ht in *; clear Ht. cbn [rpush].
  rewrite size_log2 by lia. replace (n + 1 - 1)%N with n by lia.
  exists (poly_mod (N.shiftl (N.of_nat i) n) p). split; [now apply poly_mod_rem|].
  rewrite at_map_seq by assumption. reflexivity.
Qed.
Lemma tab_pop : forall i, 0 < window -> i < 256 -> is_rem p (N.shiftl (N.of_nat i) (N.of_nat ((window - 1) * 8))) (at_ (rpop t) i).
Proof.
  intros i Hw Hi. destruct tab_deg as (D1 & D2 & D3 & D4 & D5 & D6). unfold rabin_table in Ht.
  destruct (N.size p <? 9)%N; [discriminate|]. apply some_inj in Ht; rewrite <- Ht in *; clear Ht. cbn [rpop].
  destruct (Nat.ltb_spec 0 window); [|lia].
  rewrite at_map_seq by assumption.
  pose proof (poly_mod_rem (N.shiftl (N.of_nat i) (N.of_nat ((window - 1) * 8))) p D3) as R.
  rewrite w64_eq; auto. destruct R as [R _]. unfold is64. apply N.lt_trans with (1 := R).
  apply N.pow_lt_mono_r; lia.
Qed.

Lemma push_rem : forall a hash b, is_rem p a hash -> (b < 256)%N ->
  is_rem p (N.lxor (N.shiftl a 8) b) (rabin_push t hash b).
Proof.
  intros a hash b R Hb. destruct tab_deg as (D1 & D2 & D3 & D4 & D5 & D6).
  pose proof R as [Hh [q E]].
  apply is_rem_congr with (a := N.lxor (N.shiftl hash 8) b) (q := N.shiftl q 8).
  2:{ rewrite clmul_shiftl, E, N.shiftl_lxor, !N.lxor_assoc. f_equal. apply N.lxor_comm. }
  unfold rabin_push. rewrite D5. rewrite N.mod_small by lia.
  set (top := N.shiftr hash (n - 8)).
  assert (Htop : (top < 256)%N).
  { subst top. rewrite N.shiftr_div_pow2. apply N.div_lt_upper_bound. apply N.pow_nonzero; discriminate.
    change 256%N with (2^8)%N. rewrite <- N.pow_add_r. replace (n - 8 + 8)%N with n by lia. exact Hh. }
  rewrite (w8_small top) by assumption.
  destruct (tab_push (N.to_nat top)) as (r & Rr & Er); [lia|]. rewrite N2Nat.id in Rr, Er. rewrite Er.
  set (low := N.land hash (N.ones (n - 8))).
  assert (Hlow : (low < 2 ^ (n - 8))%N).
  { subst low. rewrite N.land_ones. apply N.mod_lt. apply N.pow_nonzero. discriminate. }
  assert (Hsplit : N.shiftl hash 8 = N.lxor (N.shiftl low 8) (N.shiftl top n)).
  { subst low top. apply N.bits_inj. intros i. rewrite N.lxor_spec.
    destruct (N.lt_ge_cases i 8).
    - rewrite !N.shiftl_spec_low by lia. reflexivity.
    - rewrite (N.shiftl_spec_high' _ 8) by lia. rewrite (N.shiftl_spec_high' _ 8) by lia. rewrite N.land_spec.
      destruct (N.lt_ge_cases (i - 8) (n - 8)).
      + rewrite N.ones_spec_low by lia. rewrite N.shiftl_spec_low by lia. now rewrite andb_true_r, xorb_false_r.
      + rewrite N.ones_spec_high by lia. rewrite N.shiftl_spec_high' by lia. rewrite N.shiftr_spec'.
        replace (i - n + (n - 8))%N with (i - 8)%N by lia. now rewrite andb_false_r, xorb_false_l. }
  assert (Hstep : N.lxor (N.lor (shl64 hash 8) b) (w64 (N.lxor (N.shiftl top n) r)) = N.lxor (N.lxor (N.shiftl low 8) b) r).
  { assert (Hlor : N.lor (shl64 hash 8) b = w64 (N.lxor (N.shiftl hash 8) b)).
    { unfold shl64, w64. apply N.bits_inj. intros i. rewrite N.lor_spec, !N.land_spec, N.lxor_spec.
      change 18446744073709551615%N with (N.ones 64).
      destruct (N.lt_ge_cases i 8).
      - rewrite N.shiftl_spec_low, N.ones_spec_low by lia. now destruct (N.testbit b i).
      - rewrite (proj1 (lt_pow2_bits 8 b) Hb i) by lia. rewrite orb_false_r, xorb_false_r. reflexivity. }
    rewrite Hlor. rewrite Hsplit.
    set (A := N.lxor (N.lxor (N.shiftl low 8) (N.shiftl top n)) b). set (B := N.lxor (N.shiftl top n) r).
    assert (WX : N.lxor (w64 A) (w64 B) = w64 (N.lxor A B)).
    { unfold w64. apply N.bits_inj. intros i. rewrite N.lxor_spec, !N.land_spec, N.lxor_spec.
      now destruct (N.testbit A i), (N.testbit B i), (N.testbit 18446744073709551615 i). }
    rewrite WX. replace (N.lxor A B) with (N.lxor (N.lxor (N.shiftl low 8) b) r).
    - apply w64_eq. unfold is64. apply N.lt_le_trans with (2 ^ n)%N; [|apply N.pow_le_mono_r; lia].
      apply lxor_lt; [apply lxor_lt|].
      + rewrite N.shiftl_mul_pow2. replace n with (n - 8 + 8)%N at 1 by lia. rewrite N.pow_add_r.
        apply N.mul_lt_mono_pos_r; auto. reflexivity.
      + apply N.lt_le_trans with (2^8)%N; auto. apply N.pow_le_mono_r; lia.
      + apply Rr.
    - subst A B. apply N.bits_inj. intros i. rewrite !N.lxor_spec.
      now destruct (N.testbit (N.shiftl low 8) i), (N.testbit b i), (N.testbit r i), (N.testbit (N.shiftl top n) i). }
  rewrite Hstep, Hsplit.
  replace (N.lxor (N.lxor (N.shiftl low 8) (N.shiftl top n)) b) with (N.lxor (N.lxor (N.shiftl low 8) b) (N.shiftl top n)).
  - apply is_rem_lxor; auto. apply is_rem_small. apply lxor_lt.
    + rewrite N.shiftl_mul_pow2. replace n with (n - 8 + 8)%N at 1 by lia. rewrite N.pow_add_r.
      apply N.mul_lt_mono_pos_r; auto. reflexivity.
    + apply N.lt_le_trans with (2^8)%N; auto. apply N.pow_le_mono_r; lia.
  - rewrite !N.lxor_assoc. f_equal. apply N.lxor_comm.
Qed.

Lemma be_val_snoc : forall l b, (b < 256)%N -> be_val (l ++ [b]) = N.lxor (N.shiftl (be_val l) 8) b.
Proof.
  intros l b Hb. unfold be_val. rewrite rev_app_distr. cbn [rev app le_val].
  rewrite N.shiftl_mul_pow2. change (2^8)%N with 256%N.
  assert (X : (be_val l * 256 + b = N.lxor (be_val l * 256) b)%N).
  { apply N.add_nocarry_lxor.
    apply N.bits_inj. intros i. rewrite N.land_spec, N.bits_0.
    replace (be_val l * 256)%N with (N.shiftl (be_val l) 8) by (rewrite N.shiftl_mul_pow2; reflexivity).
    destruct (N.lt_ge_cases i 8).
    - now rewrite N.shiftl_spec_low by lia.
    - rewrite (proj1 (lt_pow2_bits 8 b) Hb i) by lia. apply andb_false_r. }
  unfold be_val in X. rewrite <- X. lia.
Qed.
Lemma update_rem : forall l m hash, isbytes l -> is_rem p (be_val m) hash ->
  is_rem p (be_val (m ++ l)) (rabin_update t hash l).
Proof.
  induction l as [|b l IH]; intros m hash Hl R.
  - now rewrite app_nil_r.
  - inversion Hl; subst. replace (m ++ b :: l) with ((m ++ [b]) ++ l) by now rewrite <- app_assoc.
    unfold rabin_update. simpl. apply IH; auto. rewrite be_val_snoc by assumption. now apply push_rem.
Qed.

(** one roll of the window *)
Lemma roll_rem : forall x w b hash, 0 < window -> length w = window - 1 -> isbytes (x :: w) -> (b < 256)%N ->
  is_rem p (be_val (x :: w)) hash ->
  is_rem p (be_val (w ++ [b])) (rabin_push t (N.lxor hash (at_ (rpop t) (N.to_nat x))) b).
Proof.
  intros x w b hash Hw Hl Hb Hbb R. inversion Hb as [|? ? Hx Hwb]; subst. unfold isbyte in Hx.
  rewrite be_val_snoc by assumption. apply push_rem; auto.
  replace (be_val w) with (N.lxor (be_val (x :: w)) (N.shiftl x (N.of_nat ((window - 1) * 8)))).
  - apply is_rem_lxor; auto. rewrite <- (N2Nat.id x) at 1. apply tab_pop; auto. lia.
  - rewrite be_val_cons. rewrite Hl.
    replace (256 ^ N.of_nat (window - 1))%N with (2 ^ N.of_nat ((window - 1) * 8))%N.
    2:{ change 256%N with (2^8)%N. rewrite <- N.pow_mul_r. f_equal. lia. }
    rewrite <- N.shiftl_mul_pow2.
    pose proof (be_val_lt w Hwb) as Lw. rewrite Hl in Lw.
    replace (256 ^ N.of_nat (window - 1))%N with (2 ^ N.of_nat ((window - 1) * 8))%N in Lw.
    2:{ change 256%N with (2^8)%N. rewrite <- N.pow_mul_r. f_equal. lia. }
    set (k := N.of_nat ((window - 1) * 8)) in *. generalize dependent (be_val w). intros v Lw.
    assert (D : N.land (N.shiftl x k) v = 0%N).
    { apply N.bits_inj. intros i. rewrite N.land_spec, N.bits_0. destruct (N.lt_ge_cases i k).
      - now rewrite N.shiftl_spec_low by lia.
      - rewrite (proj1 (lt_pow2_bits k v) Lw i) by lia. apply andb_false_r. }
    rewrite N.add_nocarry_lxor by assumption.
    rewrite (N.lxor_comm _ v), N.lxor_assoc, N.lxor_nilpotent, N.lxor_0_r. reflexivity.
Qed.
End T.

Lemma be_val_zeros : forall k m, be_val (zeros k ++ m) = be_val m.
Proof.
  induction k; intros; auto. change (zeros (S k) ++ m) with (0%N :: (zeros k ++ m)).
  rewrite be_val_cons, N.mul_0_l, N.add_0_l. apply IHk.
Qed.
(** The window contents: the last w bytes of w zeros followed by the message. *)
Definition winlist (w : nat) (m : list N) : list N := lastn w (zeros w ++ m).
Lemma lastn_length : forall A w (m : list A), w <= length m -> length (lastn w m) = w.
Proof. intros. unfold lastn. rewrite skipn_length. lia. Qed.
Lemma winlist_length : forall w m, length (winlist w m) = w.
Proof. intros. unfold winlist. rewrite lastn_length; auto. rewrite app_length, zeros_length. lia. Qed.
Lemma winlist_val : forall w m, be_val (winlist w m) = be_val (lastn w m).
Proof.
  intros w m. unfold winlist, lastn. rewrite app_length, zeros_length.
  replace (w + length m - w) with (length m) by lia.
  destruct (Nat.le_gt_cases (length m) w).
  - rewrite skipn_app, zeros_length, skipn_zeros. replace (length m - w) with 0 by lia.
    apply be_val_zeros.
  - rewrite skipn_app, zeros_length, skipn_zeros. replace (w - length m) with 0 by lia. reflexivity.
Qed.
Lemma lastn_snoc : forall A w (m : list A) b, 0 < w -> w <= length m -> lastn w (m ++ [b]) = tl (lastn w m) ++ [b].
Proof.
  intros A w m b Hw Hm. unfold lastn. rewrite app_length. simpl.
  replace (length m + 1 - w) with (S (length m - w)) by lia.
  rewrite skipn_app. replace (S (length m - w) - length m) with 0 by lia. f_equal.
  rewrite <- (skipn_skipn _ m 1 (length m - w)) || idtac.
  replace (S (length m - w)) with ((length m - w) + 1) by lia. rewrite <- skipn_skipn.
  destruct (skipn (length m - w) m); reflexivity.
Qed.
Lemma lastn_long : forall A w (m p : list A), w <= length p -> lastn w (m ++ p) = lastn w p.
Proof.
  intros. unfold lastn. rewrite app_length, skipn_app.
  replace (length m + length p - w - length m) with (length p - w) by lia.
  rewrite skipn_all2 by lia. reflexivity.
Qed.
Lemma rot_upd : forall (msg : list N) pos b, pos < length msg ->
  let msg' := upd msg pos b in
  let pos' := if S pos =? length msg then 0 else S pos in
  skipn pos' msg' ++ firstn pos' msg' = tl (skipn pos msg ++ firstn pos msg) ++ [b].
Proof.
  intros msg pos b Hp. cbv zeta.
  assert (S1 : skipn pos msg = at_ msg pos :: skipn (S pos) msg).
  { unfold at_. clear b. revert pos Hp. induction msg as [|x msg IH]; intros pos Hp; simpl in Hp; [lia|].
    destruct pos; auto. simpl. apply IH. lia. }
  rewrite S1. cbn [tl app]. rewrite upd_split by assumption.
  destruct (Nat.eqb_spec (S pos) (length msg)) as [e|e].
  - rewrite skipn_O, firstn_O, app_nil_r. rewrite (skipn_all2 msg) by lia. simpl.
    reflexivity.
  - rewrite skipn_app, firstn_app, firstn_length. rewrite (Nat.min_l pos) by lia.
    replace (S pos - pos) with 1 by lia.
    rewrite (skipn_all2 (firstn pos msg)) by (rewrite firstn_length; lia).
    rewrite firstn_firstn. rewrite Nat.min_r by lia.
    change (skipn 1 (b :: skipn (S pos) msg)) with (skipn (S pos) msg).
    change (firstn 1 (b :: skipn (S pos) msg)) with [b]. rewrite app_assoc. reflexivity.
Qed.
Lemma skipn_hd : forall (msg : list N) pos, pos < length msg ->
  skipn pos msg ++ firstn pos msg = at_ msg pos :: tl (skipn pos msg ++ firstn pos msg).
Proof.
  intros msg pos Hp. unfold at_.
  assert (S1 : skipn pos msg = nth pos msg 0%N :: skipn (S pos) msg).
  { revert pos Hp. induction msg as [|x msg IH]; intros pos Hp; simpl in Hp; [lia|].
    destruct pos; auto. simpl. apply IH. lia. }
  rewrite S1. reflexivity.
Qed.

Definition rabin_rel (p : N) (w : nat) (d : rdigest) (m : list N) : Prop :=
  isbytes m /\
  match rmsg d with
  | None => w = 0 /\ is_rem p (be_val m) (rhash d)
  | Some msg => 0 < w /\ length msg = w /\ rpos d < w /\
      skipn (rpos d) msg ++ firstn (rpos d) msg = winlist w m /\ is_rem p (be_val (winlist w m)) (rhash d)
  end.

Lemma roll_fold : forall p w t, rabin_table p w = Some t -> (p < 2 ^ 64)%N -> 0 < w ->
  forall l msg pos hash m, isbytes m -> isbytes l -> length msg = w -> pos < w ->
  skipn pos msg ++ firstn pos msg = winlist w m -> is_rem p (be_val (winlist w m)) hash ->
  let '(msg', pos', hash') := fold_left (rabin_roll t) l (msg, pos, hash) in
  length msg' = w /\ pos' < w /\ skipn pos' msg' ++ firstn pos' msg' = winlist w (m ++ l) /\
  is_rem p (be_val (winlist w (m ++ l))) hash'.
Proof.
  intros p w t Ht Hp Hw. induction l as [|b l IH]; intros msg pos hash m Hm Hl HL Hpos Hrot HR.
  - simpl. rewrite app_nil_r. auto.
  - inversion Hl as [|? ? Hb Hl']; subst b l. cbn [fold_left].
    replace (m ++ x :: l0) with ((m ++ [x]) ++ l0) by now rewrite <- app_assoc.
    unfold rabin_roll at 2.
    assert (WS : winlist w (m ++ [x]) = tl (winlist w m) ++ [x]).
    { unfold winlist. rewrite app_assoc. apply lastn_snoc; auto. rewrite app_length, zeros_length. lia. }
    apply IH; auto.
    + apply isbytes_app. split; auto. constructor; auto.
    + now rewrite upd_length.
    + destruct (Nat.eqb_spec (S pos) (length msg)); lia.
    + rewrite WS, <- Hrot. apply rot_upd. lia.
    + rewrite WS. rewrite <- Hrot in *. rewrite skipn_hd in HR by lia.
      apply (roll_rem p w t Ht Hp); auto.
      * pose proof (winlist_length w m) as WL. rewrite <- Hrot in WL. rewrite skipn_hd in WL by lia. simpl in WL. lia.
      * rewrite <- skipn_hd by lia. rewrite Hrot. unfold winlist, lastn. apply isbytes_skipn.
        apply isbytes_app. split; auto. apply zeros_isbytes.
Qed.

Lemma rabin_write_rel : forall p w t d m q, rabin_table p w = Some t -> (p < 2 ^ 64)%N -> isbytes q ->
  rabin_rel p w d m -> rabin_rel p w (fst (rabin_write t d q)) (m ++ q).
Proof.
  intros p w t d m q Ht Hp Hq [Hm R]. unfold rabin_write.
  destruct (rmsg d) as [msg|].
  - destruct R as (Hw & HL & Hpos & Hrot & HR).
    destruct (Nat.leb_spec (length msg) (length q)) as [H|H]; cbn [fst].
    + split; [apply isbytes_app; auto|]. cbn [rmsg rpos rhash].
      assert (LL : length (skipn (length q - length msg) q) = length msg) by (rewrite skipn_length; lia).
      assert (E : winlist w (m ++ q) = skipn (length q - length msg) q).
      { unfold winlist. rewrite app_assoc, lastn_long by lia. unfold lastn. now rewrite HL. }
      rewrite E. split; [auto|]. rewrite copy_at_length by lia. repeat split; auto.
      * rewrite skipn_O, firstn_O, app_nil_r. rewrite copy_at_full by lia. rewrite firstn_O, Nat.sub_0_r.
        rewrite firstn_all2 by lia. reflexivity.
      * apply (update_rem p w t Ht Hp (skipn (length q - length msg) q) [] 0%N).
        -- now apply isbytes_skipn.
        -- apply is_rem_0.
      * apply (update_rem p w t Ht Hp (skipn (length q - length msg) q) [] 0%N).
        -- now apply isbytes_skipn.
        -- apply is_rem_0.
    + pose proof (roll_fold p w t Ht Hp Hw q msg (rpos d) (rhash d) m Hm Hq HL Hpos Hrot HR) as F.
      destruct (fold_left (rabin_roll t) q (msg, rpos d, rhash d)) as [[msg' pos'] hash'].
      cbn [fst]. split; [apply isbytes_app; auto|]. cbn [rmsg rpos rhash]. tauto.
  - destruct R as [-> R]. cbn [fst]. split; [apply isbytes_app; auto|]. cbn [rmsg rhash].
    split; auto. now apply (update_rem p 0 t).
Qed.

Lemma le_bytes_shifts : forall k v, map (fun i => w8 (N.shiftr v (N.of_nat (i * 8)))) (seq 0 k) = le_bytes k v.
Proof.
  induction k; intros; auto. rewrite seq_S, map_app, IHk. cbn [map plus].
  replace (S k) with (k + 1) by lia. rewrite le_bytes_app. cbn [le_bytes]. do 4 f_equal. lia.
Qed.
Lemma firstn_le_bytes : forall j k v, j <= k -> firstn j (le_bytes k v) = le_bytes j v.
Proof.
  intros j k v H. replace k with (j + (k - j)) by lia. rewrite le_bytes_app.
  apply firstn_app_len. apply le_bytes_length.
Qed.

Lemma rabin_contract_lemma : forall p w t ops, (p < 2 ^ 64)%N -> rabin_table p w = Some t -> Forall op_bytes ops ->
  run (rabin_impl t) (rabin_new t) ops = ideal_run (rabin_spec p w) [] ops.
Proof.
  intros p w t ops Hp Ht Ho.
  destruct (tab_deg p w t Ht Hp) as (D1 & D2 & D3 & D4 & D5 & D6).
  apply run_refines_bytes with (R := rabin_rel p w); auto.
  - intros. cbn [rabin_impl i_write]. now apply rabin_write_rel.
  - intros d m q Hq [Hm R]. cbn [rabin_impl i_write]. unfold rabin_write. destruct (rmsg d); auto.
    destruct (length l <=? length q); auto. destruct (fold_left _ _ _) as [[? ?] ?]. reflexivity.
  - intros d m i [Hm R]. cbn [rabin_impl i_sum]. unfold rabin_sum. cbn [snd]. f_equal. rewrite le_bytes_shifts.
    unfold rabin_spec, rabin_size. rewrite D4. replace (N.log2 p + 1 + 7)%N with (N.log2 p + 8)%N by lia.
    rewrite firstn_le_bytes.
    + f_equal. symmetry. apply prem_unique; auto. destruct (rmsg d).
      * destruct R as (Hw & _ & _ & _ & R). rewrite winlist_val in R.
        destruct (Nat.eqb_spec w 0); [lia|]. exact R.
      * destruct R as [-> R]. exact R.
    + assert ((N.log2 p + 8) / 8 < 9)%N by (apply N.div_lt_upper_bound; lia). lia.
  - intros d m [Hm R]. cbn [rabin_impl i_reset]. unfold rabin_reset. split; [constructor|].
    destruct (rmsg d) as [msg|]; cbn [rmsg rpos rhash].
    + destruct R as (Hw & HL & _). rewrite map_length.
      assert (E : map (fun _ : N => 0%N) msg = zeros w).
      { rewrite <- HL. unfold zeros. clear. induction msg; simpl; auto. now rewrite IHmsg. }
      rewrite E, skipn_O, firstn_O, !app_nil_r. unfold winlist, lastn.
      rewrite app_nil_r, zeros_length, Nat.sub_diag. cbn [skipn]. repeat split; auto.
      * apply N.neq_0_lt_0, N.pow_nonzero. discriminate.
      * exists 0%N. rewrite <- (app_nil_r (zeros w)), be_val_zeros. reflexivity.
    + destruct R as [-> R]. split; auto. apply is_rem_0.
  - split; [constructor|]. unfold rabin_new. rewrite D6. destruct (Nat.ltb_spec 0 w); cbn [rmsg rpos rhash].
    + rewrite skipn_O, firstn_O, !app_nil_r, zeros_length. unfold winlist, lastn.
      rewrite app_nil_r, zeros_length, Nat.sub_diag. cbn [skipn]. repeat split; auto.
      * apply N.neq_0_lt_0, N.pow_nonzero. discriminate.
      * exists 0%N. rewrite <- (app_nil_r (zeros w)), be_val_zeros. reflexivity.
    + split; [lia|]. apply is_rem_0.
Qed.
Lemma rabin_table_iff : forall p w, (exists t, rabin_table p w = Some t) <-> (2 ^ 8 <= p)%N.
Proof.
  intros p w. unfold rabin_table. destruct (N.ltb_spec (N.size p) 9) as [H|H].
  - split; [intros [t Ht]; discriminate|]. intros Hp. exfalso.
    assert (P0 : (0 < p)%N) by (change (2 ^ 8)%N with 256%N in Hp; lia).
    assert (8 <= N.log2 p)%N by (apply N.log2_le_pow2; assumption). rewrite size_log2 in H by lia. lia.
  - split; [|intros _; eexists; reflexivity]. intros _.
    assert (p <> 0)%N by (intros ->; simpl in H; lia).
    rewrite size_log2 in H by assumption. apply N.log2_le_pow2; lia.
Qed.
