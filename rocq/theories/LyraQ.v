(** LyraQ.v -- the order in which Lyra2 visits the rows: the code's counters against the closed forms of SpecLyra.v. *)
From Coq Require Import List NArith ZArith Arith Bool Lia.
Require Import Verif.Base Verif.Words Verif.SpecLyra Verif.Lyra Verif.LyraP.
Import ListNotations.

(** ** The Setup loop *)
Lemma pow2_pos : forall k, 0 < 2 ^ k.
Proof. intro k. pose proof (Nat.pow_nonzero 2 k ltac:(lia)). lia. Qed.
Lemma step_odd : forall k, 1 <= k -> exists q, ly_step k = 2 * q + 1.
Proof.
  intros k H. unfold ly_step. destruct (Nat.eqb_spec k 1); [exists 0; lia|].
  replace (k - 1) with (S (k - 2)) by lia. rewrite Nat.pow_succ_r'. pose proof (pow2_pos (k - 2)).
  destruct (Nat.even k); [exists (2 ^ (k - 2)); lia|exists (2 ^ (k - 2) - 1); lia].
Qed.
Lemma gcd_odd : forall q k, Nat.gcd (2 ^ k) (2 * q + 1) = 1.
Proof.
  intros q. induction k as [|k IH]; [reflexivity|]. rewrite Nat.pow_succ_r'.
  assert (D : Nat.divide (Nat.gcd (2 * 2 ^ k) (2 * q + 1)) 1); [|now apply Nat.divide_1_r in D].
  set (g := Nat.gcd (2 * 2 ^ k) (2 * q + 1)).
  assert (D1 : Nat.divide g (2 * 2 ^ k)) by apply Nat.gcd_divide_l. assert (D2 : Nat.divide g (2 * q + 1)) by apply Nat.gcd_divide_r. clearbody g.
  assert (G2 : Nat.gcd g 2 = 1).
  { pose proof (Nat.gcd_divide_l g 2) as A. pose proof (Nat.gcd_divide_r g 2) as B. set (h := Nat.gcd g 2) in *. clearbody h.
    destruct B as [b B]. destruct h as [|[|[|h]]]; [lia|reflexivity| |destruct b; lia].
    assert (X : Nat.divide 2 (2 * q + 1)) by (now apply Nat.divide_trans with g). destruct X as [x X]. lia. }
  apply Nat.gauss in D1; [|exact G2]. rewrite <- IH. apply Nat.gcd_greatest; assumption.
Qed.
Lemma log2_in : forall r k, 2 ^ k <= r < 2 ^ S k -> Nat.log2 r = k.
Proof. intros r k H. apply Nat.log2_unique; [lia|exact H]. Qed.
Lemma revisit_lt : forall r, 2 <= r -> ly_revisit r < r.
Proof.
  intros r H. unfold ly_revisit. cbv zeta. pose proof (Nat.log2_spec r ltac:(lia)) as [A _]. pose proof (pow2_pos (Nat.log2 r)).
  pose proof (Nat.mod_upper_bound ((r - 2 ^ Nat.log2 r) * ly_step (Nat.log2 r)) (2 ^ Nat.log2 r) ltac:(lia)). lia.
Qed.
Lemma revisit_step : forall r k, 1 <= k -> 2 ^ k <= r -> r + 1 < 2 ^ S k ->
  (ly_revisit r + ly_step k) mod 2 ^ k = ly_revisit (S r) /\ ly_revisit (S r) <> 0.
Proof.
  intros r k Hk H1 H2. unfold ly_revisit. rewrite (log2_in r k), (log2_in (S r) k) by lia. cbv zeta. pose proof (pow2_pos k).
  rewrite Nat.add_mod_idemp_l by lia. replace (S r - 2 ^ k) with (S (r - 2 ^ k)) by lia. split; [f_equal; lia|].
  intro Z. apply Nat.mod_divide in Z; [|lia]. destruct (step_odd k Hk) as [q Q]. rewrite Q, Nat.mul_comm in Z. apply Nat.gauss in Z; [|apply gcd_odd].
  destruct Z as [z Z]. rewrite Nat.pow_succ_r' in H2. destruct z; nia.
Qed.
Lemma revisit_last : forall r k, 1 <= k -> r + 1 = 2 ^ S k -> (ly_revisit r + ly_step k) mod 2 ^ k = 0 /\ ly_revisit (S r) = 0.
Proof.
  intros r k Hk H. pose proof (pow2_pos k) as P. pose proof H as H'. rewrite Nat.pow_succ_r' in H'. unfold ly_revisit. rewrite (log2_in r k) by (rewrite Nat.pow_succ_r'; lia). cbv zeta.
  replace (S r) with (2 ^ S k) by lia. rewrite Nat.log2_pow2 by lia. rewrite Nat.sub_diag. split.
  - rewrite Nat.add_mod_idemp_l by lia. replace ((r - 2 ^ k) * ly_step k + ly_step k) with (ly_step k * 2 ^ k) by nia. apply Nat.mod_mul. lia.
  - cbn [Nat.mul]. apply Nat.mod_0_l. pose proof (pow2_pos (S k)). lia.
Qed.

Definition gapN (k : nat) : N := if Nat.even k then 18446744073709551615%N else 1%N.
(** the counters at the head of the loop, row = r *)
Definition su_at (s : list N * list N) (r : nat) : lm_su :=
  let k := Nat.log2 r in mksu s r (r - 1) (N.of_nat (ly_revisit r)) (N.of_nat (ly_step k)) (N.of_nat (2 ^ k)) (gapN k).
Lemma w64_small : forall x, (x < 18446744073709551616)%N -> w64 x = x.
Proof. intros x H. rewrite w64_mod. apply N.mod_small. exact H. Qed.
Lemma step_le : forall k, 1 <= k -> ly_step k <= 2 ^ k.
Proof.
  intros k H. unfold ly_step. destruct (Nat.eqb_spec k 1); [pose proof (pow2_pos k); lia|]. replace k with (S (S (k - 2))) by lia. cbn [Nat.sub]. rewrite !Nat.pow_succ_r'. pose proof (pow2_pos (k - 2)).
  destruct (Nat.even (S (S (k - 2)))); lia.
Qed.
Lemma of_nat_pow2 : forall k, N.of_nat (2 ^ k) = (2 ^ N.of_nat k)%N.
Proof. induction k as [|k IH]; [reflexivity|]. rewrite Nat.pow_succ_r', Nat2N.inj_mul, IH, (Nat2N.inj_succ k), N.pow_succ_r'. reflexivity. Qed.
Lemma land_window : forall x k, N.land x (N.of_nat (2 ^ k) - 1) = (x mod N.of_nat (2 ^ k))%N.
Proof. intros x k. rewrite of_nat_pow2. rewrite <- N.land_ones. f_equal. rewrite N.ones_equiv, N.sub_1_r. reflexivity. Qed.
Lemma setup1_at : forall C s r, 2 <= r -> (N.of_nat r < 4611686018427387904)%N ->
  lm_setup1 C (su_at s r) = su_at (lm_setupRow ((r - 1) * (12 * C)) (ly_revisit r * (12 * C)) (r * (12 * C)) C s) (S r).
Proof.
  intros C s r H2 HR. unfold lm_setup1, su_at. cbv zeta. cbn [su_s su_row su_prev su_rowa su_step su_window su_gap]. rewrite Nat2N.id.
  set (k := Nat.log2 r). pose proof (Nat.log2_spec r ltac:(lia)) as [K1 K2]. fold k in K1, K2.
  assert (Hk : 1 <= k) by (unfold k; change 1 with (Nat.log2 2); apply Nat.log2_le_mono; exact H2).
  pose proof (step_le k Hk) as SL. pose proof (revisit_lt r H2) as RL. pose proof (pow2_pos k) as PP.
  set (s' := lm_setupRow _ _ _ _ _). clearbody s'.
  assert (EW : sub64 (N.of_nat (2 ^ k)) 1 = (N.of_nat (2 ^ k) - 1)%N).
  { unfold sub64. rewrite w64_mod. change 18446744073709551616%N with (1 * 18446744073709551616)%N at 1. 
    replace (N.of_nat (2 ^ k) + 1 * 18446744073709551616 - 1)%N with ((N.of_nat (2 ^ k) - 1) + 1 * 18446744073709551616)%N by lia. rewrite N.mod_add by lia. apply N.mod_small. lia. }
  assert (ER : N.land (add64 (N.of_nat (ly_revisit r)) (N.of_nat (ly_step k))) (sub64 (N.of_nat (2 ^ k)) 1) = N.of_nat ((ly_revisit r + ly_step k) mod 2 ^ k)).
  { rewrite EW, land_window. unfold add64. rewrite w64_small by lia. rewrite Nat2N.inj_mod, Nat2N.inj_add. reflexivity. }
  rewrite ER. replace (S r - 1) with r by lia.
  destruct (Nat.eq_dec (r + 1) (2 ^ S k)) as [E|E].
  - destruct (revisit_last r k Hk E) as [Z1 Z2]. rewrite Z1, Z2. rewrite N.eqb_refl. pose proof E as E'. rewrite Nat.pow_succ_r' in E'.
    replace (S r) with (2 ^ S k) by lia. rewrite Nat.log2_pow2 by lia.
    assert (X1 : add64 (N.of_nat (2 ^ k)) (gapN k) = N.of_nat (ly_step (S k))).
    { unfold gapN, ly_step. destruct (Nat.eqb_spec (S k) 1); [lia|]. replace (S k - 1) with k by lia. rewrite Nat.even_succ, <- Nat.negb_even. unfold add64. destruct (Nat.even k); cbn [negb].
      - rewrite w64_mod. replace (N.of_nat (2 ^ k) + 18446744073709551615)%N with (N.of_nat (2 ^ k - 1) + 1 * 18446744073709551616)%N by lia. rewrite N.mod_add by lia. apply N.mod_small. lia.
      - rewrite w64_small by lia. lia. }
    assert (X2 : mul64 (N.of_nat (2 ^ k)) 2 = N.of_nat (2 ^ S k)) by (unfold mul64; rewrite w64_small by lia; rewrite Nat.pow_succ_r'; lia).
    assert (X3 : sub64 0 (gapN k) = gapN (S k)) by (unfold gapN; rewrite Nat.even_succ, <- Nat.negb_even; destruct (Nat.even k); reflexivity).
    rewrite X1, X2, X3. reflexivity.
  - assert (E' : r + 1 < 2 ^ S k) by lia. destruct (revisit_step r k Hk K1 E') as [Z1 Z2]. rewrite Z1. rewrite (log2_in (S r) k) by lia.
    destruct (N.eqb_spec (N.of_nat (ly_revisit (S r))) 0) as [Q|Q]; [lia|]. reflexivity.
Qed.
Lemma setup_at : forall C n s, (N.of_nat (2 + n) < 4611686018427387904)%N ->
  Nat.iter n (lm_setup1 C) (mksu s 2 1 0 1 2 1) = su_at (fold_left (fun s r => lm_setupRow ((r - 1) * (12 * C)) (ly_revisit r * (12 * C)) (r * (12 * C)) C s) (seq 2 n) s) (2 + n).
Proof.
  intros C n s. induction n as [|n IH]; intro H; [reflexivity|].
  change (Nat.iter (S n) (lm_setup1 C) (mksu s 2 1 0 1 2 1)) with (lm_setup1 C (Nat.iter n (lm_setup1 C) (mksu s 2 1 0 1 2 1))).
  rewrite IH by lia. rewrite setup1_at by lia. rewrite seq_S, fold_left_app. replace (2 + S n) with (S (2 + n)) by lia. reflexivity.
Qed.

(** ** One wandering pass *)
Lemma order_back : forall R st n, 0 < R -> 0 < n -> (n * st) mod R = 0 -> R / Nat.gcd R st <= n.
Proof.
  intros R st n HR Hn Z. apply Nat.mod_divide in Z; [|lia].
  assert (G : Nat.gcd R st <> 0) by (intro Q; apply Nat.gcd_eq_0 in Q; lia).
  destruct (Nat.gcd_divide_l R st) as [a A]. destruct (Nat.gcd_divide_r R st) as [b B]. set (g := Nat.gcd R st) in *.
  assert (GG : Nat.gcd a b = 1).
  { replace a with (R / g) by (rewrite A; apply Nat.div_mul; exact G). replace b with (st / g) by (rewrite B; apply Nat.div_mul; exact G). apply Nat.gcd_div_gcd; [exact G|reflexivity]. }
  rewrite A. rewrite Nat.div_mul by exact G. rewrite B in Z. rewrite A in Z. destruct Z as [z Z].
  assert (D : Nat.divide a (b * n)) by (exists z; nia). apply Nat.gauss in D; [|exact GG]. destruct D as [d D]. destruct d; nia.
Qed.
Lemma order_zero : forall R st, 0 < R -> ((R / Nat.gcd R st) * st) mod R = 0.
Proof.
  intros R st HR. assert (G : Nat.gcd R st <> 0) by (intro Q; apply Nat.gcd_eq_0 in Q; lia).
  destruct (Nat.gcd_divide_l R st) as [a A]. destruct (Nat.gcd_divide_r R st) as [b B]. set (g := Nat.gcd R st) in *.
  rewrite A at 1. rewrite Nat.div_mul by exact G. rewrite B. replace (a * (b * g)) with (b * R) by nia. apply Nat.mod_mul. lia.
Qed.
Lemma order_pos : forall R st, 0 < R -> 0 < R / Nat.gcd R st /\ R / Nat.gcd R st <= R.
Proof.
  intros R st HR. assert (G : Nat.gcd R st <> 0) by (intro Q; apply Nat.gcd_eq_0 in Q; lia).
  destruct (Nat.gcd_divide_l R st) as [a A]. set (g := Nat.gcd R st) in *. rewrite A. rewrite Nat.div_mul by exact G. split; [destruct a; lia|]. nia.
Qed.

Section Wander.
Variable R C : nat.
Hypothesis HR : 2 <= R.
Definition xrel (x : list N * list N * nat * N) (y : list N * list (list N) * nat * nat) : Prop :=
  let '(s, prev, rowa) := x in let '(t, prev', rowa') := y in
  rel R C full s t /\ prev = prev' /\ prev < R /\ rowa = N.of_nat rowa' /\ rowa' < R.
Lemma visit_rel : forall s prev r0 y row, row < R -> xrel (s, prev, r0) y ->
  let rowa := (at_ (fst s) 0 mod N.of_nat R)%N in
  xrel (lm_duplexRow (prev * (12 * C)) (N.to_nat rowa * (12 * C)) (row * (12 * C)) C s, row, rowa) (ly_visit R C y row).
Proof.
  intros s prev r0 [[t prev'] r0'] row Hr (H & <- & Hp & _ & _). cbv zeta. unfold ly_visit. pose proof H as (E & _). rewrite <- E.
  assert (M : (at_ (fst s) 0 mod N.of_nat R < N.of_nat R)%N) by (apply N.mod_lt; lia). set (q := (at_ (fst s) 0 mod N.of_nat R)%N) in *. clearbody q.
  unfold xrel. split; [apply wander_rel; [lia|lia|lia|exact H]|]. repeat split; lia.
Qed.
(** the loop from its i-th visit on, with n visits to go *)
Lemma visits_rel : forall st n fuel i x y, (i + n = R / Nat.gcd R st) -> 0 < n -> n <= fuel -> st < R ->
  xrel x y ->
  exists x', lm_visit fuel R C (Z.of_nat st) (x, Z.of_nat ((i * st) mod R)) = Ok (x', 0%Z) /\
    xrel x' (fold_left (ly_visit R C) (map (fun i => (i * st) mod R) (seq i n)) y).
Proof.
  intros st. induction n as [|n IH]; intros fuel i x y Hn P F HS X; [lia|]. destruct fuel as [|fuel]; [lia|].
  destruct x as [[s prev] r0]. cbn [lm_visit]. cbv zeta.
  pose proof (Nat.mod_upper_bound (i * st) R ltac:(lia)) as B. set (row := (i * st) mod R) in *.
  destruct (Z.ltb_spec (Z.of_nat row) 0); [lia|]. rewrite Nat2Z.id.
  pose proof (visit_rel s prev r0 y row B X) as X1. cbv zeta in X1. set (s1 := lm_duplexRow _ _ _ _ _) in *. set (ra := (at_ (fst s) 0 mod N.of_nat R)%N) in *. clearbody s1 ra.
  assert (ER : Z.rem (Z.of_nat row + Z.of_nat st) (Z.of_nat R) = Z.of_nat ((S i * st) mod R)).
  { rewrite Z.rem_mod_nonneg by lia. rewrite <- Nat2Z.inj_add, <- Nat2Z.inj_mod. f_equal. unfold row. rewrite Nat.add_mod_idemp_l by lia. f_equal. lia. }
  rewrite ER. cbn [snd seq map fold_left]. fold row.
  destruct (Z.eqb_spec (Z.of_nat ((S i * st) mod R)) 0) as [Q|Q].
  - assert (n = 0). { pose proof (order_back R st (S i) ltac:(lia) ltac:(lia) ltac:(lia)). lia. } subst n. cbn [seq map fold_left]. eexists. split; [|exact X1]. rewrite Q. reflexivity.
  - destruct n as [|n]; [|apply IH; try lia; exact X1]. exfalso. apply Q. replace (S i) with (R / Nat.gcd R st) by lia. rewrite order_zero by lia. reflexivity.
Qed.
Lemma pass1_rel : forall x y, xrel x y ->
  exists x', lm_passes 1 1 R C (x, 0%Z) = Ok (x', 0%Z) /\ xrel x' (ly_passes R C 1 y).
Proof.
  intros x y X. cbn [lm_passes]. cbv zeta. change ((1 mod 2 =? 0)%N) with false.
  pose proof (order_pos R (R / 2 - 1) ltac:(lia)) as [P1 P2]. pose proof (Nat.div_lt R 2 ltac:(lia) ltac:(lia)) as D. assert (D1 : 1 <= R / 2) by (apply Nat.div_le_lower_bound; lia).
  destruct (visits_rel (R / 2 - 1) (R / Nat.gcd R (R / 2 - 1)) (S R) 0 x y ltac:(lia) P1 ltac:(lia) ltac:(lia) X) as (x' & E & X').
  rewrite Nat.mod_0_l in E by lia. change (Z.of_nat 0) with 0%Z in E.
  replace (Z.of_nat R / 2 - 1)%Z with (Z.of_nat (R / 2 - 1)) by (rewrite Nat2Z.inj_sub by lia; rewrite Nat2Z.inj_div; reflexivity).
  exists x'. rewrite E. split; [reflexivity|]. exact X'.
Qed.
(** tau = 2: from row 0 with step -1, Go's remainder gives row -1 *)
Lemma pass2_panic : forall n tau x, (tau mod 2 = 0)%N -> lm_passes (S n) tau R C (x, 0%Z) = Panic.
Proof.
  intros n tau [[s prev] ra] H. cbn [lm_passes]. cbv zeta. rewrite H. rewrite N.eqb_refl. cbn [lm_visit]. cbv zeta. change ((0 <? 0)%Z) with false. cbv iota.
  replace (Z.rem (0 + -1) (Z.of_nat R)) with (-1)%Z. 2:{ change (0 + -1)%Z with (- (1))%Z. rewrite Z.rem_opp_l by lia. rewrite Z.rem_small by lia. reflexivity. }
  change ((-1 =? 0)%Z) with false. cbn [snd]. destruct R; [lia|]. cbn [lm_visit]. change ((-1 <? 0)%Z) with true. reflexivity.
Qed.
Lemma passes_panic : forall T x y, 2 <= T -> xrel x y -> lm_passes T 1 R C (x, 0%Z) = Panic.
Proof.
  intros T x y H X. destruct T as [|[|T]]; try lia. destruct (pass1_rel x y X) as (x' & E & _). cbn [lm_passes] in E |- *. cbv zeta in E |- *.
  destruct (lm_visit (S R) R C _ (x, 0%Z)) as [a| |] eqn:V; cbn [obind] in E |- *; try discriminate E. injection E as ->. apply (pass2_panic T 2 x' eq_refl).
Qed.
End Wander.
