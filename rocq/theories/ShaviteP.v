(** ShaviteP.v -- the compression functions of /repo/shavite are those of SpecShavite. *)
From Coq Require Import List NArith Arith Bool Lia.
From Verif Require Import Base Words Buf Refine SpecAes SpecShavite Shavite.
Import ListNotations.
Local Open Scope N_scope.

(** xor is associative and commutative *)
Ltac xorac := let j := fresh "j" in apply N.bits_inj; intro j; rewrite !N.lxor_spec; repeat match goal with |- context [N.testbit ?x j] => destruct (N.testbit x j) end; reflexivity.
(** ** Tables *)
Definition tab_okS (b : nat) (s s2 s3 : N) : bool :=
  (s <? 256) && (s2 <? 256) && (s3 <? 256) &&
  (at_ sv_AES0 b =? le_val [s2; s; s; s3]) && (at_ sv_AES1 b =? le_val [s3; s2; s; s]) &&
  (at_ sv_AES2 b =? le_val [s; s3; s2; s]) && (at_ sv_AES3 b =? le_val [s; s; s3; s2]).
Definition tab_ok (b : nat) : bool := tab_okS b (aes_sbox (N.of_nat b)) (gf_mul 2 (aes_sbox (N.of_nat b))) (gf_mul 3 (aes_sbox (N.of_nat b))).
Lemma tabs_ok : forallb tab_ok (seq 0 256) = true.
Proof. vm_compute. reflexivity. Qed.
Lemma tab_okS_true : forall b s s2 s3, tab_okS b s s2 s3 = true ->
  s < 256 /\ s2 < 256 /\ s3 < 256 /\
  at_ sv_AES0 b = le_val [s2; s; s; s3] /\ at_ sv_AES1 b = le_val [s3; s2; s; s] /\
  at_ sv_AES2 b = le_val [s; s3; s2; s] /\ at_ sv_AES3 b = le_val [s; s; s3; s2].
Proof.
  intros b s s2 s3 H. unfold tab_okS in H.
  apply andb_true_iff in H. destruct H as [H H7]. apply andb_true_iff in H. destruct H as [H H6]. apply andb_true_iff in H. destruct H as [H H5].
  apply andb_true_iff in H. destruct H as [H H4]. apply andb_true_iff in H. destruct H as [H H3]. apply andb_true_iff in H. destruct H as [H1 H2].
  apply N.ltb_lt in H1, H2, H3. apply N.eqb_eq in H4, H5, H6, H7. exact (conj H1 (conj H2 (conj H3 (conj H4 (conj H5 (conj H6 H7)))))).
Qed.
Opaque aes_sbox gf_mul sv_AES0 sv_AES1 sv_AES2 sv_AES3 tab_okS.
Lemma tab_ok_all : forall b, (b < 256)%nat -> tab_ok b = true.
Proof. intros b Hb. apply (proj1 (forallb_forall tab_ok (seq 0 256)) tabs_ok). apply in_seq. lia. Qed.
Lemma tab_at : forall b, b < 256 ->
  aes_sbox b < 256 /\ gf_mul 2 (aes_sbox b) < 256 /\ gf_mul 3 (aes_sbox b) < 256 /\
  at_ sv_AES0 (N.to_nat b) = le_val [gf_mul 2 (aes_sbox b); aes_sbox b; aes_sbox b; gf_mul 3 (aes_sbox b)] /\
  at_ sv_AES1 (N.to_nat b) = le_val [gf_mul 3 (aes_sbox b); gf_mul 2 (aes_sbox b); aes_sbox b; aes_sbox b] /\
  at_ sv_AES2 (N.to_nat b) = le_val [aes_sbox b; gf_mul 3 (aes_sbox b); gf_mul 2 (aes_sbox b); aes_sbox b] /\
  at_ sv_AES3 (N.to_nat b) = le_val [aes_sbox b; aes_sbox b; gf_mul 3 (aes_sbox b); gf_mul 2 (aes_sbox b)].
Proof.
  intros b Hb. apply tab_okS_true. pose proof (tab_ok_all (N.to_nat b) ltac:(lia)) as H. unfold tab_ok in H. rewrite N2Nat.id in H. exact H.
Qed.
Lemma le_val4_lxor : forall a0 a1 a2 a3 b0 b1 b2 b3, a0 < 256 -> a1 < 256 -> a2 < 256 -> a3 < 256 -> b0 < 256 -> b1 < 256 -> b2 < 256 -> b3 < 256 ->
  N.lxor (le_val [a0; a1; a2; a3]) (le_val [b0; b1; b2; b3]) = le_val [N.lxor a0 b0; N.lxor a1 b1; N.lxor a2 b2; N.lxor a3 b3].
Proof.
  intros. assert (L : forall x l, x < 256 -> le_val (x :: l) = N.lxor x (N.shiftl (le_val l) 8)).
  { intros x l Hx. cbn [le_val]. rewrite <- add_shift_lxor by exact Hx. change (2 ^ 8) with 256. lia. }
  assert (X : forall x y, x < 256 -> y < 256 -> N.lxor x y < 256) by (intros; change 256 with (2 ^ 8); now apply lxor_lt).
  rewrite !L by auto. change (le_val []) with 0. rewrite !N.shiftl_0_l, !N.lxor_0_r, !N.shiftl_lxor.
  apply N.bits_inj. intro i. rewrite !N.lxor_spec. repeat match goal with |- context [N.testbit ?x i] => destruct (N.testbit x i) end; reflexivity.
Qed.
Lemma le4_bytes : forall x, is32 x -> le_bytes 4 x = [N.land x 0xff; N.land (N.shiftr x 8) 0xff; N.land (N.shiftr x 16) 0xff; N.shiftr x 24].
Proof.
  intros x Hx. assert (W : forall y, N.land y 0xff = y mod 256) by (intro; apply (w8_mod y)). cbn [le_bytes]. rewrite !w8_mod, !W, !N.shiftr_div_pow2. change (2 ^ 8) with 256. change (2 ^ 16) with (256 * 256). change (2 ^ 24) with (256 * 256 * 256).
  rewrite <- !N.div_div by discriminate. do 3 apply f_equal. f_equal. apply N.mod_small. unfold is32 in Hx. rewrite !N.div_div by discriminate. apply N.div_lt_upper_bound; [discriminate|]. change (2 ^ 32) with 4294967296 in Hx. lia.
Qed.
Lemma shr24 : forall x, is32 x -> N.shiftr x 24 < 256.
Proof. intros x H. unfold is32 in H. rewrite N.shiftr_div_pow2. apply N.div_lt_upper_bound; [discriminate|]. change (2 ^ 24 * 256) with (2 ^ 32). exact H. Qed.
Lemma land255 : forall x, N.land x 0xff < 256.
Proof. intro. apply (w8_lt x). Qed.

(** The bytes of one look-up result. *)
Lemma col_ok : forall a b c d, a < 256 -> b < 256 -> c < 256 -> d < 256 ->
  N.lxor (N.lxor (N.lxor (at_ sv_AES0 (N.to_nat a)) (at_ sv_AES1 (N.to_nat b))) (at_ sv_AES2 (N.to_nat c))) (at_ sv_AES3 (N.to_nat d)) =
  let A := aes_sbox a in let B := aes_sbox b in let C := aes_sbox c in let D := aes_sbox d in
  le_val [N.lxor (N.lxor (gf_mul 2 A) (gf_mul 3 B)) (N.lxor C D); N.lxor (N.lxor (gf_mul 2 B) (gf_mul 3 C)) (N.lxor D A);
          N.lxor (N.lxor (gf_mul 2 C) (gf_mul 3 D)) (N.lxor A B); N.lxor (N.lxor (gf_mul 2 D) (gf_mul 3 A)) (N.lxor B C)].
Proof.
  intros a b c d Ha Hb Hc Hd. destruct (tab_at a Ha) as (a1 & a2 & a3 & -> & _). destruct (tab_at b Hb) as (b1 & b2 & b3 & _ & -> & _).
  destruct (tab_at c Hc) as (c1 & c2 & c3 & _ & _ & -> & _). destruct (tab_at d Hd) as (d1 & d2 & d3 & _ & _ & _ & ->).
  cbv zeta. set (A := aes_sbox a) in *. set (B := aes_sbox b) in *. set (C := aes_sbox c) in *. set (D := aes_sbox d) in *. clearbody A B C D.
  set (A2 := gf_mul 2 A) in *. set (B2 := gf_mul 2 B) in *. set (C2 := gf_mul 2 C) in *. set (D2 := gf_mul 2 D) in *.
  set (A3 := gf_mul 3 A) in *. set (B3 := gf_mul 3 B) in *. set (C3 := gf_mul 3 C) in *. set (D3 := gf_mul 3 D) in *. clearbody A2 B2 C2 D2 A3 B3 C3 D3.
  assert (X : forall x y, x < 256 -> y < 256 -> N.lxor x y < 256) by (intros; change 256 with (2 ^ 8); now apply lxor_lt).
  rewrite !le_val4_lxor by auto 8.
  f_equal. repeat (apply f_equal2; [xorac|]). reflexivity.
Qed.
Lemma aes_round_explicit : forall a0 a1 a2 a3 b0 b1 b2 b3 c0 c1 c2 c3 d0 d1 d2 d3,
  aes_round [a0; a1; a2; a3; b0; b1; b2; b3; c0; c1; c2; c3; d0; d1; d2; d3] =
  let col a b c d := let A := aes_sbox a in let B := aes_sbox b in let C := aes_sbox c in let D := aes_sbox d in
    [N.lxor (N.lxor (gf_mul 2 A) (gf_mul 3 B)) (N.lxor C D); N.lxor (N.lxor (gf_mul 2 B) (gf_mul 3 C)) (N.lxor D A);
     N.lxor (N.lxor (gf_mul 2 C) (gf_mul 3 D)) (N.lxor A B); N.lxor (N.lxor (gf_mul 2 D) (gf_mul 3 A)) (N.lxor B C)] in
  col a0 b1 c2 d3 ++ col b0 c1 d2 a3 ++ col c0 d1 a2 b3 ++ col d0 a1 b2 c3.
Proof. intros. lazy -[aes_sbox gf_mul N.lxor]. reflexivity. Qed.
Lemma le_words4 : forall a b c d : list N, length a = 4%nat -> length b = 4%nat -> length c = 4%nat -> length d = 4%nat ->
  le_words (a ++ b ++ c ++ d) = [le_val a; le_val b; le_val c; le_val d].
Proof.
  intros a b c d La Lb Lc Ld. unfold le_words. assert (E : forall (x l : list N), length x = 4%nat -> chunks 4 (x ++ l) = x :: chunks 4 l).
  { intros x l Lx. rewrite chunks_cons by (rewrite ?app_length; lia). now rewrite (firstn_app_len _ 4 x l Lx), (skipn_app_len _ 4 x l Lx). }
  rewrite !E by assumption. rewrite (chunks_one N 4 d) by (lia || assumption). reflexivity.
Qed.
Theorem sv_t_ok : forall x0 x1 x2 x3, is32 x0 -> is32 x1 -> is32 x2 -> is32 x3 -> sv_list (sv_t x0 x1 x2 x3) = aes_quad [x0; x1; x2; x3].
Proof.
  intros x0 x1 x2 x3 H0 H1 H2 H3. unfold aes_quad, quad_bytes. cbn [map concat app]. rewrite !le4_bytes by assumption. cbn [app].
  rewrite aes_round_explicit. cbv zeta. rewrite le_words4 by reflexivity.
  unfold sv_t, sv_list. cbv zeta. rewrite !col_ok by (apply land255 || now apply shr24). reflexivity.
Qed.
Lemma le_val4_is32 : forall a b c d, a < 256 -> b < 256 -> c < 256 -> d < 256 -> is32 (le_val [a; b; c; d]).
Proof. intros. unfold is32. cbn [le_val]. change (2 ^ 32) with 4294967296. lia. Qed.
Lemma sv_t_is32 : forall x0 x1 x2 x3, is32 x0 -> is32 x1 -> is32 x2 -> is32 x3 -> Forall is32 (sv_list (sv_t x0 x1 x2 x3)).
Proof.
  intros x0 x1 x2 x3 H0 H1 H2 H3. unfold sv_t, sv_list. cbv zeta. repeat constructor; repeat apply lxor_is32;
  match goal with |- is32 (at_ _ (N.to_nat ?b)) => destruct (tab_at b ltac:(apply land255 || now apply shr24)) as (q1 & q2 & q3 & e0 & e1 & e2 & e3); rewrite ?e0, ?e1, ?e2, ?e3; now apply le_val4_is32 end.
Qed.

(** ** The round-key array *)
Local Open Scope nat_scope.
Opaque aes_quad sv_t.
(** After u = 4q words: the array starts with the list [w]. *)
Definition pre (n : nat) (st : list N * nat) (q : nat) (w : list N) : Prop :=
  length (fst st) = n /\ snd st = 4 * q /\ length w = 4 * q /\ firstn (4 * q) (fst st) = w /\ Forall is32 w.
Lemma grow : forall (rk w : list N) u v, length w = u -> firstn u rk = w -> u < length rk -> firstn (S u) (upd rk u v) = w ++ [v].
Proof.
  intros rk w u v L E H. rewrite upd_split by exact H. rewrite E. rewrite firstn_app, firstn_all2 by lia. rewrite L. replace (S u - u) with 1 by lia. reflexivity.
Qed.
Lemma at_pre : forall (rk w : list N) u i, length w = u -> firstn u rk = w -> i < u -> at_ rk i = at_ w i.
Proof. intros rk w u i L E H. subst w. unfold at_. rewrite <- (firstn_skipn u rk) at 1. now rewrite app_nth1 by lia. Qed.
Lemma at_snoc : forall (w : list N) l i, i < length w -> at_ (w ++ l) i = at_ w i.
Proof. intros. unfold at_. now rewrite app_nth1. Qed.
Lemma quads_at : forall w q, 4 * q + 4 <= length w -> quads w q = [at_ w (4 * q); at_ w (4 * q + 1); at_ w (4 * q + 2); at_ w (4 * q + 3)].
Proof.
  intros w q H. unfold quads, slice. replace (4 * q + 4 - 4 * q) with 4 by lia. set (u := 4 * q) in *. clearbody u.
  assert (E : forall n, n < length w -> skipn n w = at_ w n :: skipn (S n) w).
  { clear. intros n. revert w. induction n; intros [|a w] H; cbn [length] in H; try lia; [reflexivity|]. cbn [skipn]. rewrite (IHn w) by lia. reflexivity. }
  rewrite (E u), (E (S u)), (E (S (S u))), (E (S (S (S u)))) by lia. cbn [firstn]. repeat f_equal; lia.
Qed.
Lemma at_is32 : forall w i, Forall is32 w -> is32 (at_ w i).
Proof. intros w i H. unfold at_. destruct (Nat.lt_ge_cases i (length w)) as [G|G]; [rewrite Forall_forall in H; apply H; now apply nth_In|rewrite nth_overflow by exact G; reflexivity]. Qed.
Lemma fill4 : forall (rk w : list N) u a b c d, length w = u -> firstn u rk = w -> u + 4 <= length rk ->
  firstn (u + 4) (upd (upd (upd (upd rk u a) (u + 1) b) (u + 2) c) (u + 3) d) = w ++ [a; b; c; d].
Proof.
  intros rk w u a b c d L E H. replace (u + 4) with (S (S (S (S u)))) by lia. replace (u + 1) with (S u) by lia. replace (u + 2) with (S (S u)) by lia. replace (u + 3) with (S (S (S u))) by lia.
  rewrite (grow _ (((w ++ [a]) ++ [b]) ++ [c])); [now rewrite <- !app_assoc| | |].
  - rewrite !app_length, L. cbn [length]. lia.
  - rewrite (grow _ ((w ++ [a]) ++ [b])); [reflexivity| | |].
    + rewrite !app_length, L. cbn [length]. lia.
    + rewrite (grow _ (w ++ [a])); [reflexivity|rewrite app_length, L; cbn [length]; lia|apply grow; (assumption || lia)|rewrite !upd_length; lia].
    + rewrite !upd_length. lia.
  - rewrite !upd_length. lia.
Qed.

Lemma nl_ok : forall n depth rk u q w, pre n (rk, u) q w -> 1 <= depth <= q -> 4 * q + 4 <= n ->
  let t := xorw (aes_quad (rot_quad (quads w (q - depth)))) (quads w (q - 1)) in
  length (sv_nl (4 * depth) rk u) = n /\ firstn (4 * q + 4) (sv_nl (4 * depth) rk u) = w ++ t /\ length t = 4 /\ Forall is32 t.
Proof.
  intros n depth rk u q w (Ln & Eu & Lw & Ew & Hw) Hd Hn t. cbn [fst snd] in *. subst u. unfold sv_nl.
  assert (A : forall i, i < 4 * q -> at_ rk i = at_ w i) by (intros; apply (at_pre rk w (4 * q)); auto).
  rewrite !(A _) by lia. unfold t. rewrite !quads_at by lia. unfold rot_quad. cbn [skipn firstn app].
  replace (4 * (q - depth)) with (4 * q - 4 * depth) by lia. replace (4 * (q - 1)) with (4 * q - 4) by lia.
  replace (4 * q - (4 * depth - 1)) with (4 * q - 4 * depth + 1) by lia. replace (4 * q - (4 * depth - 2)) with (4 * q - 4 * depth + 2) by lia. replace (4 * q - (4 * depth - 3)) with (4 * q - 4 * depth + 3) by lia.
  pose proof (fun i => at_is32 w i Hw) as I.
  pose proof (sv_t_is32 _ _ _ _ (I (4 * q - 4 * depth + 1)) (I (4 * q - 4 * depth + 2)) (I (4 * q - 4 * depth + 3)) (I (4 * q - 4 * depth))) as TI.
  rewrite <- sv_t_ok by auto. destruct (sv_t (at_ w (4 * q - 4 * depth + 1)) (at_ w (4 * q - 4 * depth + 2)) (at_ w (4 * q - 4 * depth + 3)) (at_ w (4 * q - 4 * depth))) as [[[t0 t1] t2] t3].
  unfold sv_list in *. cbv zeta. split; [now rewrite !upd_length|].
  assert (N1 : forall i k (l : list N) v, i < 4 * q -> 4 * q <= k -> at_ (upd l k v) i = at_ l i) by (intros; unfold at_; apply nth_upd_other; lia).
  rewrite !N1 by lia. rewrite !(A _) by lia. split; [|split].
  - rewrite (fill4 rk w) by (auto || lia). unfold xorw. cbn [combine map fst snd]. do 2 f_equal.
    replace (4 * q - 3) with (4 * q - 4 + 1) by lia. replace (4 * q - 2) with (4 * q - 4 + 2) by lia. replace (4 * q - 1) with (4 * q - 4 + 3) by lia. reflexivity.
  - reflexivity.
  - unfold xorw. cbn [combine map fst snd]. inversion TI as [|? ? i0 TI1]; subst. inversion TI1 as [|? ? i1 TI2]; subst. inversion TI2 as [|? ? i2 TI3]; subst. inversion TI3 as [|? ? i3 TI4]; subst. repeat constructor; apply lxor_is32; auto.
Qed.
Lemma xat_ok : forall (rk w t : list N) u j v, length w = u -> length t = 4 -> firstn (u + 4) rk = w ++ t -> u + 4 <= length rk -> j < 4 ->
  firstn (u + 4) (sv_xat rk (u + j) v) = w ++ upd t j (N.lxor (at_ t j) v).
Proof.
  intros rk w t u j v L Lt E H Hj. unfold sv_xat. rewrite (at_pre rk (w ++ t) (u + 4)) by (rewrite ?app_length; auto; lia).
  assert (EA : at_ (w ++ t) (u + j) = at_ t j) by (unfold at_; rewrite app_nth2 by lia; f_equal; lia). rewrite EA. set (x := N.lxor (at_ t j) v). clearbody x.
  rewrite <- (firstn_skipn (u + 4) rk) at 1. rewrite E. set (tl := skipn (u + 4) rk). clearbody tl.
  assert (G : forall (a l : list N) i y, length a = i -> upd (a ++ l) (i + j) y = a ++ upd l j y).
  { clear. intros a. induction a; intros l i y <-; [reflexivity|]. cbn [app length upd Nat.add]. now rewrite (IHa l (length a0)). }
  rewrite <- app_assoc, (G w (t ++ tl) u x L). destruct t as [|a [|b [|c [|d [|? ?]]]]]; try discriminate Lt.
  destruct j as [|[|[|[|?]]]]; try lia; cbn [app upd]; (rewrite firstn_app, firstn_all2 by lia; rewrite L; replace (u + 4 - u) with 4 by lia; reflexivity).
Qed.
Lemma xat_length : forall rk i v, length (sv_xat rk i v) = length rk.
Proof. intros. unfold sv_xat. apply upd_length. Qed.
Lemma pre_mk : forall n rk u q w t, length w = 4 * q -> Forall is32 w -> u = 4 * q + 4 -> length rk = n -> length t = 4 -> Forall is32 t -> firstn (4 * q + 4) rk = w ++ t -> pre n (rk, u) (S q) (w ++ t).
Proof.
  intros n rk u q w t Lw Hw -> Ln Lt Ht E. unfold pre. cbn [fst snd]. replace (4 * S q) with (4 * q + 4) by lia. split; [exact Ln|]. split; [reflexivity|]. split; [rewrite app_length; lia|]. split; [exact E|]. apply Forall_app. auto.
Qed.
Lemma is32_not : forall x, is32 x -> is32 (not32 x).
Proof. intros. apply lxor_is32; auto. reflexivity. Qed.

(** ** 256 *)
Definition F256 (c0 c1 : N) (w : list N) (q : nat) : list N := if Nat.odd (q / 4) then nonlinear 4 w (ctr256 c0 c1 q) q else linear 4 3 w.
Lemma s256_ok : forall c0 c1 st q w, is32 c0 -> is32 c1 -> Nat.even q = true -> Nat.odd (q / 4) = true -> Nat.odd (S q / 4) = true -> 4 <= q -> 4 * q + 8 <= 144 ->
  pre 144 st q w -> pre 144 (sv256_s c0 c1 st) (S (S q)) (F256 c0 c1 (F256 c0 c1 w q) (S q)).
Proof.
  intros c0 c1 [rk u] q w I0 I1 Ev O1 O2 Hq Hb HP. unfold sv256_s.
  destruct (nl_ok 144 4 rk u q w HP ltac:(lia) ltac:(lia)) as (L1 & E1 & Lt & It). change (4 * 4) with 16 in *. destruct HP as (_ & Eu & Lw & _ & Hw). cbn [fst snd] in *.
  set (rk1 := sv_nl 16 rk u) in *. clearbody rk1. set (t := xorw (aes_quad (rot_quad (quads w (q - 4)))) (quads w (q - 1))) in *.
  assert (EF : F256 c0 c1 w q = w ++ xorw t (ctr256 c0 c1 q)) by (unfold F256; rewrite O1; reflexivity). clearbody t.
  destruct t as [|ta [|tb [|tc [|td [|? ?]]]]]; try discriminate Lt.
  inversion It as [|? ? i0 It1]; subst. inversion It1 as [|? ? i1 It2]; subst. inversion It2 as [|? ? i2 It3]; subst. inversion It3 as [|? ? i3 It4]; subst.
  match goal with |- context [if 4 * q =? 16 then ?a else ?b] => set (rk2 := if 4 * q =? 16 then a else b) end.
  assert (P2 : pre 144 (rk2, 4 * q + 4) (S q) (F256 c0 c1 w q)).
  { rewrite EF. apply pre_mk; auto.
    - unfold rk2. destruct (4 * q =? 16); [|destruct (4 * q =? 56)]; rewrite ?xat_length; exact L1.
    - unfold ctr256. destruct (q =? 4); [|destruct (q =? 14); [|destruct (q =? 21); [|destruct (q =? 31)]]]; reflexivity.
    - pose proof (is32_not c0 I0). pose proof (is32_not c1 I1). unfold ctr256. destruct (q =? 4); [|destruct (q =? 14); [|destruct (q =? 21); [|destruct (q =? 31)]]]; unfold xorw; cbn [combine map fst snd]; repeat constructor; apply lxor_is32; auto; reflexivity.
    - unfold rk2, ctr256. destruct (Nat.eqb_spec q 4) as [->|N4]; [|destruct (Nat.eqb_spec q 14) as [->|N14]].
      + change (4 * 4 =? 16) with true. cbv iota. change (4 * 4) with 16 in *. change 17 with (16 + 1) at 1. rewrite (xat_ok _ w [N.lxor ta c0; tb; tc; td] 16 1); [cbn; now rewrite !N.lxor_0_r|auto|auto| |rewrite xat_length; lia|lia].
        change (sv_xat rk1 16 c0) with (sv_xat rk1 (16 + 0) c0). rewrite (xat_ok _ w [ta; tb; tc; td] 16 0); auto; lia.
      + change (4 * 14 =? 16) with false. change (4 * 14 =? 56) with true. cbv iota. change (4 * 14) with 56 in *. change 58 with (56 + 2) at 1. rewrite (xat_ok _ w [ta; N.lxor tb c1; tc; td] 56 2); [cbn; now rewrite !N.lxor_0_r|auto|auto| |rewrite xat_length; lia|lia].
        change (sv_xat rk1 57 c1) with (sv_xat rk1 (56 + 1) c1). rewrite (xat_ok _ w [ta; tb; tc; td] 56 1); auto; lia.
      + assert (q <> 21) by (intros ->; discriminate Ev). assert (q <> 31) by (intros ->; discriminate Ev). rewrite (proj2 (Nat.eqb_neq q 21)), (proj2 (Nat.eqb_neq q 31)) by assumption.
        rewrite (proj2 (Nat.eqb_neq (4 * q) 16)), (proj2 (Nat.eqb_neq (4 * q) 56)) by lia. unfold xorw. cbn [combine map fst snd]. rewrite !N.lxor_0_r. exact E1. }
  clearbody rk2. clear EF E1 L1 rk1 It It1 It2 It3 It4 i0 i1 i2 i3 Lw Hw rk. set (w1 := F256 c0 c1 w q) in *. clearbody w1. clear w ta tb tc td Lt. rename w1 into w.
  destruct (nl_ok 144 4 rk2 (4 * q + 4) (S q) w P2 ltac:(lia) ltac:(lia)) as (L1 & E1 & Lt & It). change (4 * 4) with 16 in *. destruct P2 as (_ & Eu & Lw & _ & Hw). cbn [fst snd] in *.
  set (rk1 := sv_nl 16 rk2 (4 * q + 4)) in *. clearbody rk1. set (t := xorw (aes_quad (rot_quad (quads w (S q - 4)))) (quads w (S q - 1))) in *.
  assert (EF : F256 c0 c1 w (S q) = w ++ xorw t (ctr256 c0 c1 (S q))) by (unfold F256; rewrite O2; reflexivity). clearbody t.
  destruct t as [|ta [|tb [|tc [|td [|? ?]]]]]; try discriminate Lt.
  inversion It as [|? ? i0 It1]; subst. inversion It1 as [|? ? i1 It2]; subst. inversion It2 as [|? ? i2 It3]; subst. inversion It3 as [|? ? i3 It4]; subst.
  rewrite EF. apply pre_mk; auto; try lia.
  - destruct (4 * q + 4 =? 84); [|destruct (4 * q + 4 =? 124)]; rewrite ?xat_length; exact L1.
  - unfold ctr256. destruct (S q =? 4); [|destruct (S q =? 14); [|destruct (S q =? 21); [|destruct (S q =? 31)]]]; reflexivity.
  - pose proof (is32_not c0 I0). pose proof (is32_not c1 I1). unfold ctr256. destruct (S q =? 4); [|destruct (S q =? 14); [|destruct (S q =? 21); [|destruct (S q =? 31)]]]; unfold xorw; cbn [combine map fst snd]; repeat constructor; apply lxor_is32; auto; reflexivity.
  - unfold ctr256. destruct (Nat.eqb_spec (S q) 4) as [Q4|N4]; [replace q with 3 in Ev by lia; discriminate Ev|]. destruct (Nat.eqb_spec (S q) 14) as [Q4|N14]; [replace q with 13 in Ev by lia; discriminate Ev|].
    destruct (Nat.eqb_spec (S q) 21) as [Q|N21]; [|destruct (Nat.eqb_spec (S q) 31) as [Q|N31]].
    + assert (q = 20) by lia. subst q. change (4 * 20 + 4 =? 84) with true. cbv iota. change (4 * 21) with 84 in *. change 87 with (84 + 3) at 1. rewrite (xat_ok _ w [ta; tb; N.lxor tc c1; td] 84 3); [cbn; now rewrite !N.lxor_0_r|auto|auto| |rewrite xat_length; lia|lia].
      change (sv_xat rk1 86 c1) with (sv_xat rk1 (84 + 2) c1). rewrite (xat_ok _ w [ta; tb; tc; td] 84 2); auto; lia.
    + assert (q = 30) by lia. subst q. change (4 * 30 + 4 =? 84) with false. change (4 * 30 + 4 =? 124) with true. cbv iota. change (4 * 31) with 124 in *. change 127 with (124 + 3) at 1. rewrite (xat_ok _ w [N.lxor ta c0; tb; tc; td] 124 3); [cbn; now rewrite !N.lxor_0_r|auto|auto| |rewrite xat_length; lia|lia].
      change (sv_xat rk1 124 c0) with (sv_xat rk1 (124 + 0) c0). rewrite (xat_ok _ w [ta; tb; tc; td] 124 0); auto; lia.
    + rewrite (proj2 (Nat.eqb_neq (4 * q + 4) 84)), (proj2 (Nat.eqb_neq (4 * q + 4) 124)) by lia. unfold xorw. cbn [combine map fst snd]. rewrite !N.lxor_0_r. exact E1.
Qed.

Lemma lin_step : forall depth lin (rk w : list N) u, 1 <= lin <= 4 * depth -> 4 * depth <= u -> length w = u -> firstn u rk = w -> u < length rk -> Forall is32 w ->
  let w' := linear_word depth lin w in let rk' := upd rk u (N.lxor (at_ rk (u - 4 * depth)) (at_ rk (u - lin))) in
  length w' = S u /\ firstn (S u) rk' = w' /\ length rk' = length rk /\ Forall is32 w'.
Proof.
  intros depth lin rk w u Hl Hd Lw Ew Hu Hw w' rk'. unfold w', rk', linear_word. rewrite !(at_pre rk w u) by (auto; lia). rewrite Lw.
  split; [rewrite app_length, Lw; cbn [length]; lia|]. split; [now apply grow|]. split; [apply upd_length|]. apply Forall_app. split; [exact Hw|]. repeat constructor. apply lxor_is32; now apply at_is32.
Qed.
Lemma lin4 : forall n depth lin (rk w : list N) u q, 4 <= 4 * depth -> 1 <= lin <= 4 * depth -> depth <= q -> 4 * q + 4 <= n -> pre n (rk, u) q w ->
  pre n (let st := (rk, u) in let '(rk, u) := st in
  let rk := upd rk u (N.lxor (at_ rk (u - 4 * depth)) (at_ rk (u - lin))) in
  let rk := upd rk (u + 1) (N.lxor (at_ rk (u + 1 - 4 * depth)) (at_ rk (u + 1 - lin))) in
  let rk := upd rk (u + 2) (N.lxor (at_ rk (u + 2 - 4 * depth)) (at_ rk (u + 2 - lin))) in
  let rk := upd rk (u + 3) (N.lxor (at_ rk (u + 3 - 4 * depth)) (at_ rk (u + 3 - lin))) in
  (rk, u + 4)) (S q) (linear depth lin w).
Proof.
  intros n depth lin rk w u q H4 Hl Hq Hn (Ln & Eu & Lw & Ew & Hw). cbn [fst snd] in *. subst u. cbv zeta.
  destruct (lin_step depth lin rk w (4 * q) Hl ltac:(lia) Lw Ew ltac:(lia) Hw) as (A1 & A2 & A3 & A4).
  set (rk1 := upd rk (4 * q) (N.lxor (at_ rk (4 * q - 4 * depth)) (at_ rk (4 * q - lin)))) in *. set (w1 := linear_word depth lin w) in *. clearbody rk1. replace (4 * q + 1) with (S (4 * q)) by lia.
  destruct (lin_step depth lin rk1 w1 (S (4 * q)) Hl ltac:(lia) A1 A2 ltac:(lia) A4) as (B1 & B2 & B3 & B4).
  set (rk2 := upd rk1 (S (4 * q)) (N.lxor (at_ rk1 (S (4 * q) - 4 * depth)) (at_ rk1 (S (4 * q) - lin)))) in *. set (w2 := linear_word depth lin w1) in *. clearbody rk2. replace (4 * q + 2) with (S (S (4 * q))) by lia.
  destruct (lin_step depth lin rk2 w2 (S (S (4 * q))) Hl ltac:(lia) B1 B2 ltac:(lia) B4) as (C1 & C2 & C3 & C4).
  set (rk3 := upd rk2 (S (S (4 * q))) (N.lxor (at_ rk2 (S (S (4 * q)) - 4 * depth)) (at_ rk2 (S (S (4 * q)) - lin)))) in *. set (w3 := linear_word depth lin w2) in *. clearbody rk3. replace (4 * q + 3) with (S (S (S (4 * q)))) by lia.
  destruct (lin_step depth lin rk3 w3 (S (S (S (4 * q)))) Hl ltac:(lia) C1 C2 ltac:(lia) C4) as (D1 & D2 & D3 & D4).
  set (rk4 := upd rk3 (S (S (S (4 * q)))) _) in *. replace (4 * q + 4) with (S (S (S (S (4 * q))))) by lia.
  unfold pre. cbn [fst snd]. replace (4 * S q) with (S (S (S (S (4 * q))))) by lia. split; [lia|]. split; [reflexivity|]. change (linear depth lin w) with (linear_word depth lin w3). auto.
Qed.
Lemma l256_ok : forall c0 c1 st q w, Nat.odd (q / 4) = false -> 4 <= q -> 4 * q + 4 <= 144 -> pre 144 st q w -> pre 144 (sv256_l st) (S q) (F256 c0 c1 w q).
Proof.
  intros c0 c1 [rk u] q w O Hq Hn HP. pose proof (lin4 144 4 3 rk w u q ltac:(lia) ltac:(lia) Hq Hn HP) as H. unfold F256. rewrite O. destruct HP as (_ & Eu & _). cbn [snd] in Eu. subst u. unfold sv256_l.
  change (4 * 4) with 16 in H. cbv beta iota zeta in *. replace (4 * q + 1 - 16) with (4 * q - 15) in H by lia. replace (4 * q + 1 - 3) with (4 * q - 2) in H by lia. replace (4 * q + 2 - 16) with (4 * q - 14) in H by lia. replace (4 * q + 2 - 3) with (4 * q - 1) in H by lia.
  replace (4 * q + 3 - 16) with (4 * q - 13) in H by lia. replace (4 * q + 3 - 3) with (4 * q - 0) in H by lia. exact H.
Qed.

Lemma load_ok : forall n rk data u q w, u = 4 * q -> length rk = n -> length w = 4 * q -> firstn (4 * q) rk = w -> 4 * q + 4 <= n ->
  length (sv_load rk data u) = n /\ firstn (4 * S q) (sv_load rk data u) = w ++ map (fun i => le_val (slice data (4 * i) (4 * i + 4))) (seq (4 * q) 4).
Proof.
  intros n rk data u q w -> Ln Lw Ew Hn. unfold sv_load. split; [now rewrite !upd_length|]. replace (4 * S q) with (4 * q + 4) by lia. rewrite (fill4 rk w) by (auto || lia). f_equal. cbn [seq map].
  replace (4 * S (4 * q)) with (4 * (4 * q) + 4) by lia. replace (4 * S (S (4 * q))) with (4 * (4 * q) + 8) by lia. replace (4 * S (S (S (4 * q)))) with (4 * (4 * q) + 12) by lia.
  replace (4 * (4 * q) + 4 + 4) with (4 * (4 * q) + 8) by lia. replace (4 * (4 * q) + 8 + 4) with (4 * (4 * q) + 12) by lia. replace (4 * (4 * q) + 12 + 4) with (4 * (4 * q) + 16) by lia. reflexivity.
Qed.
Lemma loads_ok : forall n data k, 4 * k <= n -> forall rk, length rk = n ->
  let rk' := fold_left (fun rk u => sv_load rk data u) (map (fun i => 4 * i) (seq 0 k)) rk in
  length rk' = n /\ firstn (4 * k) rk' = map (fun i => le_val (slice data (4 * i) (4 * i + 4))) (seq 0 (4 * k)).
Proof.
  intros n data. induction k as [|k IH]; intros Hk rk Ln; [split; [exact Ln|reflexivity]|].
  rewrite seq_S, map_app, fold_left_app. cbn [map fold_left Nat.add]. destruct (IH ltac:(lia) rk Ln) as [A B].
  set (rk1 := fold_left _ _ rk) in *. clearbody rk1. destruct (load_ok n rk1 data (4 * k) k _ eq_refl A ltac:(rewrite map_length, seq_length; reflexivity) B ltac:(lia)) as [C D].
  split; [exact C|]. rewrite D. rewrite <- map_app. f_equal. replace (4 * S k) with (4 * k + 4) by lia. rewrite seq_app. reflexivity.
Qed.
Lemma slices_words : forall data n, length data = 4 * n -> map (fun i => le_val (slice data (4 * i) (4 * i + 4))) (seq 0 n) = le_words data.
Proof.
  intros data n L. unfold le_words, chunks. rewrite L. replace (4 * n / 4) with n by (rewrite Nat.mul_comm, Nat.div_mul; lia). rewrite map_map. apply map_ext. intro i. unfold slice. replace (4 * i + 4 - 4 * i) with 4 by lia. now rewrite (Nat.mul_comm 4 i).
Qed.
Lemma le_words_is32 : forall data, isbytes data -> Forall is32 (le_words data).
Proof.
  intros data H. unfold le_words. apply Forall_map. apply Forall_forall. intros c Hc. unfold chunks in Hc. apply in_map_iff in Hc. destruct Hc as (i & <- & Hi).
  unfold is32. eapply N.lt_le_trans; [apply le_val_lt; apply isbytes_firstn, isbytes_skipn, H|]. apply N.pow_le_mono_r; [discriminate|]. pose proof (firstn_le_length 4 (skipn (i * 4) data)). lia.
Qed.
Lemma expand256_F : forall c0 c1 w, expand 4 3 36 (ctr256 c0 c1) w = fold_left (F256 c0 c1) (seq 4 32) w.
Proof. intros. unfold expand. change (36 - 4) with 32. apply fold_left_ext_in. intros. reflexivity. Qed.
Theorem expand256_ok : forall c0 c1 rk data, is32 c0 -> is32 c1 -> length rk = 144 -> length data = 64 -> isbytes data ->
  sv256_expand c0 c1 rk data = expand 4 3 36 (ctr256 c0 c1) (le_words data) /\ length (sv256_expand c0 c1 rk data) = 144 /\ Forall is32 (sv256_expand c0 c1 rk data).
Proof.
  intros c0 c1 rk data I0 I1 Lrk Ld Hd. unfold sv256_expand. destruct (loads_ok 144 data 4 ltac:(lia) rk Lrk) as [A B].
  change (map (fun i => 4 * i) (seq 0 4)) with [0; 4; 8; 12] in *. set (rk1 := fold_left _ _ rk) in *. clearbody rk1. rewrite slices_words in B by exact Ld.
  assert (P0 : pre 144 (rk1, 16) 4 (le_words data)).
  { unfold pre. cbn [fst snd]. split; [exact A|]. split; [reflexivity|]. split; [|split; [exact B|now apply le_words_is32]]. change (4 * 4) with 16 in *. rewrite <- B, firstn_length. lia. }
  set (w0 := le_words data) in *. clearbody w0.
  assert (PF : pre 144 (Nat.iter 4 (fun st => Nat.iter 4 sv256_l (Nat.iter 2 (sv256_s c0 c1) st)) (rk1, 16)) 36 (fold_left (F256 c0 c1) (seq 4 32) w0)).
  { set (s0 := (rk1, 16)) in *. clearbody s0. cbn [Nat.iter nat_rect seq fold_left]. clear A B Lrk.
    do 4 (do 4 (apply (l256_ok c0 c1); [reflexivity|lia|lia|]); do 2 (apply (s256_ok c0 c1); [exact I0|exact I1|reflexivity|reflexivity|reflexivity|lia|lia|])). exact P0. }
  destruct PF as (L & _ & Lw & E & F). change (4 * 36) with 144 in *. rewrite firstn_all2 in E by lia. rewrite E, expand256_F. split; [reflexivity|]. split; [exact Lw|exact F].
Qed.

(** ** Rounds *)
Definition q32 (q : N * N * N * N) : Prop := Forall is32 (sv_list q).
Lemma q32_inv : forall a b c d, q32 (a, b, c, d) -> is32 a /\ is32 b /\ is32 c /\ is32 d.
Proof. intros a b c d H. unfold q32, sv_list in H. repeat match goal with X : Forall _ (_ :: _) |- _ => apply Forall_cons_iff in X; destruct X as [? X] end. auto. Qed.
Lemma g_ok : forall w j u q, Forall is32 w -> u = 4 * j -> 4 * j + 4 <= length w -> q32 q -> sv_list (sv_g w u q) = aes_quad (xorw (sv_list q) (quads w j)) /\ q32 (sv_g w u q).
Proof.
  intros w j u [[[a b] c] d] Hw -> Hj Hq. destruct (q32_inv _ _ _ _ Hq) as (Ha & Hb & Hc & Hd). unfold sv_g. pose proof (fun i => at_is32 w i Hw) as I.
  rewrite quads_at by exact Hj. unfold sv_list at 2, xorw. cbn [combine map fst snd]. split; [apply sv_t_ok|apply sv_t_is32]; apply lxor_is32; auto.
Qed.
Lemma x_ok : forall p t, sv_list (sv_x p t) = xorw (sv_list p) (sv_list t).
Proof. intros [[[a b] c] d] [[[a' b'] c'] d']. reflexivity. Qed.
Lemma x_32 : forall p t, q32 p -> q32 t -> q32 (sv_x p t).
Proof. intros [[[a b] c] d] [[[a' b'] c'] d'] H1 H2. apply q32_inv in H1, H2. destruct H1 as (? & ? & ? & ?), H2 as (? & ? & ? & ?). unfold q32, sv_x, sv_list. repeat constructor; now apply lxor_is32. Qed.
Lemma F3_ok : forall w i u q, Forall is32 w -> u = 4 * i -> 4 * i + 12 <= length w -> q32 q -> sv_list (sv_g w (u + 8) (sv_g w (u + 4) (sv_g w u q))) = sv_F w i 3 (sv_list q) /\ q32 (sv_g w (u + 8) (sv_g w (u + 4) (sv_g w u q))).
Proof.
  intros w i u q Hw Eu Hi Hq. destruct (g_ok w i u q Hw Eu ltac:(lia) Hq) as [E1 Q1]. destruct (g_ok w (S i) (u + 4) _ Hw ltac:(lia) ltac:(lia) Q1) as [E2 Q2]. destruct (g_ok w (S (S i)) (u + 8) _ Hw ltac:(lia) ltac:(lia) Q2) as [E3 Q3].
  split; [|exact Q3]. unfold sv_F. cbn [seq fold_left]. now rewrite E3, E2, E1.
Qed.
Lemma F4_ok : forall w i u q, Forall is32 w -> u = 4 * i -> 4 * i + 16 <= length w -> q32 q -> sv_list (sv_g w (u + 12) (sv_g w (u + 8) (sv_g w (u + 4) (sv_g w u q)))) = sv_F w i 4 (sv_list q) /\ q32 (sv_g w (u + 12) (sv_g w (u + 8) (sv_g w (u + 4) (sv_g w u q)))).
Proof.
  intros w i u q Hw Eu Hi Hq. destruct (F3_ok w i u q Hw Eu ltac:(lia) Hq) as [E1 Q1]. destruct (g_ok w (S (S (S i))) (u + 12) _ Hw ltac:(lia) ltac:(lia) Q1) as [E2 Q2].
  split; [|exact Q2]. rewrite E2, E1. reflexivity.
Qed.
Opaque sv_F.
Definition R256 (w : list N) (s : list N * list N) (i : nat) : list N * list N := let '(L, R) := s in (R, xorw L (sv_F w (3 * i) 3 R)).
Definition rel256 (k : nat) (st : (N * N * N * N) * (N * N * N * N) * nat) (s : list N * list N) : Prop :=
  let '(p, q, u) := st in u = 24 * k /\ q32 p /\ q32 q /\ s = (sv_list p, sv_list q).
Lemma round256_ok : forall w k st s, Forall is32 w -> length w = 144 -> 24 * k + 24 <= 144 -> rel256 k st s -> rel256 (S k) (sv256_round w st) (R256 w (R256 w s (2 * k)) (2 * k + 1)).
Proof.
  intros w k [[p q] u] s Hw Lw Hk (-> & Hp & Hq & ->). unfold sv256_round, R256.
  destruct (F3_ok w (3 * (2 * k)) (24 * k) q Hw ltac:(lia) ltac:(lia) Hq) as [E1 Q1]. set (t1 := sv_g w (24 * k + 8) _) in *. clearbody t1.
  assert (Hp' := x_32 p t1 Hp Q1). assert (Ep := x_ok p t1). set (p' := sv_x p t1) in *. clearbody p'.
  destruct (F3_ok w (3 * (2 * k + 1)) (24 * k + 12) p' Hw ltac:(lia) ltac:(lia) Hp') as [E2 Q2]. set (t2 := sv_g w (24 * k + 12 + 8) _) in *. clearbody t2.
  unfold rel256. split; [lia|]. split; [exact Hp'|]. split; [now apply x_32|]. rewrite <- E1, <- Ep, <- E2, x_ok. reflexivity.
Qed.
Lemma sv_quad_ok : forall h i, Forall is32 h -> 4 * i + 4 <= length h -> sv_list (sv_quad h (4 * i)) = quads h i /\ q32 (sv_quad h (4 * i)).
Proof. intros h i Hh Hi. unfold sv_quad. split; [rewrite quads_at by exact Hi; reflexivity|]. unfold q32, sv_list. repeat constructor; now apply at_is32. Qed.
Lemma xorw_app : forall a b c d, length a = length c -> xorw (a ++ b) (c ++ d) = xorw a c ++ xorw b d.
Proof. intros a b c d L. unfold xorw. rewrite <- map_app. f_equal. revert c L. induction a; intros [|x c] L; try discriminate L; [reflexivity|]. cbn [app combine]. f_equal. apply IHa. now injection L. Qed.
Lemma sv_list_length : forall q, length (sv_list q) = 4.
Proof. intros [[[a b] c] d]. reflexivity. Qed.
Lemma quads2 : forall h : list N, length h = 8 -> h = quads h 0 ++ quads h 1.
Proof. intros h L. do 8 (destruct h as [|? h]; [discriminate L|]). destruct h; [reflexivity|discriminate L]. Qed.
Lemma quads4 : forall h : list N, length h = 16 -> h = quads h 0 ++ quads h 1 ++ quads h 2 ++ quads h 3.
Proof. intros h L. do 16 (destruct h as [|? h]; [discriminate L|]). destruct h; [reflexivity|discriminate L]. Qed.
Opaque sv256_round R256 sv256_expand expand.
Lemma w32_is : forall x, is32 (w32 x). Proof. exact w32_is32. Qed.
Theorem process256_ok : forall h rk data c, length h = 8 -> Forall is32 h -> length rk = 144 -> length data = 64 -> isbytes data ->
  exists rk', sv256_process (h, rk) data (cw c 0) (cw c 1) = (C256 h data c, rk') /\ length rk' = 144 /\ length (C256 h data c) = 8 /\ Forall is32 (C256 h data c).
Proof.
  intros h rk data c Lh Hh Lrk Ld Hd. unfold sv256_process. destruct (expand256_ok (cw c 0) (cw c 1) rk data (w32_is _) (w32_is _) Lrk Ld Hd) as (E & L & I). rewrite E in *. clear E.
  unfold C256, keys256. set (w := expand 4 3 36 _ _) in *. clearbody w.
  destruct (sv_quad_ok h 0 Hh ltac:(lia)) as [A1 A2]. destruct (sv_quad_ok h 1 Hh ltac:(lia)) as [B1 B2]. change (4 * 0) with 0 in *. change (4 * 1) with 4 in *.
  assert (PF : rel256 6 (Nat.iter 6 (sv256_round w) (sv_quad h 0, sv_quad h 4, 0)) (fold_left (R256 w) (seq 0 12) (quads h 0, quads h 1))).
  { set (s0 := (quads h 0, quads h 1)). assert (P0 : rel256 0 (sv_quad h 0, sv_quad h 4, 0) s0) by (unfold rel256, s0; rewrite A1, B1; auto). set (st0 := (sv_quad h 0, sv_quad h 4, 0)) in *. clearbody st0 s0.
    cbn [Nat.iter nat_rect seq fold_left].
    apply (round256_ok w 5); [exact I|exact L|lia|]. apply (round256_ok w 4); [exact I|exact L|lia|]. apply (round256_ok w 3); [exact I|exact L|lia|]. apply (round256_ok w 2); [exact I|exact L|lia|]. apply (round256_ok w 1); [exact I|exact L|lia|]. apply (round256_ok w 0); [exact I|exact L|lia|]. exact P0. }
  assert (EE : E256 w h = let '(L, R) := fold_left (R256 w) (seq 0 12) (quads h 0, quads h 1) in L ++ R) by reflexivity. rewrite EE.
  destruct (Nat.iter 6 (sv256_round w) (sv_quad h 0, sv_quad h 4, 0)) as [[p q] u]. destruct PF as (_ & Hp & Hq & Es). rewrite Es.
  assert (EX : sv_list (sv_x (sv_quad h 0) p) ++ sv_list (sv_x (sv_quad h 4) q) = xorw h (sv_list p ++ sv_list q)).
  { rewrite !x_ok, A1, B1. transitivity (xorw (quads h 0 ++ quads h 1) (sv_list p ++ sv_list q)); [|now rewrite <- (quads2 h Lh)]. rewrite xorw_app; [reflexivity|]. rewrite <- A1, !sv_list_length. reflexivity. }
  exists w. rewrite EX. split; [reflexivity|]. split; [exact L|]. rewrite <- EX. split; [rewrite app_length, !sv_list_length; reflexivity|]. apply Forall_app. split; now apply x_32.
Qed.

(** ** 512 *)
Transparent expand.
Definition F512 (c0 c1 c2 c3 : N) (w : list N) (q : nat) : list N := if Nat.odd (q / 8) then nonlinear 8 w (ctr512 c0 c1 c2 c3 q) q else linear 8 7 w.
Lemma upd_xor0 : forall t : list N, length t = 4 -> forall j, upd t j (N.lxor (at_ t j) 0) = t.
Proof.
  intros t Lt j. rewrite N.lxor_0_r. destruct t as [|a [|b [|c [|d [|? ?]]]]]; try discriminate Lt. destruct j as [|[|[|[|?]]]]; reflexivity.
Qed.
Lemma ctr512_ok : forall c0 c1 c2 q, is32 c0 -> is32 c1 -> is32 c2 -> length (ctr512 c0 c1 c2 0 q) = 4 /\ Forall is32 (ctr512 c0 c1 c2 0 q).
Proof.
  intros c0 c1 c2 q I0 I1 I2. pose proof (is32_not _ I0). pose proof (is32_not _ I1). pose proof (is32_not _ I2). assert (is32 0) by reflexivity. pose proof (is32_not _ H2).
  unfold ctr512. destruct (q =? 8); [|destruct (q =? 41); [|destruct (q =? 79); [|destruct (q =? 110)]]]; (split; [reflexivity|repeat constructor; assumption]).
Qed.
Lemma xorw4_32 : forall s t, length s = 4 -> length t = 4 -> Forall is32 s -> Forall is32 t -> length (xorw s t) = 4 /\ Forall is32 (xorw s t).
Proof.
  intros s t Ls Lt Hs Ht. destruct s as [|a [|b [|c [|d [|? ?]]]]]; try discriminate Ls. destruct t as [|a' [|b' [|c' [|d' [|? ?]]]]]; try discriminate Lt.
  repeat match goal with X : Forall _ (_ :: _) |- _ => apply Forall_cons_iff in X; destruct X as [? X] end. split; [reflexivity|]. unfold xorw. cbn [combine map fst snd]. repeat constructor; now apply lxor_is32.
Qed.
(** A non-linear quad followed by the counter xors, in the form used by both halves of the loop body. *)
Lemma nlx512 : forall c0 c1 c2 rk u q w rk2, is32 c0 -> is32 c1 -> is32 c2 -> Nat.odd (q / 8) = true -> 8 <= q -> 4 * q + 4 <= 448 -> pre 448 (rk, u) q w ->
  (forall ta tb tc td, length (sv_nl 32 rk u) = 448 -> firstn (4 * q + 4) (sv_nl 32 rk u) = w ++ [ta; tb; tc; td] -> length w = 4 * q ->
     length rk2 = 448 /\ firstn (4 * q + 4) rk2 = w ++ xorw [ta; tb; tc; td] (ctr512 c0 c1 c2 0 q)) ->
  pre 448 (rk2, u + 4) (S q) (F512 c0 c1 c2 0 w q).
Proof.
  intros c0 c1 c2 rk u q w rk2 I0 I1 I2 O Hq Hb HP HX.
  destruct (nl_ok 448 8 rk u q w HP ltac:(lia) ltac:(lia)) as (L1 & E1 & Lt & It). change (4 * 8) with 32 in *. destruct HP as (_ & Eu & Lw & _ & Hw). cbn [fst snd] in *. subst u.
  set (t := xorw (aes_quad (rot_quad (quads w (q - 8)))) (quads w (q - 1))) in *.
  assert (EF : F512 c0 c1 c2 0 w q = w ++ xorw t (ctr512 c0 c1 c2 0 q)) by (unfold F512; rewrite O; reflexivity). clearbody t. rewrite EF.
  destruct (ctr512_ok c0 c1 c2 q I0 I1 I2) as [C1 C2]. destruct (xorw4_32 t _ Lt C1 It C2) as [D1 D2].
  destruct t as [|ta [|tb [|tc [|td [|? ?]]]]]; try discriminate Lt. destruct (HX ta tb tc td L1 E1 Lw) as [A B]. apply pre_mk; auto.
Qed.
Lemma s512_ok : forall c0 c1 c2 st q w, is32 c0 -> is32 c1 -> is32 c2 -> Nat.even q = true -> Nat.odd (q / 8) = true -> Nat.odd (S q / 8) = true -> 8 <= q -> 4 * q + 8 <= 448 ->
  pre 448 st q w -> pre 448 (sv512_s c0 c1 c2 st) (S (S q)) (F512 c0 c1 c2 0 (F512 c0 c1 c2 0 w q) (S q)).
Proof.
  intros c0 c1 c2 [rk u] q w I0 I1 I2 Ev O1 O2 Hq Hb HP. unfold sv512_s. assert (Eu : u = 4 * q) by (destruct HP as (_ & E & _); exact E). subst u.
  match goal with |- context [if 4 * q =? 32 then ?a else ?b] => set (rk2 := if 4 * q =? 32 then a else b) end.
  assert (P2 : pre 448 (rk2, 4 * q + 4) (S q) (F512 c0 c1 c2 0 w q)).
  { apply (nlx512 c0 c1 c2 rk); [exact I0|exact I1|exact I2|exact O1|lia|lia|exact HP|]. intros ta tb tc td L1 E1 Lw. set (rk1 := sv_nl 32 rk (4 * q)) in *. clearbody rk1. split.
    - unfold rk2. destruct (4 * q =? 32); [|destruct (4 * q =? 440)]; rewrite ?xat_length; exact L1.
    - unfold rk2, ctr512. destruct (Nat.eqb_spec q 8) as [->|N8]; [|destruct (Nat.eqb_spec q 110) as [->|N110]].
      + change (4 * 8 =? 32) with true. cbv iota. change (4 * 8) with 32 in *. change (sv_xat (sv_xat (sv_xat (sv_xat rk1 32 c0) 33 c1) 34 c2) 35 4294967295) with (sv_xat (sv_xat (sv_xat (sv_xat rk1 (32 + 0) c0) (32 + 1) c1) (32 + 2) c2) (32 + 3) 4294967295).
        rewrite (xat_ok _ w [N.lxor ta c0; N.lxor tb c1; N.lxor tc c2; td] 32 3); [reflexivity|auto|auto| |rewrite ?xat_length; lia|lia].
        rewrite (xat_ok _ w [N.lxor ta c0; N.lxor tb c1; tc; td] 32 2); [reflexivity|auto|auto| |rewrite ?xat_length; lia|lia].
        rewrite (xat_ok _ w [N.lxor ta c0; tb; tc; td] 32 1); [reflexivity|auto|auto| |rewrite ?xat_length; lia|lia].
        rewrite (xat_ok _ w [ta; tb; tc; td] 32 0); [reflexivity|auto|auto|auto|rewrite ?xat_length; lia|lia].
      + change (4 * 110 =? 32) with false. change (4 * 110 =? 440) with true. change (110 =? 41) with false. change (110 =? 79) with false. cbv iota. change (4 * 110) with 440 in *.
        change (sv_xat (sv_xat (sv_xat rk1 440 c1) 441 c0) 443 (not32 c2)) with (sv_xat (sv_xat (sv_xat rk1 (440 + 0) c1) (440 + 1) c0) (440 + 3) (not32 c2)).
        rewrite (xat_ok _ w [N.lxor ta c1; N.lxor tb c0; tc; td] 440 3); [cbn; now rewrite !N.lxor_0_r|auto|auto| |rewrite ?xat_length; lia|lia].
        rewrite (xat_ok _ w [N.lxor ta c1; tb; tc; td] 440 1); [reflexivity|auto|auto| |rewrite ?xat_length; lia|lia].
        rewrite (xat_ok _ w [ta; tb; tc; td] 440 0); [reflexivity|auto|auto|auto|rewrite ?xat_length; lia|lia].
      + assert (q <> 41) by (intros ->; discriminate Ev). assert (q <> 79) by (intros ->; discriminate Ev). rewrite (proj2 (Nat.eqb_neq q 41)), (proj2 (Nat.eqb_neq q 79)) by assumption.
        rewrite (proj2 (Nat.eqb_neq (4 * q) 32)), (proj2 (Nat.eqb_neq (4 * q) 440)) by lia. unfold xorw. cbn [combine map fst snd]. rewrite !N.lxor_0_r. exact E1. }
  clearbody rk2. clear HP rk. set (w1 := F512 c0 c1 c2 0 w q) in *. clearbody w1. clear w. rename w1 into w.
  replace (4 * q + 4) with (4 * S q) in * by lia.
  apply (nlx512 c0 c1 c2 rk2); [exact I0|exact I1|exact I2|exact O2|lia|lia|exact P2|]. intros ta tb tc td L1 E1 Lw. set (rk1 := sv_nl 32 rk2 (4 * S q)) in *. clearbody rk1. split.
  - destruct (4 * S q =? 164); [|destruct (4 * S q =? 316)]; rewrite ?xat_length; exact L1.
  - unfold ctr512. destruct (Nat.eqb_spec (S q) 8) as [Q4|N4]; [replace q with 7 in Ev by lia; discriminate Ev|].
    destruct (Nat.eqb_spec (S q) 41) as [Q|N41]; [|destruct (Nat.eqb_spec (S q) 79) as [Q|N79]].
    + assert (q = 40) by lia. subst q. change (4 * 41 =? 164) with true. cbv iota. change (4 * 41) with 164 in *. change (sv_xat (sv_xat (sv_xat rk1 165 c2) 166 c1) 167 (not32 c0)) with (sv_xat (sv_xat (sv_xat rk1 (164 + 1) c2) (164 + 2) c1) (164 + 3) (not32 c0)).
      rewrite (xat_ok _ w [ta; N.lxor tb c2; N.lxor tc c1; td] 164 3); [cbn; now rewrite !N.lxor_0_r|auto|auto| |rewrite ?xat_length; lia|lia].
      rewrite (xat_ok _ w [ta; N.lxor tb c2; tc; td] 164 2); [reflexivity|auto|auto| |rewrite ?xat_length; lia|lia].
      rewrite (xat_ok _ w [ta; tb; tc; td] 164 1); [reflexivity|auto|auto|auto|rewrite ?xat_length; lia|lia].
    + assert (q = 78) by lia. subst q. change (4 * 79 =? 164) with false. change (4 * 79 =? 316) with true. cbv iota. change (4 * 79) with 316 in *. change (sv_xat (sv_xat (sv_xat rk1 316 c2) 318 c0) 319 (not32 c1)) with (sv_xat (sv_xat (sv_xat rk1 (316 + 0) c2) (316 + 2) c0) (316 + 3) (not32 c1)).
      rewrite (xat_ok _ w [N.lxor ta c2; tb; N.lxor tc c0; td] 316 3); [cbn; now rewrite !N.lxor_0_r|auto|auto| |rewrite ?xat_length; lia|lia].
      rewrite (xat_ok _ w [N.lxor ta c2; tb; tc; td] 316 2); [reflexivity|auto|auto| |rewrite ?xat_length; lia|lia].
      rewrite (xat_ok _ w [ta; tb; tc; td] 316 0); [reflexivity|auto|auto|auto|rewrite ?xat_length; lia|lia].
    + destruct (Nat.eqb_spec (S q) 110) as [Q4|N110]; [replace q with 109 in Ev by lia; discriminate Ev|].
      rewrite (proj2 (Nat.eqb_neq (4 * S q) 164)), (proj2 (Nat.eqb_neq (4 * S q) 316)) by lia. unfold xorw. cbn [combine map fst snd]. rewrite !N.lxor_0_r. exact E1.
Qed.
Lemma l512_ok : forall c0 c1 c2 st q w, Nat.odd (q / 8) = false -> 8 <= q -> 4 * q + 4 <= 448 -> pre 448 st q w -> pre 448 (sv512_l st) (S q) (F512 c0 c1 c2 0 w q).
Proof.
  intros c0 c1 c2 [rk u] q w O Hq Hn HP. pose proof (lin4 448 8 7 rk w u q ltac:(lia) ltac:(lia) Hq Hn HP) as H. unfold F512. rewrite O. destruct HP as (_ & Eu & _). cbn [snd] in Eu. subst u. unfold sv512_l.
  change (4 * 8) with 32 in H. cbv beta iota zeta in *. replace (4 * q + 1 - 32) with (4 * q - 31) in H by lia. replace (4 * q + 1 - 7) with (4 * q - 6) in H by lia. replace (4 * q + 2 - 32) with (4 * q - 30) in H by lia. replace (4 * q + 2 - 7) with (4 * q - 5) in H by lia.
  replace (4 * q + 3 - 32) with (4 * q - 29) in H by lia. replace (4 * q + 3 - 7) with (4 * q - 4) in H by lia. exact H.
Qed.
(** One group of 8 non-linear quads starting at quad 16k+8, and one of 8 linear quads starting at 16k+16. *)
Lemma odd_nl : forall k j, j < 8 -> Nat.odd ((16 * k + 8 + j) / 8) = true.
Proof. intros k j H. replace (16 * k + 8 + j) with (j + (2 * k + 1) * 8) by lia. rewrite Nat.div_add, Nat.div_small by lia. cbn [Nat.add]. apply Nat.odd_spec. now exists k. Qed.
Lemma odd_l : forall k j, j < 8 -> Nat.odd ((16 * k + 16 + j) / 8) = false.
Proof. intros k j H. replace (16 * k + 16 + j) with (j + (2 * (k + 1)) * 8) by lia. rewrite Nat.div_add, Nat.div_small by lia. cbn [Nat.add]. rewrite <- Nat.negb_even. rewrite Nat.even_mul. reflexivity. Qed.
Lemma grp_s : forall c0 c1 c2 k st w, is32 c0 -> is32 c1 -> is32 c2 -> 16 * k + 16 <= 112 -> pre 448 st (16 * k + 8) w ->
  pre 448 (Nat.iter 4 (sv512_s c0 c1 c2) st) (16 * k + 16) (fold_left (F512 c0 c1 c2 0) (seq (16 * k + 8) 8) w).
Proof.
  intros c0 c1 c2 k st w I0 I1 I2 Hk HP. cbn [Nat.iter nat_rect seq fold_left].
  assert (EV : forall j, Nat.even (16 * k + 2 * j) = true) by (intro j; replace (16 * k + 2 * j) with (2 * (8 * k + j)) by lia; rewrite Nat.even_mul; reflexivity).
  assert (ST : forall st j w, j < 4 -> pre 448 st (16 * k + 8 + 2 * j) w -> pre 448 (sv512_s c0 c1 c2 st) (16 * k + 8 + 2 * (S j)) (F512 c0 c1 c2 0 (F512 c0 c1 c2 0 w (16 * k + 8 + 2 * j)) (S (16 * k + 8 + 2 * j)))).
  { intros st' j w' Hj HP'. replace (16 * k + 8 + 2 * S j) with (S (S (16 * k + 8 + 2 * j))) by lia. apply s512_ok; auto; [|apply odd_nl; lia| |lia|lia].
    - replace (16 * k + 8 + 2 * j) with (16 * k + 2 * (4 + j)) by lia. apply EV.
    - replace (S (16 * k + 8 + 2 * j)) with (16 * k + 8 + (2 * j + 1)) by lia. apply odd_nl. lia. }
  pose proof (ST st 0 w ltac:(lia)) as P1. replace (16 * k + 8 + 2 * 0) with (16 * k + 8) in P1 by lia. specialize (P1 HP).
  pose proof (ST _ 1 _ ltac:(lia) P1) as P2. pose proof (ST _ 2 _ ltac:(lia) P2) as P3. pose proof (ST _ 3 _ ltac:(lia) P3) as P4.
  replace (16 * k + 8 + 2 * 1) with (S (S (16 * k + 8))) in P4 by lia. replace (16 * k + 8 + 2 * 2) with (S (S (S (S (16 * k + 8))))) in P4 by lia. replace (16 * k + 8 + 2 * 3) with (S (S (S (S (S (S (16 * k + 8))))))) in P4 by lia.
  replace (16 * k + 8 + 2 * 4) with (16 * k + 16) in P4 by lia. exact P4.
Qed.
Lemma grp_l : forall c0 c1 c2 k st w, 16 * k + 24 <= 112 -> pre 448 st (16 * k + 16) w ->
  pre 448 (Nat.iter 8 sv512_l st) (16 * k + 24) (fold_left (F512 c0 c1 c2 0) (seq (16 * k + 16) 8) w).
Proof.
  intros c0 c1 c2 k st w Hk HP. assert (G : forall n, n <= 8 -> pre 448 (Nat.iter n sv512_l st) (16 * k + 16 + n) (fold_left (F512 c0 c1 c2 0) (seq (16 * k + 16) n) w)).
  { induction n as [|n IH]; intro Hn; [cbn [Nat.iter nat_rect seq fold_left]; now rewrite Nat.add_0_r|]. rewrite seq_S, fold_left_app. cbn [Nat.iter nat_rect fold_left]. replace (16 * k + 16 + S n) with (S (16 * k + 16 + n)) by lia.
    apply l512_ok; [apply odd_l; lia|lia|lia|]. apply IH. lia. }
  specialize (G 8 (le_n 8)). replace (16 * k + 16 + 8) with (16 * k + 24) in G by lia. exact G.
Qed.
Lemma loop512_ok : forall c0 c1 c2, is32 c0 -> is32 c1 -> is32 c2 -> forall fuel k st w, fuel + k = 7 -> 0 < fuel -> pre 448 st (16 * k + 8) w ->
  pre 448 (sv512_loop fuel c0 c1 c2 st) 112 (fold_left (F512 c0 c1 c2 0) (seq (16 * k + 8) (112 - (16 * k + 8))) w).
Proof.
  intros c0 c1 c2 I0 I1 I2. induction fuel as [|f IH]; intros k st w Hf H0 HP; [lia|]. cbn [sv512_loop].
  pose proof (grp_s c0 c1 c2 k st w I0 I1 I2 ltac:(lia) HP) as P1. set (st1 := Nat.iter 4 (sv512_s c0 c1 c2) st) in *. clearbody st1.
  assert (Es : snd st1 = 4 * (16 * k + 16)) by (destruct P1 as (_ & E & _); exact E). destruct (Nat.eqb_spec (snd st1) 448) as [G|G].
  - assert (k = 6) by lia. subst k. exact P1.
  - assert (k < 6) by lia. pose proof (grp_l c0 c1 c2 k st1 _ ltac:(lia) P1) as P2. set (st2 := Nat.iter 8 sv512_l st1) in *. clearbody st2.
    replace (16 * k + 24) with (16 * S k + 8) in P2 by lia. pose proof (IH (S k) st2 _ ltac:(lia) ltac:(lia) P2) as P3.
    replace (112 - (16 * k + 8)) with (8 + (8 + (112 - (16 * S k + 8)))) by lia. rewrite !seq_app, !fold_left_app. replace (16 * k + 8 + 8) with (16 * k + 16) by lia. replace (16 * k + 16 + 8) with (16 * S k + 8) by lia. exact P3.
Qed.
Lemma expand512_F : forall c0 c1 c2 w, expand 8 7 112 (ctr512 c0 c1 c2 0) w = fold_left (F512 c0 c1 c2 0) (seq 8 104) w.
Proof. intros. unfold expand. change (112 - 8) with 104. apply fold_left_ext_in. intros. reflexivity. Qed.
Theorem expand512_ok : forall c0 c1 c2 rk data, is32 c0 -> is32 c1 -> is32 c2 -> length rk = 448 -> length data = 128 -> isbytes data ->
  sv512_expand c0 c1 c2 rk data = expand 8 7 112 (ctr512 c0 c1 c2 0) (le_words data) /\ length (sv512_expand c0 c1 c2 rk data) = 448 /\ Forall is32 (sv512_expand c0 c1 c2 rk data).
Proof.
  intros c0 c1 c2 rk data I0 I1 I2 Lrk Ld Hd. unfold sv512_expand. destruct (loads_ok 448 data 8 ltac:(lia) rk Lrk) as [A B].
  change (map (fun i => 4 * i) (seq 0 8)) with [0; 4; 8; 12; 16; 20; 24; 28] in *. set (rk1 := fold_left _ _ rk) in *. clearbody rk1. rewrite slices_words in B by exact Ld.
  assert (P0 : pre 448 (rk1, 32) (16 * 0 + 8) (le_words data)).
  { unfold pre. cbn [fst snd]. split; [exact A|]. split; [reflexivity|]. change (4 * (16 * 0 + 8)) with 32. change (4 * 8) with 32 in *. split; [|split; [exact B|now apply le_words_is32]]. rewrite <- B, firstn_length. lia. }
  pose proof (loop512_ok c0 c1 c2 I0 I1 I2 7 0 _ _ eq_refl ltac:(lia) P0) as PF. rewrite expand512_F. change (112 - (16 * 0 + 8)) with 104 in PF. change (16 * 0 + 8) with 8 in PF.
  set (w1 := fold_left (F512 c0 c1 c2 0) (seq 8 104) (le_words data)) in *. clearbody w1. set (s1 := sv512_loop 7 c0 c1 c2 (rk1, 32)) in *. clearbody s1.
  destruct PF as (L & _ & Lw & E & F). change (4 * 112) with 448 in *. rewrite firstn_all2 in E by lia. rewrite E. split; [reflexivity|]. split; [exact Lw|exact F].
Qed.
Definition R512 (w : list N) (s : list N * list N * list N * list N) (i : nat) : list N * list N * list N * list N :=
  let '(A, B, C, D) := s in (D, xorw A (sv_F w (8 * i) 4 B), B, xorw C (sv_F w (8 * i + 4) 4 D)).
Definition rel512 (k : nat) (st : (N * N * N * N) * (N * N * N * N) * (N * N * N * N) * (N * N * N * N) * nat) (s : list N * list N * list N * list N) : Prop :=
  let '(a, b, c, d, u) := st in u = 32 * k /\ q32 a /\ q32 b /\ q32 c /\ q32 d /\ s = (sv_list a, sv_list b, sv_list c, sv_list d).
Lemma round512_ok : forall w k st s, Forall is32 w -> length w = 448 -> 32 * k + 32 <= 448 -> rel512 k st s -> rel512 (S k) (sv512_round w st) (R512 w s k).
Proof.
  intros w k [[[[a b] c] d] u] s Hw Lw Hk (-> & Ha & Hb & Hc & Hd & ->). unfold sv512_round, R512.
  destruct (F4_ok w (8 * k) (32 * k) b Hw ltac:(lia) ltac:(lia) Hb) as [E1 Q1]. set (t1 := sv_g w (32 * k + 12) _) in *. clearbody t1.
  destruct (F4_ok w (8 * k + 4) (32 * k + 16) d Hw ltac:(lia) ltac:(lia) Hd) as [E2 Q2]. set (t2 := sv_g w (32 * k + 16 + 12) _) in *. clearbody t2.
  unfold rel512. split; [lia|]. split; [exact Hd|]. split; [now apply x_32|]. split; [exact Hb|]. split; [now apply x_32|]. rewrite <- E1, <- E2, !x_ok. reflexivity.
Qed.
Opaque sv512_round R512 sv512_expand expand.
Theorem process512_ok : forall h rk data c, length h = 16 -> Forall is32 h -> length rk = 448 -> length data = 128 -> isbytes data -> cw c 3 = 0%N ->
  exists rk', sv512_process (h, rk) data (cw c 0) (cw c 1) (cw c 2) = (C512 h data c, rk') /\ length rk' = 448 /\ length (C512 h data c) = 16 /\ Forall is32 (C512 h data c).
Proof.
  intros h rk data c Lh Hh Lrk Ld Hd H3. unfold sv512_process. destruct (expand512_ok (cw c 0) (cw c 1) (cw c 2) rk data (w32_is _) (w32_is _) (w32_is _) Lrk Ld Hd) as (E & L & I). rewrite E in *. clear E.
  unfold C512, keys512. rewrite H3. set (w := expand 8 7 112 _ _) in *. clearbody w.
  destruct (sv_quad_ok h 0 Hh ltac:(lia)) as [A1 A2]. destruct (sv_quad_ok h 1 Hh ltac:(lia)) as [B1 B2]. destruct (sv_quad_ok h 2 Hh ltac:(lia)) as [C1 C2]. destruct (sv_quad_ok h 3 Hh ltac:(lia)) as [D1 D2].
  change (4 * 0) with 0 in *. change (4 * 1) with 4 in *. change (4 * 2) with 8 in *. change (4 * 3) with 12 in *.
  assert (PF : rel512 14 (Nat.iter 14 (sv512_round w) (sv_quad h 0, sv_quad h 4, sv_quad h 8, sv_quad h 12, 0)) (fold_left (R512 w) (seq 0 14) (quads h 0, quads h 1, quads h 2, quads h 3))).
  { set (s0 := (quads h 0, quads h 1, quads h 2, quads h 3)). assert (P0 : rel512 0 (sv_quad h 0, sv_quad h 4, sv_quad h 8, sv_quad h 12, 0) s0) by (unfold rel512, s0; rewrite A1, B1, C1, D1; auto 8). set (st0 := (sv_quad h 0, sv_quad h 4, sv_quad h 8, sv_quad h 12, 0)) in *. clearbody st0 s0.
    assert (G : forall n, n <= 14 -> rel512 n (Nat.iter n (sv512_round w) st0) (fold_left (R512 w) (seq 0 n) s0)).
    { induction n as [|n IH]; intro Hn; [exact P0|]. rewrite seq_S, fold_left_app. cbn [Nat.iter nat_rect fold_left Nat.add]. apply round512_ok; [exact I|exact L|lia|]. apply IH. lia. }
    apply (G 14). apply le_n. }
  assert (EE : E512 w h = let '(A, B, C, D) := fold_left (R512 w) (seq 0 14) (quads h 0, quads h 1, quads h 2, quads h 3) in A ++ B ++ C ++ D) by reflexivity. rewrite EE.
  destruct (Nat.iter 14 (sv512_round w) (sv_quad h 0, sv_quad h 4, sv_quad h 8, sv_quad h 12, 0)) as [[[[p q] r] s] u]. destruct PF as (_ & Hp & Hq & Hr & Hs & Es). rewrite Es.
  assert (EX : sv_list (sv_x (sv_quad h 0) p) ++ sv_list (sv_x (sv_quad h 4) q) ++ sv_list (sv_x (sv_quad h 8) r) ++ sv_list (sv_x (sv_quad h 12) s) = xorw h (sv_list p ++ sv_list q ++ sv_list r ++ sv_list s)).
  { rewrite !x_ok, A1, B1, C1, D1. transitivity (xorw (quads h 0 ++ quads h 1 ++ quads h 2 ++ quads h 3) (sv_list p ++ sv_list q ++ sv_list r ++ sv_list s)); [|now rewrite <- (quads4 h Lh)].
    rewrite !xorw_app; [reflexivity|..]; rewrite <- ?A1, <- ?B1, <- ?C1, !sv_list_length; reflexivity. }
  exists w. rewrite EX. split; [reflexivity|]. split; [exact L|]. rewrite <- EX. split; [rewrite !app_length, !sv_list_length; reflexivity|]. apply Forall_app. split; [now apply x_32|]. apply Forall_app. split; [now apply x_32|]. apply Forall_app. split; now apply x_32.
Qed.
