(** PropGroestl.v -- C101, C102: the groestl package. *)
From Coq Require Import List NArith ZArith Arith Lia.
Require Import Verif.Base Verif.Words Verif.HashAPI Verif.Buf Verif.MD Verif.MDX Verif.Bytes Verif.Pad Verif.Refine Verif.SpecAes Verif.Gost3411P Verif.JhP3 Verif.Ascon2 Verif.SpecKupyna Verif.Kupyna Verif.SpecGroestl Verif.GroestlTab Verif.Groestl.
Import ListNotations.

(** ** The tables *)
Definition sbox_tab : list N := Eval vm_compute in map (fun b => aes_sbox (N.of_nat b)) (seq 0 256).
Lemma sbox_tab_ok : forall b, (b < 256)%N -> aes_sbox b = at_ sbox_tab (N.to_nat b).
Proof.
  intros b Hb. assert (E : sbox_tab = map (fun b => aes_sbox (N.of_nat b)) (seq 0 256)) by (vm_compute; reflexivity).
  rewrite E, at_map_seq by lia. now rewrite N2Nat.id.
Qed.
Lemma gro_tab_check : forallb (fun k => forallb (fun i => forallb (fun b =>
    N.eqb (w8 (N.shiftr (at_ (nth k gro_T []) b) (8 * N.of_nat i))) (gf_mul (at_ gro_B ((8 + k - i) mod 8)) (at_ sbox_tab b))) (seq 0 256)) (seq 0 8)) (seq 0 8) = true.
Proof. vm_compute. reflexivity. Qed.
Lemma gro_tab64 : forallb (fun k => forallb (fun b => N.ltb (at_ (nth k gro_T []) b) (2 ^ 64)) (seq 0 256)) (seq 0 8) = true.
Proof. vm_compute. reflexivity. Qed.
Lemma gT_ok : forall k i w, k < 8 -> i < 8 ->
  w8 (N.shiftr (gT k w) (8 * N.of_nat i)) = gf_mul (at_ gro_B ((8 + k - i) mod 8)) (aes_sbox (w8 (N.shiftr w (8 * N.of_nat k)))).
Proof.
  intros k i w Hk Hi. unfold gT. set (b := w8 (N.shiftr w (8 * N.of_nat k))). assert (Hb : (b < 256)%N) by apply w8_lt. rewrite sbox_tab_ok by exact Hb.
  pose proof gro_tab_check as C. rewrite forallb_forall in C. specialize (C k ltac:(apply in_seq; lia)).
  rewrite forallb_forall in C. specialize (C i ltac:(apply in_seq; lia)).
  rewrite forallb_forall in C. specialize (C (N.to_nat b) ltac:(apply in_seq; lia)). now apply N.eqb_eq.
Qed.
Lemma gT_is64 : forall k w, k < 8 -> is64 (gT k w).
Proof.
  intros k w Hk. unfold gT. set (b := w8 _). assert (Hb : (b < 256)%N) by apply w8_lt. pose proof gro_tab64 as C.
  rewrite forallb_forall in C. specialize (C k ltac:(apply in_seq; lia)). rewrite forallb_forall in C. specialize (C (N.to_nat b) ltac:(apply in_seq; lia)). now apply N.ltb_lt.
Qed.
Opaque gT gf_mul aes_sbox.
(** Constants. *)
Definition cPw (j r : nat) : N := N.lxor (shl64 (N.of_nat j) 4) (N.of_nat r).
Definition cQw (j r : nat) : N := N.lxor (sub64 0xffffffffffffffff (shl64 (N.of_nat j) 60)) (shl64 (N.of_nat r) 56).
Lemma consts_check : forallb (fun j => forallb (fun r => forallb (fun i =>
    N.eqb (w8 (N.shiftr (cPw j r) (8 * N.of_nat i))) (gro_cP r j i) && N.eqb (w8 (N.shiftr (cQw j r) (8 * N.of_nat i))) (gro_cQ r j i))%bool (seq 0 8)) (seq 0 16)) (seq 0 16) = true.
Proof. vm_compute. reflexivity. Qed.
Lemma consts_ok : forall j r i, j < 16 -> r < 16 -> i < 8 ->
  w8 (N.shiftr (cPw j r) (8 * N.of_nat i)) = gro_cP r j i /\ w8 (N.shiftr (cQw j r) (8 * N.of_nat i)) = gro_cQ r j i.
Proof.
  intros j r i Hj Hr Hi. pose proof consts_check as C. rewrite forallb_forall in C. specialize (C j ltac:(apply in_seq; lia)).
  rewrite forallb_forall in C. specialize (C r ltac:(apply in_seq; lia)). rewrite forallb_forall in C. specialize (C i ltac:(apply in_seq; lia)).
  apply andb_prop in C. destruct C as [C1 C2]. now apply N.eqb_eq in C1, C2.
Qed.

Section Rounds.
Variable p : gro_par.
Notation n := (g_v p).
Hypothesis Hn : 8 <= n. Hypothesis Hn16 : n <= 16.
Definition gst (x : list N) : Prop := length x = n /\ Forall is64 x.
Lemma mixcol_ok : forall o x, length x = n -> gro_mix (gro_shift p o (gro_sub (wcols x))) = wcols (map (gcol n o x) (seq 0 n)).
Proof.
  intros o x Lx. unfold gro_mix, gro_shift. rewrite wcols_map, map_map. apply map_ext_in. intros c Hc. apply in_seq in Hc.
  rewrite le_bytes_map. apply map_ext_in. intros i Hi. apply in_seq in Hi.
  rewrite (map_ext_in _ (fun k => w8 (N.shiftr (gT k (at_ x ((c + nth k o 0) mod n))) (8 * N.of_nat i)))).
  2:{ intros k Hk. apply in_seq in Hk. rewrite at_map_seq by lia.
      set (j := (c + nth k o 0) mod n). assert (Hj : j < n) by (apply Nat.mod_upper_bound; lia).
      rewrite gT_ok by lia. f_equal. unfold gro_sub.
      rewrite (nth_indep _ [] (map aes_sbox [])) by (unfold wcols; rewrite !map_length; lia). rewrite (map_nth (map aes_sbox)).
      rewrite nth_wcols by lia. unfold at_ at 1. rewrite (nth_indep _ 0%N (aes_sbox 0)) by (rewrite map_length, le_bytes_length; lia). rewrite map_nth.
      f_equal. change (nth k (le_bytes 8 (at_ x j)) 0%N) with (at_ (le_bytes 8 (at_ x j)) k). apply at_le_bytes. lia. }
  cbn [seq map fold_left]. rewrite N.lxor_0_l. unfold gcol. cbv zeta. rewrite !w8_shiftr_lxor. reflexivity.
Qed.
Lemma gcol_is64 : forall o x c, is64 (gcol n o x c).
Proof. intros. unfold gcol. cbv zeta. repeat apply lxor_is64; apply gT_is64; lia. Qed.
Lemma gcol_st : forall o x, gst (map (gcol n o x) (seq 0 n)).
Proof. intros. split; [now rewrite map_length, seq_length|]. apply Forall_map, Forall_forall. intros i _. apply gcol_is64. Qed.
Lemma add_ok : forall (c : nat -> nat -> nat -> N) (cw : nat -> N) rd x, length x = n -> (forall j i, j < n -> i < 8 -> w8 (N.shiftr (cw j) (8 * N.of_nat i)) = c rd j i) ->
  gro_add p c rd (wcols x) = wcols (map (fun j => N.lxor (at_ x j) (cw j)) (seq 0 n)).
Proof.
  intros c cw rd x Lx Hc. unfold gro_add. rewrite wcols_map. apply map_ext_in. intros j Hj. apply in_seq in Hj.
  rewrite (le_bytes_map 8 (N.lxor _ _)). apply map_ext_in. intros i Hi. apply in_seq in Hi.
  rewrite nth_wcols, at_le_bytes, w8_shiftr_lxor, Hc by lia. reflexivity.
Qed.
Hypothesis HsP : g_sP p = if n =? 8 then [0; 1; 2; 3; 4; 5; 6; 7] else [0; 1; 2; 3; 4; 5; 6; 11].
Hypothesis HsQ : g_sQ p = if n =? 8 then [1; 3; 5; 7; 0; 2; 4; 6] else [1; 3; 5; 11; 0; 2; 4; 6].
Lemma roundP_ok : forall x r, length x = n -> r < 16 -> gro_round p gro_cP (g_sP p) (wcols x) r = wcols (roundP n x (N.of_nat r)) /\ gst (roundP n x (N.of_nat r)).
Proof.
  intros x r Lx Hr. split; [|apply gcol_st]. unfold gro_round, roundP. cbv zeta.
  rewrite (add_ok gro_cP (fun j => cPw j r)) by (auto; intros; apply consts_ok; lia). rewrite mixcol_ok by (now rewrite map_length, seq_length). now rewrite HsP.
Qed.
Lemma roundQ_ok : forall x r, length x = n -> r < 16 -> gro_round p gro_cQ (g_sQ p) (wcols x) r = wcols (roundQ n x (shl64 (N.of_nat r) 56)) /\ gst (roundQ n x (shl64 (N.of_nat r) 56)).
Proof.
  intros x r Lx Hr. split; [|apply gcol_st]. unfold gro_round, roundQ. cbv zeta.
  rewrite (add_ok gro_cQ (fun j => cQw j r)) by (auto; intros; apply consts_ok; lia). rewrite mixcol_ok by (now rewrite map_length, seq_length). now rewrite HsQ.
Qed.
Lemma rounds2' : forall (R : list (list N) -> nat -> list (list N)) (f : list N -> N -> list N),
  (forall x v, gst x -> S v < 16 -> R (R (wcols x) v) (S v) = wcols (f x (N.of_nat v)) /\ gst (f x (N.of_nat v))) ->
  forall k i x, gst x -> 2 * (i + k) <= 16 ->
  fold_left R (seq (2 * i) (2 * k)) (wcols x) = wcols (fold_left f (map (fun j => 2 * N.of_nat j)%N (seq i k)) x)
  /\ gst (fold_left f (map (fun j => 2 * N.of_nat j)%N (seq i k)) x).
Proof.
  intros R f HR. induction k as [|k IH]; intros i x Hx Hk.
  - change (2 * 0) with 0. cbn [seq map fold_left]. auto.
  - replace (2 * S k) with (S (S (2 * k))) by lia. rewrite !seq_cons. cbn [map]. rewrite !fold_left_cons.
    destruct (HR x (2 * i) Hx ltac:(lia)) as [E G]. rewrite E. replace (S (S (2 * i))) with (2 * S i) by lia.
    replace (2 * N.of_nat i)%N with (N.of_nat (2 * i)) by lia. apply IH; [exact G|lia].
Qed.
Hypothesis Ht : Nat.Even (g_r p). Hypothesis Ht16 : g_r p <= 16.
Lemma r_even : g_r p = 2 * (g_r p / 2).
Proof. destruct Ht as [m ->]. rewrite (Nat.mul_comm 2 m), Nat.div_mul by lia. lia. Qed.
Lemma add64_S : forall v, v < 16 -> add64 (N.of_nat v) 1 = N.of_nat (S v).
Proof. intros v Hv. unfold add64. rewrite w64_small by lia. lia. Qed.
Lemma P_ok : forall x, gst x -> gro_P p (wcols x) = wcols (fold_left (twoP n) (grs (g_r p)) x) /\ gst (fold_left (twoP n) (grs (g_r p)) x).
Proof.
  intros x Hx. unfold gro_P, grs. pose proof r_even as Et.
  destruct (rounds2' (gro_round p gro_cP (g_sP p)) (twoP n)) with (k := g_r p / 2) (i := 0) (x := x) as [E G]; [|exact Hx|lia|].
  - intros y v [Ly _] Hv. unfold twoP. rewrite add64_S by lia. destruct (roundP_ok y v Ly ltac:(lia)) as [E1 [L1 _]]. rewrite E1.
    apply (roundP_ok (roundP n y (N.of_nat v)) (S v)); [exact L1|lia].
  - rewrite Nat.mul_0_r, <- Et in E. auto.
Qed.
Lemma Q_ok : forall x, gst x -> gro_Q p (wcols x) = wcols (fold_left (twoQ n) (grs (g_r p)) x) /\ gst (fold_left (twoQ n) (grs (g_r p)) x).
Proof.
  intros x Hx. unfold gro_Q, grs. pose proof r_even as Et.
  destruct (rounds2' (gro_round p gro_cQ (g_sQ p)) (twoQ n)) with (k := g_r p / 2) (i := 0) (x := x) as [E G]; [|exact Hx|lia|].
  - intros y v [Ly _] Hv. unfold twoQ. rewrite add64_S by lia. destruct (roundQ_ok y v Ly ltac:(lia)) as [E1 [L1 _]]. rewrite E1.
    apply (roundQ_ok (roundQ n y (shl64 (N.of_nat v) 56)) (S v)); [exact L1|lia].
  - rewrite Nat.mul_0_r, <- Et in E. auto.
Qed.
Definition gxor (a b : list N) : list N := map (fun c => N.lxor (at_ a c) (at_ b c)) (seq 0 n).
Lemma gxor_ok : forall a b, length a = n -> length b = n -> gro_xor p (wcols a) (wcols b) = wcols (gxor a b).
Proof.
  intros a b La Lb. unfold gro_xor, gxor. rewrite wcols_map. apply map_ext_in. intros j Hj. apply in_seq in Hj.
  rewrite (le_bytes_map 8 (N.lxor _ _)). apply map_ext_in. intros r Hr. apply in_seq in Hr. rewrite !nth_wcols, !at_le_bytes, w8_shiftr_lxor by lia. reflexivity.
Qed.
Lemma gxor_st : forall a b, gst a -> gst b -> gst (gxor a b).
Proof.
  intros a b [La Ha] [Lb Hb]. split; [unfold gxor; now rewrite map_length, seq_length|].
  unfold gxor. apply Forall_map, Forall_forall. intros i Hi. apply in_seq in Hi.
  apply lxor_is64; unfold at_; [rewrite Forall_nth in Ha; apply Ha; lia | rewrite Forall_nth in Hb; apply Hb; lia].
Qed.
(** A 16-word state: the n used words and zeros. *)
Notation pad16 w := (w ++ zeros (16 - n)).
Lemma at_pad : forall (w : list N) t c, c < length w -> at_ (w ++ t) c = at_ w c.
Proof. intros. unfold at_. now rewrite app_nth1. Qed.
Lemma words_n : forall x : list N, length x = 128 -> exists t, gwords x = gwords (firstn (8 * n) x) ++ t.
Proof.
  intros x Lx. exists (skipn n (gwords x)). rewrite <- (firstn_skipn n (gwords x)) at 1. f_equal. unfold gwords. rewrite firstn_length, Lx.
  change (128 / 8) with 16. replace (Nat.min (8 * n) 128 / 8) with n by (rewrite Nat.min_l by lia; rewrite Nat.mul_comm; symmetry; apply Nat.div_mul; lia).
  rewrite firstn_map. replace (firstn n (seq 0 16)) with (seq 0 n) by (symmetry; replace 16 with (n + (16 - n)) by lia; rewrite seq_app, firstn_app, seq_length, Nat.sub_diag, firstn_O, app_nil_r; apply firstn_all2; rewrite seq_length; lia).
  apply map_ext_in. intros i Hi. apply in_seq in Hi. f_equal. unfold slice. rewrite skipn_firstn_comm, firstn_firstn. f_equal. lia.
Qed.
Lemma gtransform_trunc : forall s x, length x = 128 -> gtransform n (g_r p) s (gwords x) = gtransform n (g_r p) s (gwords (firstn (8 * n) x)).
Proof.
  intros s x Lx. destruct (words_n x Lx) as [t ->]. set (w := gwords (firstn (8 * n) x)).
  assert (Lw : length w = n). { unfold w, gwords. rewrite map_length, seq_length, firstn_length, Lx, Nat.min_l by lia. rewrite Nat.mul_comm. apply Nat.div_mul. lia. }
  clearbody w. unfold gtransform.
  rewrite (map_ext_in (fun c => N.lxor (at_ s c) (at_ (w ++ t) c)) (fun c => N.lxor (at_ s c) (at_ w c))) by (intros c Hc; apply in_seq in Hc; rewrite at_pad by lia; reflexivity).
  rewrite (map_ext_in (fun c => at_ (w ++ t) c) (fun c => at_ w c)) by (intros c Hc; apply in_seq in Hc; rewrite at_pad by lia; reflexivity). reflexivity.
Qed.
Lemma fold_two' : forall (l : list N) a b, fold_left (fun '(a, q) r => (twoP n a r, twoQ n q r)) l (a, b) = (fold_left (twoP n) l a, fold_left (twoQ n) l b).
Proof. induction l as [|r l IH]; intros; [reflexivity|]. rewrite !fold_left_cons. apply IH. Qed.
Lemma block_ok : forall w x, gst w -> length x = 8 * n -> isbytes x ->
  exists w', gtransform n (g_r p) (pad16 w) (gwords x) = pad16 w' /\ gst w' /\ wcols w' = gro_f p (wcols w) x.
Proof.
  intros w x Hw Lx Hb.
  assert (Ec : wcols (kwords x) = chunks 8 x /\ length (kwords x) = n /\ Forall is64 (kwords x)).
  { set (q := mkpar n 0 0). destruct (kwords_ok q) with (b := x) as [A [B C]]; auto; cbn [q k_s7 k_n k_t]; try lia. }
  destruct Ec as (Ec & Lm & Hm). unfold gtransform. change (gwords x) with (kwords x). set (m := kwords x) in *. clearbody m. pose proof Hw as [Lw _].
 
  assert (E1 : map (fun c => N.lxor (at_ (pad16 w) c) (at_ m c)) (seq 0 n) = gxor w m).
  { apply map_ext_in. intros c Hc. apply in_seq in Hc. rewrite at_pad by lia. reflexivity. }
  assert (E2 : map (fun c => at_ m c) (seq 0 n) = m).
  { rewrite <- Lm. apply map_at. }
  rewrite E1, E2. rewrite fold_two'. cbv beta iota.
  destruct (P_ok (gxor w m)) as [EP GP]; [apply gxor_st; [exact Hw|split; assumption]|]. destruct (Q_ok m) as [EQ GQ]; [split; assumption|].
  set (a := fold_left (twoP n) _ _) in *. set (q := fold_left (twoQ n) _ _) in *. clearbody a q.
  exists (gxor (gxor a q) w). split; [|split].
  - f_equal; [|rewrite skipn_app, skipn_all2 by lia; rewrite Lw, Nat.sub_diag; reflexivity].
    apply map_ext_in. intros c Hc. apply in_seq in Hc. unfold gxor. rewrite at_map_seq by lia. rewrite at_pad by lia. reflexivity.
  - apply gxor_st; [apply gxor_st; assumption|exact Hw].
  - unfold gro_f. cbv zeta. rewrite <- Ec. rewrite gxor_ok by assumption. rewrite EP, EQ. rewrite !gxor_ok; try reflexivity; try apply GP; try apply GQ; try exact Lw. apply gxor_st; assumption.
Qed.
Lemma output_ok : forall w, gst w -> exists w', goutput n (g_r p) (pad16 w) = pad16 w' /\ gst w' /\ wcols w' = gro_xor p (gro_P p (wcols w)) (wcols w).
Proof.
  intros w Hw. pose proof Hw as [Lw _]. unfold goutput.
  assert (E2 : map (fun c => at_ (pad16 w) c) (seq 0 n) = w).
  { transitivity (map (fun c => at_ w c) (seq 0 n)); [apply map_ext_in; intros c Hc; apply in_seq in Hc; apply at_pad; lia|]. rewrite <- Lw. apply map_at. }
  rewrite E2. destruct (P_ok w Hw) as [EP GP]. set (a := fold_left (twoP n) _ _) in *. clearbody a. exists (gxor a w). split; [|split].
  - f_equal; [|rewrite skipn_app, skipn_all2 by lia; rewrite Lw, Nat.sub_diag; reflexivity].
    apply map_ext_in. intros c Hc. apply in_seq in Hc. rewrite at_pad by lia. apply N.lxor_comm.
  - now apply gxor_st.
  - rewrite EP, gxor_ok; [reflexivity|apply GP|exact Lw].
Qed.
End Rounds.
(** Evaluate the bits of a word expression at a concrete position. *)
Ltac bit1 := match goal with
  | |- context [N.testbit (N.lor ?a ?b) ?k] => rewrite (N.lor_spec a b k)
  | |- context [N.testbit (N.land ?a ?b) ?k] => rewrite (N.land_spec a b k)
  | |- context [N.testbit (N.shiftr ?a ?n) ?k] => let c := eval vm_compute in (k + n)%N in rewrite (N.shiftr_spec' a n k); change (N.testbit a (k + n)) with (N.testbit a c)
  | |- context [N.testbit (N.shiftl ?a ?n) ?k] => let c := eval vm_compute in (N.ltb k n) in
      match c with true => rewrite (N.shiftl_spec_low a n k) by reflexivity
      | false => let d := eval vm_compute in (k - n)%N in rewrite (N.shiftl_spec_high' a n k) by (vm_compute; discriminate); change (N.testbit a (k - n)) with (N.testbit a d) end
  | |- context [N.testbit (Npos ?p) ?k] => let b := eval vm_compute in (N.testbit (Npos p) k) in change (N.testbit (Npos p) k) with b
  end.
Lemma swap_byte : forall v i, i < 8 -> w8 (N.shiftr (swap_uint64 v) (8 * N.of_nat i)) = w8 (N.shiftr v (8 * N.of_nat (7 - i))).
Proof.
  intros v i Hi. apply N.bits_inj. intro j. unfold w8. rewrite !N.land_spec. destruct (N.lt_ge_cases j 8) as [Hj|Hj].
  - f_equal. rewrite !N.shiftr_spec'. unfold swap_uint64, shl64, w64.
    assert (Ej : (j = 0 \/ j = 1 \/ j = 2 \/ j = 3 \/ j = 4 \/ j = 5 \/ j = 6 \/ j = 7)%N) by lia.
    assert (Ei : i = 0 \/ i = 1 \/ i = 2 \/ i = 3 \/ i = 4 \/ i = 5 \/ i = 6 \/ i = 7) by lia. clear Hi Hj.
    destruct Ei as [->|[->|[->|[->|[->|[->|[->| ->]]]]]]]; destruct Ej as [->|[->|[->|[->|[->|[->|[->| ->]]]]]]];
    match goal with |- N.testbit _ ?a = N.testbit _ ?b => let c := eval vm_compute in a in let d := eval vm_compute in b in change a with c; change b with d end;
    repeat bit1; rewrite ?Bool.andb_false_r, ?Bool.andb_true_r, ?Bool.orb_false_r, ?Bool.andb_false_r; cbn [orb andb]; rewrite ?Bool.orb_false_r; reflexivity.
  - assert (F : N.testbit 255 j = false) by (apply N.bits_above_log2; change (N.log2 255) with 7%N; lia). rewrite F, !Bool.andb_false_r. reflexivity.
Qed.
Lemma swap_bytes : forall v, le_bytes 8 (swap_uint64 v) = be_bytes 8 v.
Proof.
  intro v. apply list_eq_at; [now rewrite le_bytes_length, be_bytes_length|]. rewrite le_bytes_length. intros i Hi.
  rewrite at_be_bytes, !at_le_bytes by lia. apply swap_byte. lia.
Qed.

(** ** Histories *)
Definition gro_p (out : nat) : gro_par := if out <=? 32 then gro_small else gro_big.
Definition iv_chk (k : nat) : bool := let p := gro_p k in let s := ds (gro_reset (8 * Z.of_nat k)) in
  ((if list_eq_dec N.eq_dec s (firstn (g_v p) s ++ zeros (16 - g_v p)) then true else false) && (length (firstn (g_v p) s) =? g_v p) &&
   forallb (fun x => N.ltb x (2 ^ 64)) (firstn (g_v p) s) && (if list_eq_dec (list_eq_dec N.eq_dec) (wcols (firstn (g_v p) s)) (gro_iv p (8 * N.of_nat k)) then true else false))%bool.
Lemma iv_chk_all : forallb iv_chk (seq 1 64) = true.
Proof. vm_compute. reflexivity. Qed.
Lemma iv_all : forall k, 1 <= k <= 64 -> let p := gro_p k in let s := ds (gro_reset (8 * Z.of_nat k)) in
  s = firstn (g_v p) s ++ zeros (16 - g_v p) /\ gst p (firstn (g_v p) s) /\ wcols (firstn (g_v p) s) = gro_iv p (8 * N.of_nat k).
Proof.
  intros k Hk. pose proof iv_chk_all as C. rewrite forallb_forall in C. specialize (C k ltac:(apply in_seq; lia)). unfold iv_chk in C. cbv zeta in *.
  set (s := ds (gro_reset (8 * Z.of_nat k))) in *. set (p := gro_p k) in *. clearbody s p. apply andb_prop in C. destruct C as [C C4]. apply andb_prop in C. destruct C as [C C3]. apply andb_prop in C. destruct C as [C1 C2].
  destruct (list_eq_dec N.eq_dec s _) as [E1|]; [|discriminate C1]. destruct (list_eq_dec _ (wcols _) _) as [E4|]; [|discriminate C4].
  split; [exact E1|]. split; [|exact E4]. split; [now apply Nat.eqb_eq|]. apply Forall_forall. intros x Hx. rewrite forallb_forall in C3. now apply N.ltb_lt, C3.
Qed.
Section Digest.
Variable out : nat.
Hypothesis Hout : 1 <= out <= 64.
Notation p := (gro_p out). Notation n := (g_v p). Notation hs := (8 * Z.of_nat out)%Z.
Lemma par_ok : (8 <= n <= 16) /\ (g_sP p = if n =? 8 then [0; 1; 2; 3; 4; 5; 6; 7] else [0; 1; 2; 3; 4; 5; 6; 11]) /\
  (g_sQ p = if n =? 8 then [1; 3; 5; 7; 0; 2; 4; 6] else [1; 3; 5; 11; 0; 2; 4; 6]) /\ Nat.Even (g_r p) /\ g_r p <= 16.
Proof. unfold gro_p. destruct (out <=? 32); cbn [g_v g_r g_sP g_sQ gro_small gro_big]; (repeat split; try reflexivity; try lia); [exists 5|exists 7]; reflexivity. Qed.
Lemma dim_ok : g_n hs = n /\ g_rounds hs = g_r p /\ g_lim hs = 8 * n /\ g_bs_bits hs = N.of_nat (8 * (8 * n)).
Proof.
  unfold g_n, g_rounds, g_lim, g_bs_bits, gro_p. destruct (Z.ltb_spec 256 hs); destruct (Nat.leb_spec out 32); try lia; repeat split; reflexivity.
Qed.
Definition gblk (s b : list N) : list N := gtransform n (g_r p) s (gwords b).
Lemma block_trunc : forall s x, length x = 128 -> g_block hs s x = gblk s (firstn (8 * n) x).
Proof.
  intros s x Lx. unfold g_block, gblk. destruct dim_ok as (-> & -> & _). destruct par_ok as ((A & B) & C & D & E & F). apply gtransform_trunc; assumption.
Qed.
Lemma iv_ok : exists w, ds (gro_reset hs) = w ++ zeros (16 - n) /\ gst p w /\ wcols w = gro_iv p (8 * N.of_nat out).
Proof. exists (firstn n (ds (gro_reset hs))). exact (iv_all out Hout). Qed.
Lemma blocks_ok : forall bl w, gst p w -> Forall (fun b : list N => length b = 8 * n /\ isbytes b) bl ->
  exists w', fold_left gblk bl (w ++ zeros (16 - n)) = w' ++ zeros (16 - n) /\ gst p w' /\ wcols w' = fold_left (gro_f p) bl (wcols w).
Proof.
  destruct par_ok as ((A & B) & C & D & E & F).
  induction bl as [|b bl IH]; intros w Hw HF; [exists w; auto|]. pose proof (Forall_inv HF) as [Lb Hb]; pose proof (Forall_inv_tail HF) as HF'.
  cbn [fold_left]. unfold gblk at 2. destruct (block_ok p A B C D E F w b Hw Lb Hb) as (w1 & E1 & G1 & W1). rewrite E1, <- W1. now apply IH.
Qed.
Notation bs := (8 * n).
Definition grel (d : dig (list N)) (m : list N) : Prop := dig_relx bs 128 gblk (ds (gro_reset hs)) 8 d m.
Lemma len_ok : forall d m, grel d m -> (8 * (N.of_nat (length m) + 256) < 2 ^ 64)%N -> (gro_len hs d / g_bs_bits hs)%N = N.of_nat (gro_blocks p m).
Proof.
  intros d m R HL. destruct par_ok as ((A & B) & _). destruct dim_ok as (_ & _ & E3 & E4).
  destruct (relx_len bs 128 gblk ltac:(lia) _ _ _ _ R) as [El En]. unfold gro_len. rewrite E3, E4, El, En.
  pose proof (Nat.div_mod (length m) bs ltac:(lia)) as DM. pose proof (Nat.mod_upper_bound (length m) bs ltac:(lia)) as MB.
  unfold gro_blocks, gro_bs. set (r := length m mod bs) in *. set (q := length m / bs) in *. set (L := length m) in *. clearbody r q L.
  assert (N8 : forall a b, add64 a b = ((a + b) mod 2 ^ 64)%N) by (intros; unfold add64; apply w64_mod).
  assert (S1 : sub64 (N.of_nat (8 * bs)) (mul64 (N.of_nat (r + 1)) 8) = N.of_nat (8 * (bs - (r + 1)))).
  { unfold sub64, mul64. rewrite (w64_small (N.of_nat (r + 1) * 8)) by lia. rewrite w64_mod. change (2 ^ 64)%N with 18446744073709551616%N.
    replace (N.of_nat (8 * bs) + 18446744073709551616 - N.of_nat (r + 1) * 8)%N with (N.of_nat (8 * (bs - (r + 1))) + 1 * 18446744073709551616)%N by lia. rewrite N.mod_add by discriminate. apply N.mod_small. lia. }
  assert (S0 : sub64 (N.of_nat (8 * bs)) (mul64 0 8) = N.of_nat (8 * bs)).
  { unfold sub64. change (mul64 0 8) with 0%N. rewrite w64_mod. change (2 ^ 64)%N with 18446744073709551616%N.
    replace (N.of_nat (8 * bs) + 18446744073709551616 - 0)%N with (N.of_nat (8 * bs) + 1 * 18446744073709551616)%N by lia. rewrite N.mod_add by discriminate. apply N.mod_small. lia. }
  rewrite S1, S0. change (2 ^ 64)%N with 18446744073709551616%N in HL.
  rewrite (w64_small (8 * N.of_nat L)) by lia.
  assert (A8 : forall a b, (a + b < 18446744073709551616)%N -> add64 a b = (a + b)%N) by (intros; unfold add64; apply w64_small; assumption).
  destruct (Nat.ltb_spec (bs - 8) (r + 1)) as [H|H].
  - rewrite (A8 (8 * N.of_nat L)%N 8%N) by lia. rewrite (A8 (8 * N.of_nat L + 8)%N) by lia. rewrite A8 by lia.
    replace (8 * N.of_nat L + 8 + N.of_nat (8 * (bs - (r + 1))) + N.of_nat (8 * bs))%N with (N.of_nat (q + 2) * N.of_nat (8 * bs))%N by (rewrite <- Nat2N.inj_mul; nia).
    rewrite N.div_mul by lia. f_equal. replace (L + 8) with ((r + 8 - bs) + (q + 1) * bs) by nia. rewrite Nat.div_add by lia. rewrite Nat.div_small by lia. lia.
  - rewrite (A8 (8 * N.of_nat L)%N 8%N) by lia. rewrite (A8 (8 * N.of_nat L + 8)%N) by lia.
    replace (8 * N.of_nat L + 8 + N.of_nat (8 * (bs - (r + 1))))%N with (N.of_nat (q + 1) * N.of_nat (8 * bs))%N by (rewrite <- Nat2N.inj_mul; nia).
    rewrite N.div_mul by lia. f_equal. replace (L + 8) with ((r + 8) + q * bs) by nia. rewrite Nat.div_add by lia. rewrite Nat.div_small by lia. lia.
Qed.
Lemma isbytes_pad : forall m, isbytes m -> isbytes (gro_pad p m).
Proof.
  intros m Hm. unfold gro_pad, md_pad. apply Forall_app. split; [exact Hm|]. constructor; [reflexivity|]. apply Forall_app. split; [apply zeros_isbytes|apply be_bytes_isbytes].
Qed.
Lemma gro_len_out : forall m, length (gro_hash p out m) = out.
Proof.
  intro m. unfold gro_hash. cbv zeta. rewrite skipn_length. set (h := fold_left _ _ _). clearbody h. unfold gro_xor.
  assert (LC : forall (f : nat -> list N) l, (forall j, length (f j) = 8) -> length (concat (map f l)) = 8 * length l).
  { intros f l H. induction l as [|a l IH]; [reflexivity|]. cbn [map concat]. rewrite app_length, IH, H. cbn [length]. lia. }
  rewrite LC by (intro; now rewrite map_length, seq_length). rewrite seq_length. unfold gro_bs.
  assert (out <= 8 * n) by (unfold gro_p; destruct (Nat.leb_spec out 32); cbn [g_v gro_small gro_big]; lia). lia.
Qed.
Lemma checkSum_ok : forall d m, grel d m -> isbytes m -> (8 * (N.of_nat (length m) + 256) < 2 ^ 64)%N -> gro_checkSum hs d = Some (gro_hash p out m).
Proof.
  intros d m R Hm HL. unfold gro_checkSum. cbv zeta. rewrite (len_ok d m R HL), swap_bytes. destruct dim_ok as (E1 & E2 & E3 & E4). destruct par_ok as ((A & B) & C & D & E & F).
  rewrite E1, E2, E3. rewrite (relx_finish bs 128 (g_block hs) gblk ltac:(lia) ltac:(lia) block_trunc (ds (gro_reset hs)) 8 0x80 (be_bytes 8 (N.of_nat (gro_blocks p m))) d m); [|rewrite be_bytes_length; lia|exact R].
  change (md_pad bs 0x80 (be_bytes 8 (N.of_nat (gro_blocks p m))) m) with (gro_pad p m).
  destruct iv_ok as (w0 & Ew & G0 & W0). rewrite Ew. destruct (blocks_ok (chunks bs (gro_pad p m)) w0 G0) as (w1 & EB & G1 & W1).
  { apply Forall_forall. intros b Hb. split; [pose proof (chunks_all_length _ bs (gro_pad p m) ltac:(lia)) as FF; rewrite Forall_forall in FF; now apply FF|].
    unfold chunks in Hb. apply in_map_iff in Hb. destruct Hb as (i & <- & _). apply isbytes_firstn, isbytes_skipn. now apply isbytes_pad. }
  rewrite EB. destruct (output_ok p A B C E F w1 G1) as (w2 & EO & [L2 _] & W2). rewrite EO.
  assert (Q : Z.quot hs 8 = Z.of_nat out) by (rewrite Z.mul_comm; apply Z.quot_mul; discriminate). rewrite Q.
  assert (LO : out <= bs) by (unfold gro_p; destruct (Nat.leb_spec out 32); cbn [g_v gro_small gro_big]; lia).
  destruct (Z.leb_spec 0 (Z.of_nat bs - Z.of_nat out)); [|lia]. destruct (Z.leb_spec (Z.of_nat bs - Z.of_nat out) (Z.of_nat bs)); [|lia]. cbn [andb]. f_equal.
  replace (Z.to_nat (Z.of_nat bs - Z.of_nat out)) with (bs - out) by lia. unfold gro_hash. cbv zeta. change (gro_bs p) with bs. rewrite <- W0, <- W1, <- W2.
  unfold gbytes. rewrite map_app, concat_app. change (concat (map (le_bytes 8) w2)) with (concat (wcols w2)).
  assert (LC : length (concat (wcols w2)) = bs) by (rewrite <- L2; unfold wcols; rewrite concat_le_length; lia).
  unfold slice. rewrite skipn_app. replace (bs - out - length (concat (wcols w2))) with 0 by lia. rewrite skipn_O, firstn_app.
  rewrite firstn_all2 by (rewrite skipn_length; lia). rewrite skipn_length, LC. replace (bs - (bs - out) - (bs - (bs - out))) with 0 by lia. apply app_nil_r.
Qed.
Lemma new_rel : grel (gro_reset hs) [].
Proof. unfold grel. destruct par_ok as ((A & B) & _). apply relx_new; [lia|lia|reflexivity]. Qed.
Lemma write_rel : forall d m q, grel d m -> grel (fst (gro_write hs d q)) (m ++ q).
Proof.
  intros d m q R. unfold gro_write. destruct dim_ok as (_ & _ & -> & _). destruct par_ok as ((A & B) & _). apply relx_write; [lia|lia|exact block_trunc|exact R].
Qed.
End Digest.

(** C101: every object New returns (1..64 bytes), on every history that hashes less than 2^61 - 256 bytes. *)
Theorem C101_groestl_histories : forall out ops, 1 <= out <= 64 -> Forall op_bytes ops -> (8 * (ops_total ops + 256) < 2 ^ 64)%N ->
  gro_New (8 * Z.of_nat out) = Some (gro_reset (8 * Z.of_nat out)) /\
  run (gro_impl (8 * Z.of_nat out)) (gro_reset (8 * Z.of_nat out)) ops = ideal_run (groestl out) [] ops.
Proof.
  intros out ops Ho HF HB. split.
  - unfold gro_New. destruct (Z.eqb_spec (8 * Z.of_nat out) 0); [lia|]. rewrite Z.mul_comm, Z.rem_mul by discriminate. cbn [Z.ltb Z.compare].
    destruct (Z.ltb_spec 512 (Z.of_nat out * 8)); [lia|]. reflexivity.
  - apply run_refines_total with (R := fun d m => grel out d m /\ isbytes m) (B := (2305843009213693952 - 256)%N).
    + intros d m q Hq _ [R Hm]. cbn [i_write gro_impl]. split; [now apply write_rel|]. apply Forall_app. now split.
    + intros d m q _ _ [R Hm]. apply (write_post_count (g_lim (8 * Z.of_nat out))).
    + intros d m i R. exact R.
    + intros d m i HL [R Hm]. cbn [i_sum gro_impl gro_sum snd]. unfold gro_sum. cbn [snd].
      rewrite (checkSum_ok out Ho d m R Hm) by (change (2 ^ 64)%N with 18446744073709551616%N; lia). reflexivity.
    + intros d m _. cbn [i_reset gro_impl]. split; [now apply new_rel|constructor].
    + exact HF.
    + change (2 ^ 64)%N with 18446744073709551616%N in HB. cbn [length]. lia.
    + split; [now apply new_rel|constructor].
Qed.
(** The one-shot functions Sum224 (28), Sum256 (32), Sum384 (48), Sum512 (64). *)
Theorem C101_groestl_oneshot : forall out data, 1 <= out <= 64 -> isbytes data -> (8 * (N.of_nat (length data) + 256) < 2 ^ 64)%N ->
  gro_Sum out data = Some (groestl out data).
Proof.
  intros out data Ho HF HB. unfold gro_Sum. cbv zeta.
  rewrite (checkSum_ok out Ho _ data (write_rel out Ho _ _ data (new_rel out Ho)) HF HB).
  change (gro_hash (gro_p out) out data) with (groestl out data). assert (L : length (groestl out data) = out) by (apply gro_len_out; lia).
  set (g := groestl out data) in *. clearbody g. rewrite L, Nat.leb_refl. f_equal. rewrite firstn_all2 by lia. rewrite copy_at_over by (rewrite zeros_length; lia). rewrite skipn_all2 by (rewrite zeros_length; lia). apply app_nil_r.
Qed.
Theorem C101_groestl_sizes : forall out m, 1 <= out <= 64 ->
  gro_Size (8 * Z.of_nat out) = Z.of_nat (length (groestl out m)) /\ gro_BlockSize (8 * Z.of_nat out) = (if out <=? 32 then 64 else 128).
Proof.
  intros out m Ho. split.
  - unfold gro_Size. replace (length (groestl out m)) with out by (symmetry; apply gro_len_out; lia). rewrite Z.mul_comm. apply Z.quot_mul. discriminate.
  - unfold gro_BlockSize, g_lim, g_bs_bits. destruct (Nat.leb_spec out 32), (Z.ltb_spec 256 (8 * Z.of_nat out)); try lia; reflexivity.
Qed.
(** C102 (refuted): New rejects every size that is not a multiple of 8 between 8 and 512 -- false: every
    negative size is accepted; from -8 down every call of Sum on such an object panics, whatever was written. *)
Theorem C102_groestl_negative_refuted : forall hs, (hs < 0)%Z ->
  gro_New hs = Some (gro_reset hs) /\ ((hs <= -8)%Z -> forall d, gro_checkSum hs d = None).
Proof.
  intros hs H. split.
  - unfold gro_New. destruct (Z.eqb_spec hs 0); [lia|]. assert (Z.rem hs 8 <= 0)%Z by (apply Z.rem_nonpos; lia).
    destruct (Z.ltb_spec 0 (Z.rem hs 8)); [lia|]. destruct (Z.ltb_spec 512 hs); [lia|]. reflexivity.
  - intros H8 d. unfold gro_checkSum. cbv zeta.
    assert (Q : (Z.quot hs 8 <= -1)%Z) by (replace hs with (- (- hs))%Z by lia; rewrite Z.quot_opp_l by discriminate; pose proof (Z.quot_le_mono 8 (- hs) 8 ltac:(lia) ltac:(lia)) as Q; rewrite Z.quot_same in Q by discriminate; lia).
    destruct (Z.leb_spec (Z.of_nat (g_lim hs) - Z.quot hs 8) (Z.of_nat (g_lim hs))); [lia|]. now rewrite Bool.andb_false_r.
Qed.
(** Known answer of groestl_test.go. *)
From Coq Require Import String.
Open Scope string_scope.
Example C101_kat_code : gro_Sum 28 (hex "1f877c") = Some (hex "1dc3ef787d0d92a2e7b66e28a5bbc14a0f533e3946f3eeecedc001f9").
Proof. vm_compute. reflexivity. Qed.
Example C101_kat_spec : groestl 28 (hex "cc") = hex "62e367662adf9317154f877fd740c23fc2356080b477dac847be2eb2".
Proof. vm_compute. reflexivity. Qed.
Print Assumptions C101_groestl_histories.
Print Assumptions C102_groestl_negative_refuted.
