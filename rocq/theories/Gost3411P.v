(** Gost3411P.v -- refinement proofs for Gost3411.v. *)
From Coq Require Import String List NArith Arith Lia Bool.
From Verif Require Import Base Words HashAPI Buf MD Refine Kupyna StreebogTab SpecStreebog Gost3411.
Import ListNotations.

(** ** The linear map *)
Definition st_mulA_step (v : N) (acc : N) (i : nat) : N :=
  if N.testbit v (N.of_nat i) then N.lxor acc (at_ st_A (63 - i)) else acc.
Lemma st_mulA_fold : forall v, st_mulA v = fold_left (st_mulA_step v) (seq 0 64) 0%N.
Proof. reflexivity. Qed.
Lemma mulA_lin_gen : forall a b l x y,
  fold_left (st_mulA_step (N.lxor a b)) l (N.lxor x y) = N.lxor (fold_left (st_mulA_step a) l x) (fold_left (st_mulA_step b) l y).
Proof.
  intros a b l. induction l as [|i l IH]; intros x y; [reflexivity|]. rewrite !fold_left_cons. rewrite <- IH. f_equal.
  unfold st_mulA_step. rewrite N.lxor_spec. set (c := at_ st_A _). clearbody c.
  destruct (N.testbit a _), (N.testbit b _); cbn [xorb]; [| | |reflexivity].
  - rewrite (N.lxor_assoc x c), (N.lxor_comm c), N.lxor_assoc, N.lxor_nilpotent, N.lxor_0_r. reflexivity.
  - rewrite !N.lxor_assoc, (N.lxor_comm c). reflexivity.
  - now rewrite N.lxor_assoc.
Qed.
Lemma mulA_lxor : forall a b, st_mulA (N.lxor a b) = N.lxor (st_mulA a) (st_mulA b).
Proof. intros. rewrite !st_mulA_fold, <- mulA_lin_gen, N.lxor_0_l. reflexivity. Qed.
Lemma mulA_is64 : forall v, is64 (st_mulA v).
Proof.
  intros v. rewrite st_mulA_fold. assert (G : forall l x, is64 x -> is64 (fold_left (st_mulA_step v) l x)).
  { induction l as [|i l IH]; intros x Hx; [exact Hx|]. rewrite fold_left_cons. apply IH. unfold st_mulA_step.
    destruct (N.testbit _ _); [|exact Hx]. apply lxor_is64; [exact Hx|].
    assert (C : forallb (fun y => N.ltb y (2 ^ 64)) st_A = true) by (vm_compute; reflexivity).
    rewrite forallb_forall in C. unfold at_. destruct (Nat.lt_ge_cases (63 - i) (length st_A)) as [Hl|Hl].
    - apply N.ltb_lt, C, nth_In, Hl.
    - rewrite nth_overflow by exact Hl. reflexivity. }
  apply G. reflexivity.
Qed.
Opaque st_mulA.

Lemma cache_check : forallb (fun j => forallb (fun v =>
  N.eqb (at_ (nth j gs_cache_tab []) v) (st_mulA (N.shiftl (N.of_nat v) (8 * N.of_nat j)))) (seq 0 256)) (seq 0 8) = true.
Proof. vm_compute. reflexivity. Qed.
Lemma T_check : forallb (fun j => forallb (fun v =>
  N.eqb (at_ (nth j sb_T []) v) (st_mulA (N.shiftl (at_ st_pi v) (8 * N.of_nat j)))) (seq 0 256)) (seq 0 8) = true.
Proof. vm_compute. reflexivity. Qed.
Lemma pi_check : forallb (fun v => N.ltb v 256) st_pi = true.
Proof. vm_compute. reflexivity. Qed.
Lemma pi_eq : gs_pi = st_pi. Proof. vm_compute. reflexivity. Qed.
Lemma c_check : gs_c = map st_num st_C. Proof. vm_compute. reflexivity. Qed.
Lemma rc_check : map kbytes sb_RC = map st_num st_C /\ forallb (fun r => (length r =? 8) && forallb (fun w => N.ltb w (2 ^ 64)) r) sb_RC = true.
Proof. vm_compute. split; reflexivity. Qed.
Lemma tau_check : gs_tau = map (fun i => 8 * (i mod 8) + i / 8) (seq 0 64). Proof. vm_compute. reflexivity. Qed.
Lemma cache_ok : forall j b, j < 8 -> isbyte b -> at_ (nth j gs_cache_tab []) (N.to_nat b) = st_mulA (N.shiftl b (8 * N.of_nat j)).
Proof.
  intros j b Hj Hb. pose proof cache_check as C. rewrite forallb_forall in C. specialize (C j ltac:(apply in_seq; lia)).
  rewrite forallb_forall in C. specialize (C (N.to_nat b) ltac:(apply in_seq; unfold isbyte in Hb; lia)). apply N.eqb_eq in C.
  rewrite N2Nat.id in C. exact C.
Qed.
Lemma T_ok : forall j b, j < 8 -> isbyte b -> at_ (nth j sb_T []) (N.to_nat b) = st_mulA (N.shiftl (at_ st_pi (N.to_nat b)) (8 * N.of_nat j)).
Proof.
  intros j b Hj Hb. pose proof T_check as C. rewrite forallb_forall in C. specialize (C j ltac:(apply in_seq; lia)).
  rewrite forallb_forall in C. specialize (C (N.to_nat b) ltac:(apply in_seq; unfold isbyte in Hb; lia)). apply N.eqb_eq in C. exact C.
Qed.
Lemma pi_byte : forall k, isbyte (at_ st_pi k).
Proof.
  intros k. pose proof pi_check as C. rewrite forallb_forall in C. unfold at_.
  destruct (Nat.lt_ge_cases k (length st_pi)) as [Hl|Hl]; [apply N.ltb_lt, C, nth_In, Hl|].
  rewrite nth_overflow by exact Hl. reflexivity.
Qed.
Opaque gs_cache_tab sb_T st_pi gs_pi gs_c st_C.

(** eight bytes as a number *)
Lemma le_val8 : forall b0 b1 b2 b3 b4 b5 b6 b7, isbytes [b0; b1; b2; b3; b4; b5; b6; b7] ->
  le_val [b0; b1; b2; b3; b4; b5; b6; b7] =
  N.lxor (N.lxor (N.lxor (N.lxor (N.lxor (N.lxor (N.lxor (N.shiftl b0 (8 * N.of_nat 0)) (N.shiftl b1 (8 * N.of_nat 1))) (N.shiftl b2 (8 * N.of_nat 2))) (N.shiftl b3 (8 * N.of_nat 3))) (N.shiftl b4 (8 * N.of_nat 4))) (N.shiftl b5 (8 * N.of_nat 5))) (N.shiftl b6 (8 * N.of_nat 6))) (N.shiftl b7 (8 * N.of_nat 7)).
Proof.
  assert (G : forall a b, isbyte a -> le_val (a :: b) = N.lxor a (N.shiftl (le_val b) 8)).
  { intros a b Ha. change (a :: b) with ([a] ++ b). rewrite (le_val_app_lxor [a] b) by (constructor; auto). rewrite le_val_1. reflexivity. }
  intros. unfold isbytes in *. repeat match goal with H : Forall isbyte (_ :: _) |- _ => let a := fresh in pose proof (Forall_inv H) as a; apply Forall_inv_tail in H end.
  rewrite !G by assumption. change (le_val []) with 0%N. rewrite N.shiftl_0_l, N.lxor_0_r.
  rewrite ?N.shiftl_lxor, ?N.shiftl_shiftl, <- ?N.lxor_assoc. change (8 * N.of_nat 0)%N with 0%N. rewrite N.shiftl_0_r. reflexivity.
Qed.

(** ** LPS, bytes *)
Lemma st_xor_len : forall a b, length (st_xor a b) = 64.
Proof. intros. unfold st_xor. now rewrite map_length, seq_length. Qed.
Lemma gs_xor_eq : forall a b, gs_xor a b = st_xor a b.
Proof. reflexivity. Qed.
Opaque st_pi.
Lemma fold_upd_len : forall (l : list nat) (f : nat -> nat) (g : nat -> N) buf, length (fold_left (fun b i => upd b (f i) (g i)) l buf) = length buf.
Proof. induction l as [|i l IH]; intros; [reflexivity|]. rewrite fold_left_cons, IH. apply upd_length. Qed.
Lemma fold_upd_other : forall (l : list nat) (f : nat -> nat) (g : nat -> N) buf j, (forall i, In i l -> f i <> j) ->
  at_ (fold_left (fun b i => upd b (f i) (g i)) l buf) j = at_ buf j.
Proof.
  induction l as [|i l IH]; intros f g buf j H; [reflexivity|]. rewrite fold_left_cons, IH.
  - unfold at_. apply nth_upd_other. apply H. now left.
  - intros k Hk. apply H. now right.
Qed.
Lemma fold_upd_at : forall (l : list nat) (f : nat -> nat) (g : nat -> N) buf i, NoDup l -> (forall a b, In a l -> In b l -> f a = f b -> a = b) ->
  In i l -> f i < length buf -> at_ (fold_left (fun b i => upd b (f i) (g i)) l buf) (f i) = g i.
Proof.
  induction l as [|k l IH]; intros f g buf i HN Hinj Hi Hf; [destruct Hi|]. rewrite fold_left_cons. inversion HN as [|? ? Hk HN']; subst.
  destruct (Nat.eq_dec k i) as [->|Hne].
  - rewrite fold_upd_other. + unfold at_. now apply nth_upd_same.
    + intros a Ha E. apply Hk. assert (a = i) by (apply Hinj; [now right|now left|exact E]). now subst.
  - destruct Hi as [->|Hi]; [contradiction|]. apply IH; auto.
    + intros a b Ha Hb. apply Hinj; now right. + now rewrite upd_length.
Qed.
Lemma list_eq_at : forall a b : list N, length a = length b -> (forall i, i < length a -> at_ a i = at_ b i) -> a = b.
Proof. intros a b L H. apply (nth_ext _ _ 0%N 0%N L). exact H. Qed.
Lemma tr_lt : forall j, j < 64 -> 8 * (j mod 8) + j / 8 < 64.
Proof. intros j H. pose proof (Nat.mod_upper_bound j 8 ltac:(lia)). pose proof (Nat.div_lt_upper_bound j 8 8 ltac:(lia) ltac:(lia)). lia. Qed.
Lemma tr_tr : forall j, j < 64 -> let k := 8 * (j mod 8) + j / 8 in 8 * (k mod 8) + k / 8 = j.
Proof.
  intros j H k. unfold k. pose proof (Nat.div_lt_upper_bound j 8 8 ltac:(lia) ltac:(lia)).
  rewrite (Nat.add_comm (8 * (j mod 8))), (Nat.mul_comm 8 (j mod 8)), Nat.mod_add, Nat.div_add by lia.
  rewrite (Nat.mod_small (j / 8)), (Nat.div_small (j / 8)) by lia. pose proof (Nat.div_mod j 8 ltac:(lia)). lia.
Qed.
Lemma gs_ps_ok : forall x, length x = 64 -> gs_ps x = st_P (st_S x).
Proof.
  intros x Lx. unfold gs_ps. rewrite pi_eq.
  set (f := fun i => nth i gs_tau 0). set (g := fun i => at_ st_pi (N.to_nat (at_ x i))).
  change (fold_left _ _ _) with (fold_left (fun b i => upd b (f i) (g i)) (seq 0 64) (zeros 64)).
  assert (Hf : forall i, i < 64 -> f i = 8 * (i mod 8) + i / 8).
  { intros i Hi. unfold f. rewrite tau_check. rewrite (nth_indep _ 0 ((fun i => 8 * (i mod 8) + i / 8) 0)) by (now rewrite map_length, seq_length).
    rewrite (map_nth (fun i => 8 * (i mod 8) + i / 8)), seq_nth by exact Hi. reflexivity. }
  apply list_eq_at.
  { rewrite fold_upd_len, zeros_length. unfold st_P. now rewrite map_length, seq_length. }
  rewrite fold_upd_len, zeros_length. intros j Hj. unfold st_P. rewrite at_map_seq by exact Hj.
  pose proof (tr_lt j Hj) as Hk. pose proof (tr_tr j Hj) as E. cbv zeta in E. set (k := 8 * (j mod 8) + j / 8) in *. clearbody k.
  assert (Ej : j = f k) by (rewrite Hf by exact Hk; lia). rewrite Ej at 1.
  rewrite fold_upd_at.
  - unfold g, st_S, at_. rewrite (nth_indep (map _ x) 0%N ((fun b => at_ st_pi (N.to_nat b)) 0%N)) by (rewrite map_length; lia).
    rewrite (map_nth (fun b => at_ st_pi (N.to_nat b))). reflexivity.
  - apply seq_NoDup.
  - intros a b Ha Hb Eab. apply in_seq in Ha, Hb. rewrite !Hf in Eab by lia.
    pose proof (tr_tr a ltac:(lia)) as Ea. pose proof (tr_tr b ltac:(lia)) as Eb. cbv zeta in Ea, Eb. rewrite Eab in Ea. congruence.
  - apply in_seq. lia.
  - rewrite zeros_length. rewrite <- Ej. exact Hj.
Qed.
Lemma st_P_len : forall x, length (st_P x) = 64.
Proof. intros. unfold st_P. now rewrite map_length, seq_length. Qed.
Lemma at_isbyte : forall x i, isbytes x -> isbyte (at_ x i).
Proof.
  intros x i H. unfold at_. destruct (Nat.lt_ge_cases i (length x)) as [Hl|Hl].
  - unfold isbytes in H. rewrite Forall_forall in H. apply H, nth_In, Hl. - rewrite nth_overflow by exact Hl. reflexivity.
Qed.
Lemma st_PS_bytes : forall x, isbytes (st_P (st_S x)).
Proof.
  intros x. unfold st_P. apply Forall_map, Forall_forall. intros j _. apply at_isbyte. unfold st_S. apply Forall_map, Forall_forall. intros b _. apply pi_byte.
Qed.
Lemma chunks_seq : forall (x : list N) n, length x = 8 * n -> chunks 8 x = map (fun i => slice x (8 * i) (8 * i + 8)) (seq 0 n).
Proof.
  intros x n L. unfold chunks. rewrite L, Nat.mul_comm, Nat.div_mul by lia. apply map_ext. intros i. unfold slice.
  replace (8 * i + 8 - 8 * i) with 8 by lia. now rewrite (Nat.mul_comm i 8).
Qed.
Lemma slice8 : forall (x : list N) i, 8 * i + 8 <= length x ->
  slice x (8 * i) (8 * i + 8) = [at_ x (8 * i + 0); at_ x (8 * i + 1); at_ x (8 * i + 2); at_ x (8 * i + 3); at_ x (8 * i + 4); at_ x (8 * i + 5); at_ x (8 * i + 6); at_ x (8 * i + 7)].
Proof.
  intros x i H. unfold slice. replace (8 * i + 8 - 8 * i) with 8 by lia.
  assert (G : forall k, k < 8 -> at_ x (8 * i + k) = at_ (skipn (8 * i) x) k).
  { intros k Hk. unfold at_. rewrite <- (firstn_skipn (8 * i) x) at 1. rewrite app_nth2; rewrite firstn_length_le by lia; [|lia]. f_equal. lia. }
  rewrite !G by lia. assert (L : 8 <= length (skipn (8 * i) x)) by (rewrite skipn_length; lia). set (y := skipn (8 * i) x) in *. clearbody y. clear - L.
  do 8 (destruct y as [|? y]; [simpl in L; lia|]). reflexivity.
Qed.
Lemma gs_l_ok : forall x, length x = 64 -> isbytes x -> gs_l x = st_L x.
Proof.
  intros x Lx Hx. unfold gs_l, st_L. rewrite (chunks_seq x 8 Lx), map_map. f_equal. apply map_ext_in. intros i Hi. apply in_seq in Hi.
  cbv zeta. f_equal. rewrite slice8 by lia.
  rewrite le_val8 by (repeat constructor; apply at_isbyte; exact Hx).
  rewrite !mulA_lxor, !cache_ok by (try lia; apply at_isbyte; exact Hx). rewrite N.lxor_0_l. reflexivity.
Qed.
Lemma gs_lps_ok : forall x, length x = 64 -> gs_l (gs_ps x) = st_LPS x.
Proof. intros x L. rewrite gs_ps_ok by exact L. apply gs_l_ok. apply st_P_len. apply st_PS_bytes. Qed.
Lemma st_L_len : forall x, length x = 64 -> length (st_L x) = 64.
Proof. intros x L. unfold st_L. rewrite <- (map_map (fun r => st_mulA (le_val r)) (le_bytes 8)), concat_le_length, map_length, chunks_length, L. reflexivity. Qed.
Lemma st_LPS_len : forall x, length (st_LPS x) = 64.
Proof. intros. unfold st_LPS. apply st_L_len, st_P_len. Qed.
Lemma gs_e_ok : forall k m, gs_e k m = st_E k m.
Proof.
  intros k m. unfold gs_e, st_E. rewrite c_check.
  assert (Lc : length st_C = 12) by reflexivity.
  assert (G : forall (l1 l2 : list N) k m, length (l1 ++ l2) = 12 ->
    fold_left (fun '(k, msg) i => let msg := gs_l (gs_ps (gs_xor k msg)) in let k := gs_l (gs_ps (gs_xor k (nth i (map st_num (l1 ++ l2)) []))) in (k, msg)) (seq (length l1) (length l2)) (k, m)
    = fold_left (fun '(k, m) c => (st_LPS (st_xor k (st_num c)), st_LPS (st_xor k m))) l2 (k, m)).
  { intros l1 l2. revert l1. induction l2 as [|c l2 IH]; intros l1 k0 m0 L; [reflexivity|].
    cbn [length]. rewrite seq_cons, !fold_left_cons. cbv zeta beta iota.
    rewrite !gs_xor_eq, !gs_lps_ok by apply st_xor_len.
    replace (nth (length l1) (map st_num (l1 ++ c :: l2)) []) with (st_num c).
    2:{ rewrite map_app, app_nth2; rewrite map_length; [|lia]. rewrite Nat.sub_diag. reflexivity. }
    specialize (IH (l1 ++ [c]) (st_LPS (st_xor k0 (st_num c))) (st_LPS (st_xor k0 m0))).
    assert (El : length (l1 ++ [c]) = S (length l1)) by (rewrite app_length; simpl; lia). rewrite El in IH.
    rewrite <- app_assoc in IH. cbn [app] in IH. exact (IH L). }
  specialize (G [] st_C k m). cbn [app length] in G. rewrite Lc in G. rewrite (G eq_refl).
  destruct (fold_left _ _ _) as [k' m']. reflexivity.
Qed.
Lemma at_app0 : forall (a : list N) k i, at_ (a ++ zeros k) i = at_ a i.
Proof.
  intros. unfold at_. destruct (Nat.lt_ge_cases i (length a)); [now apply app_nth1|]. rewrite app_nth2, (nth_overflow a) by assumption.
  unfold zeros. destruct (Nat.lt_ge_cases (i - length a) k); [apply nth_repeat|apply nth_overflow; rewrite repeat_length; lia].
Qed.
Lemma le_bytes_small : forall j k n, (n < 2 ^ (8 * N.of_nat j))%N -> le_bytes (j + k) n = le_bytes j n ++ zeros k.
Proof.
  intros j k n H. rewrite le_bytes_app. f_equal. replace (N.shiftr _ _) with 0%N.
  - clear. induction k as [|k IH]; [reflexivity|]. cbn [le_bytes]. change (N.shiftr 0 8) with 0%N. change (w8 0) with 0%N. rewrite IH. reflexivity.
  - symmetry. rewrite N.shiftr_div_pow2. now apply N.div_small.
Qed.
Lemma num_small : forall n, is64 n -> st_num n = le_bytes 8 n ++ zeros 56.
Proof. intros n H. apply (le_bytes_small 8 56). exact H. Qed.
Lemma gs_out_ok : forall n h, is64 n -> length h = 64 ->
  fold_left (fun out i => upd out i (N.lxor (at_ out i) (w8 (N.shiftr n (8 * N.of_nat i))))) (seq 0 8) h = st_xor h (st_num n).
Proof.
  intros n h Hn Lh. rewrite num_small by exact Hn.
  assert (E : st_xor h (le_bytes 8 n ++ zeros 56) = map (fun i => N.lxor (at_ h i) (w8 (N.shiftr n (8 * N.of_nat i)))) (seq 0 8) ++ skipn 8 h).
  { apply list_eq_at. - rewrite st_xor_len, app_length, map_length, seq_length, skipn_length. lia.
    - rewrite st_xor_len. intros i Hi. unfold st_xor. rewrite at_map_seq by exact Hi. rewrite at_app0.
      unfold at_ at 3. destruct (Nat.lt_ge_cases i 8) as [H8|H8].
      + rewrite app_nth1 by (now rewrite map_length, seq_length). fold (at_ (map (fun i => N.lxor (at_ h i) (w8 (N.shiftr n (8 * N.of_nat i)))) (seq 0 8)) i).
        rewrite at_map_seq by exact H8. rewrite at_le_bytes by exact H8. reflexivity.
      + unfold at_ at 2. rewrite nth_overflow by (rewrite le_bytes_length; exact H8). rewrite N.lxor_0_r.
        rewrite app_nth2; rewrite map_length, seq_length; [|exact H8].
        unfold at_. rewrite <- (firstn_skipn 8 h) at 1. rewrite app_nth2; rewrite firstn_length_le by lia; [reflexivity|exact H8]. }
  rewrite E. clear E. do 8 (destruct h as [|? h]; [simpl in Lh; lia|]).
  set (f := fun i => w8 (N.shiftr n (8 * N.of_nat i))).
  change (fold_left (fun out i => upd out i (N.lxor (at_ out i) (f i))) (seq 0 8) (n0 :: n1 :: n2 :: n3 :: n4 :: n5 :: n6 :: n7 :: h) =
    map (fun i => N.lxor (at_ (n0 :: n1 :: n2 :: n3 :: n4 :: n5 :: n6 :: n7 :: h) i) (f i)) (seq 0 8) ++ skipn 8 (n0 :: n1 :: n2 :: n3 :: n4 :: n5 :: n6 :: n7 :: h)).
  clearbody f. reflexivity.
Qed.
Lemma gs_g_ok : forall n h m, is64 n -> length h = 64 -> gs_g n h m = st_g n h m.
Proof.
  intros n h m Hn Lh. unfold gs_g, st_g. cbv zeta. rewrite gs_out_ok by assumption. rewrite gs_lps_ok by apply st_xor_len. rewrite gs_e_ok. reflexivity.
Qed.
Lemma st_g_len : forall n h m, length (st_g n h m) = 64.
Proof. intros. apply st_xor_len. Qed.

(** ** the 512-bit addition *)
Fixpoint addc (c : N) (a b : list N) : list N :=
  match a, b with
  | x :: a, y :: b => w8 (x + y + c) :: addc (N.shiftr (x + y + c) 8) a b
  | _, _ => []
  end.
Lemma addc_ok : forall a b c, length a = length b -> addc c a b = le_bytes (length a) (le_val a + le_val b + c).
Proof.
  induction a as [|x a IH]; intros [|y b] c L; try discriminate; [reflexivity|]. cbn [addc length le_bytes le_val].
  assert (E : (x + 256 * le_val a + (y + 256 * le_val b) + c = (x + y + c) + (le_val a + le_val b) * 256)%N) by lia. rewrite E. f_equal.
  - rewrite !w8_mod. now rewrite N.mod_add by lia.
  - rewrite IH by (simpl in L; lia). f_equal. rewrite !N.shiftr_div_pow2. change (2 ^ 8)%N with 256%N. rewrite N.div_add by lia. lia.
Qed.
Lemma gs_add_ok : forall a b, length a = 64 -> length b = 64 -> isbytes a -> isbytes b -> gs_add a b = st_add a b.
Proof.
  intros a b La Lb Ha Hb. unfold gs_add, st_add. rewrite <- (N.add_0_r (le_val a + le_val b)). rewrite <- La at 2. rewrite <- addc_ok by lia.
  assert (G : forall k i ss out, i + k = 64 -> (ss < 65536)%N ->
    snd (fold_left (fun '(ss, dst) i => let ss := w16 (at_ a i + at_ b i + N.shiftr ss 8) in (ss, dst ++ [N.land 0xFF ss])) (seq i k) (ss, out))
    = out ++ addc (N.shiftr ss 8) (skipn i a) (skipn i b)).
  { induction k as [|k IH]; intros i ss out Hi Hss.
    - rewrite !skipn_all2 by lia. cbn [seq fold_left snd addc]. now rewrite app_nil_r.
    - rewrite seq_cons, fold_left_cons. cbv zeta beta iota. set (s' := w16 _).
      assert (B : (at_ a i + at_ b i + N.shiftr ss 8 < 65536)%N).
      { pose proof (at_isbyte a i Ha). pose proof (at_isbyte b i Hb). unfold isbyte in *.
        assert (N.shiftr ss 8 < 256)%N by (rewrite N.shiftr_div_pow2; apply N.div_lt_upper_bound; [discriminate|exact Hss]). lia. }
      assert (Es : s' = (at_ a i + at_ b i + N.shiftr ss 8)%N) by (unfold s'; rewrite w16_mod; now apply N.mod_small).
      rewrite IH by (first [lia | rewrite Es; exact B]). rewrite <- app_assoc. cbn [app]. f_equal.
      assert (Sk : forall x : list N, i < length x -> skipn i x = at_ x i :: skipn (S i) x).
      { clear. intros x. revert i. induction x as [|y x IH]; intros i H; [simpl in H; lia|]. destruct i; [reflexivity|]. simpl in H. cbn [skipn]. rewrite IH by lia. reflexivity. }
      rewrite (Sk a), (Sk b) by lia. cbn [addc]. rewrite Es. f_equal. rewrite N.land_comm. reflexivity. }
  rewrite (G 64 0) by (lia || reflexivity). reflexivity.
Qed.
Lemma st_add_len : forall a b, length (st_add a b) = 64. Proof. intros. apply le_bytes_length. Qed.
Lemma st_add_bytes : forall a b, isbytes (st_add a b). Proof. intros. apply le_bytes_isbytes. Qed.

(** ** gost34112012 refines the standard *)
Definition st_init (size : nat) : list N * N * list N := (repeat (if size =? 32 then 1%N else 0%N) 64, 0%N, zeros 64).
Definition st_ok (s : list N * N * list N) : Prop :=
  let '(h, n, sg) := s in length h = 64 /\ length sg = 64 /\ isbytes sg.
Lemma st_init_ok : forall size, st_ok (st_init size).
Proof. intros. split; [apply repeat_length|]. split; [apply zeros_length|apply zeros_isbytes]. Qed.
Lemma st_step_ok : forall s m, st_ok s -> st_ok (st_step st_add s m).
Proof. intros [[h n] sg] m _. cbn [st_step st_ok]. split; [apply st_g_len|]. split; [apply st_add_len|apply st_add_bytes]. Qed.
Opaque gs_g st_g gs_add st_add.
Lemma gs_loop_ok : forall fuel d, length (go_buf d) <= fuel -> isbytes (go_buf d) ->
  (go_n d + 8 * N.of_nat (length (go_buf d)) < 2 ^ 64)%N -> st_ok (go_hsh d, go_n d, go_chk d) ->
  let s := fold_left (st_step st_add) (chunks 64 (go_buf d)) (go_hsh d, go_n d, go_chk d) in
  gs_loop fuel d = mkgost (go_size d) (rest 64 (go_buf d)) (snd (fst s)) (fst (fst s)) (snd s) /\ st_ok s.
Proof.
  induction fuel as [|fuel IH]; intros [size buf n h c] Hl Hb Hn Hok; cbn [go_size go_buf go_n go_hsh go_chk] in *.
  - destruct buf; [|simpl in Hl; lia]. cbv zeta. rewrite chunks_short, rest_short by (simpl; lia). split; [reflexivity|exact Hok].
  - cbn [gs_loop go_size go_buf go_n go_hsh go_chk]. destruct (Nat.leb_spec 64 (length buf)) as [H|H].
    + rewrite chunks_cons, rest_cons by lia. cbv zeta. rewrite fold_left_cons.
      pose proof (st_step_ok _ (firstn 64 buf) Hok) as Hok'.
      destruct Hok as (Lh & Lc & Bc).
      assert (E512 : add64 n 512 = (n + 512)%N) by (unfold add64; apply w64_small; change 18446744073709551616%N with (2 ^ 64)%N; lia).
      rewrite E512. cbn [st_step] in Hok' |- *.
      rewrite gs_g_ok by (first [unfold is64; lia | assumption]).
      rewrite gs_add_ok by (first [assumption | rewrite firstn_length; lia | now apply isbytes_firstn]).
      apply (IH (mkgost size (skipn 64 buf) (n + 512) (st_g n h (firstn 64 buf)) (st_add c (firstn 64 buf)))); cbn [go_size go_buf go_n go_hsh go_chk].
      * rewrite skipn_length. lia.
      * now apply isbytes_skipn.
      * rewrite skipn_length. lia.
      * exact Hok'.
    + cbv zeta. rewrite chunks_short, rest_short by lia. split; [reflexivity|exact Hok].
Qed.
Lemma st_fold_n : forall add l s, snd (fst (fold_left (st_step add) l s)) = (snd (fst s) + 512 * N.of_nat (length l))%N.
Proof.
  induction l as [|x l IH]; intros [[h n] c]; cbn [length]. { cbn [fold_left fst snd]. lia. }
  rewrite fold_left_cons, IH. cbn [st_step fst snd]. lia.
Qed.
Definition grel (size : nat) (d : gost) (m : list N) : Prop :=
  go_size d = size /\ go_buf d = rest 64 m /\ isbytes m /\
  (go_hsh d, go_n d, go_chk d) = fold_left (st_step st_add) (chunks 64 m) (st_init size) /\
  st_ok (go_hsh d, go_n d, go_chk d).
Lemma grel_new : forall size d, go_size d = size -> grel size (gs_reset d) [].
Proof.
  intros size d <-. split; [reflexivity|]. split; [reflexivity|]. split; [constructor|]. split; [reflexivity|]. apply (st_init_ok (go_size d)).
Qed.
Lemma grel_n : forall size d m, grel size d m -> go_n d = (512 * N.of_nat (length m / 64))%N.
Proof.
  intros size d m (_ & _ & _ & E & _). pose proof (st_fold_n st_add (chunks 64 m) (st_init size)) as H. rewrite <- E in H. cbn [fst snd st_init] in H.
  rewrite H, chunks_length. lia.
Qed.
Lemma grel_n_bits : forall size d m, grel size d m -> (go_n d + 8 * N.of_nat (length (rest 64 m)) = 8 * N.of_nat (length m))%N.
Proof.
  intros size d m H. rewrite (grel_n size d m H), rest_length by lia. pose proof (Nat.div_mod (length m) 64 ltac:(lia)). lia.
Qed.
Lemma grel_write : forall size d m p, isbytes p -> (N.of_nat (length (m ++ p)) < 2 ^ 61)%N -> grel size d m -> grel size (fst (gs_write d p)) (m ++ p).
Proof.
  intros size d m p Hp HB HR. pose proof (grel_n_bits size d m HR) as En. destruct HR as (Es & Eb & Bm & E & Hok).
  unfold gs_write. cbv zeta. cbn [fst go_buf]. set (d1 := mkgost _ _ _ _ _).
  assert (Bb : isbytes (go_buf d1)) by (unfold d1; cbn [go_buf]; rewrite Eb; apply isbytes_app; split; [now apply isbytes_rest|exact Hp]).
  destruct (gs_loop_ok (length (go_buf d1)) d1 ltac:(lia) Bb) as [El Hok'].
  { unfold d1. cbn [go_buf go_n]. rewrite app_length, Eb. rewrite app_length in HB. change (2 ^ 64)%N with (8 * 2 ^ 61)%N. lia. }
  { exact Hok. }
  change (go_buf d ++ p) with (go_buf d1). cbv zeta in El, Hok'. rewrite El. clear El. unfold d1 in *. cbn [go_size go_buf go_n go_hsh go_chk] in *. rewrite Eb in *. rewrite E in *.
  rewrite <- fold_left_app, <- chunks_app in * by lia.
  split; [exact Es|]. split; [cbn [go_buf]; symmetry; apply rest_app; lia|]. split; [now apply isbytes_app|].
  cbn [go_hsh go_n go_chk].
  destruct (fold_left (st_step st_add) (chunks 64 (m ++ p)) (st_init size)) as [[h n] c]. split; [reflexivity|exact Hok'].
Qed.
Lemma buf_pad : forall r, length r < 64 -> upd (copy_at (zeros 64) 0 r) (length r) 1%N = r ++ 1%N :: zeros (63 - length r).
Proof.
  intros r Hr. replace (copy_at (zeros 64) 0 r) with (r ++ 0%N :: zeros (63 - length r)); [apply upd_app_at|].
  unfold copy_at. change (firstn 0 (zeros 64)) with (@nil N). rewrite zeros_length, Nat.sub_0_r, (firstn_all2 (n := 64) r) by lia. cbn [app]. f_equal.
  rewrite Nat.add_0_l, skipn_zeros. replace (64 - Nat.min 64 (length r)) with (S (63 - length r)) by lia. reflexivity.
Qed.
Lemma num_copy : forall n, is64 n -> copy_at (zeros 64) 0 (le_bytes 8 n) = st_num n.
Proof. intros n H. rewrite (num_small n H). reflexivity. Qed.
Lemma gs_checkSum_ok : forall size d m, size = 32 \/ size = 64 -> (N.of_nat (length m) < 2 ^ 61)%N -> grel size d m ->
  gs_checkSum d = Some (st_hash_with st_add size m).
Proof.
  intros size d m Hsz HB HR. pose proof (grel_n_bits size d m HR) as En. destruct HR as (Es & Eb & Bm & E & Hok).
  unfold gs_checkSum, st_hash_with. fold (st_init size). rewrite <- E. cbv zeta. rewrite Eb, Es.
  pose proof (rest_length_lt _ 64 m ltac:(lia)) as Lr. pose proof (isbytes_rest 64 m Bm) as Br. set (r := rest 64 m) in *. clearbody r.
  assert (Ef : (64 <=? length r) = false) by (apply Nat.leb_gt; exact Lr). rewrite Ef. clear Ef.
  rewrite buf_pad by exact Lr.
  assert (En2 : add64 (go_n d) (mul64 (N.of_nat (length r)) 8) = (go_n d + 8 * N.of_nat (length r))%N).
  { unfold mul64, add64. rewrite w64_add_r, (N.mul_comm _ 8). apply w64_small. change 18446744073709551616%N with (8 * 2 ^ 61)%N. lia. }
  rewrite En2. assert (I64 : is64 (go_n d + 8 * N.of_nat (length r))) by (unfold is64; change (2 ^ 64)%N with (8 * 2 ^ 61)%N; lia).
  rewrite num_copy by exact I64.
  destruct Hok as (Lh & Lc & Bc).
  rewrite (gs_g_ok (go_n d)) by (first [unfold is64 in *; lia | exact Lh]).
  rewrite gs_add_ok; [| exact Lc | rewrite app_length; cbn [length]; rewrite zeros_length; lia | exact Bc |].
  2:{ apply isbytes_app. split; [exact Br|]. constructor; [reflexivity|apply zeros_isbytes]. }
  rewrite (gs_g_ok 0%N (st_g _ _ _)) by (first [reflexivity | apply st_g_len]).
  rewrite (gs_g_ok 0%N (st_g _ _ _)) by (first [reflexivity | apply st_g_len]).
  destruct Hsz as [-> | ->]; [reflexivity|]. f_equal.
Qed.
Lemma gs_run : forall size d, size = 32 \/ size = 64 -> gs_new size = Some d ->
  forall ops, Forall op_bytes ops -> (ops_total ops < 2 ^ 61)%N -> run gs_impl d ops = ideal_run (st_hash_with st_add size) [] ops.
Proof.
  intros size d Hsz Ed ops HF HB.
  assert (Hd : grel size d []).
  { unfold gs_new in Ed. destruct (_ && _); [discriminate|]. apply some_inj in Ed. subst d. now apply grel_new. }
  apply (run_refines_total _ gs_impl (st_hash_with st_add size) (grel size) (2 ^ 61)%N); auto.
  - intros e m p Hp HL H. now apply grel_write.
  - intros e m i HL H. cbn [i_sum gs_impl gs_sum snd]. rewrite (gs_checkSum_ok size e m Hsz HL H). reflexivity.
  - intros e m H. apply grel_new. apply H.
Qed.

(** marshalling *)
Lemma gs_roundtrip : forall d, go_size d < 256 -> is64 (go_n d) -> length (go_hsh d) = 64 -> length (go_chk d) = 64 ->
  gs_unmarshal (gs_marshal d) = Some d.
Proof.
  intros [size buf n h c] Hs Hn Lh Lc. cbn [go_size go_n go_hsh go_chk] in *. unfold gs_unmarshal, gs_marshal.
  cbn [go_size go_buf go_n go_hsh go_chk].
  assert (Ln : length gs_name = 8) by reflexivity. set (nm := gs_name) in *. clearbody nm.
  pose proof (be_bytes_length 8 n) as L8. set (b8 := be_bytes 8 n) in *.
  rewrite !app_length, Ln, L8, Lh, Lc. cbn [length].
  replace (8 + (1 + (8 + (64 + (64 + length buf)))) <? 145) with false by (symmetry; apply Nat.ltb_ge; lia).
  rewrite firstn_app_len by exact Ln. destruct (list_eq_dec N.eq_dec nm nm) as [_|C]; [|contradiction]. cbn [negb].
  f_equal.
  assert (A1 : at_ (nm ++ [w8 (N.of_nat size)] ++ b8 ++ h ++ c ++ buf) 8 = N.of_nat size).
  { unfold at_. rewrite app_nth2; rewrite Ln; [|lia]. cbn [app nth Nat.sub]. apply w8_small. lia. }
  rewrite A1, Nat2N.id.
  assert (S1 : forall (a l : list N) k j, length a = k -> slice (a ++ l) (k + 0) (k + j) = firstn j l).
  { intros a l k j <-. unfold slice. replace (length a + j - (length a + 0)) with j by lia. rewrite Nat.add_0_r, skipn_app_len by reflexivity. reflexivity. }
  assert (E1 : slice (nm ++ [w8 (N.of_nat size)] ++ b8 ++ h ++ c ++ buf) 9 17 = b8).
  { rewrite app_assoc. etransitivity; [apply (S1 _ _ 9 8); rewrite app_length, Ln; reflexivity|]. now apply firstn_app_len. }
  assert (E2 : slice (nm ++ [w8 (N.of_nat size)] ++ b8 ++ h ++ c ++ buf) 17 81 = h).
  { rewrite !app_assoc, <- (app_assoc _ c), <- (app_assoc _ h). etransitivity; [apply (S1 _ _ 17 64); rewrite !app_length, Ln, L8; reflexivity|]. now apply firstn_app_len. }
  assert (E3 : slice (nm ++ [w8 (N.of_nat size)] ++ b8 ++ h ++ c ++ buf) 81 145 = c).
  { rewrite !app_assoc, <- (app_assoc _ c). etransitivity; [apply (S1 _ _ 81 64); rewrite !app_length, Ln, L8, Lh; reflexivity|]. now apply firstn_app_len. }
  rewrite E1, E2, E3.
  assert (E4 : skipn 145 (nm ++ [w8 (N.of_nat size)] ++ b8 ++ h ++ c ++ buf) = buf).
  { rewrite !app_assoc. apply skipn_app_len. rewrite !app_length, Ln, L8, Lh, Lc. reflexivity. }
  rewrite E4. f_equal. unfold b8. rewrite be_val_be_bytes. apply N.mod_small. exact Hn.
Qed.
