(** PropHamsi.v -- C123: the hamsi package. *)
From Coq Require Import List NArith Arith Lia Bool.
Require Import Verif.Base Verif.Words Verif.HashAPI Verif.Refine Verif.Threefish Verif.PropHavalM Verif.SpecHamsi Verif.HamsiTab Verif.Hamsi.
Import ListNotations.
Local Open Scope nat_scope.
(** ** Message expansion *)
Definition sel (b : bool) (x : N) : N := if b then x else 0%N.
Lemma gen_rows : forall v, map (fun i => nth (2 * i) (hm_Tsrc v) []) (seq 0 (4 * hm_r v)) = hm_G v /\
  map (fun i => nth (2 * i + 1) (hm_Tsrc v) []) (seq 0 (4 * hm_r v)) = map hm_timesw (hm_G v) /\
  forallb (fun g => length g =? 2 * hm_r v) (hm_G v) = true /\ forallb (fun g => length (hm_timesw g) =? 2 * hm_r v) (hm_G v) = true /\ length (hm_G v) = 4 * hm_r v.
Proof. intro v. destruct v; vm_compute; repeat split. Qed.
Lemma nth_map_seq : forall A (f : nat -> A) n i d, i < n -> nth i (map f (seq 0 n)) d = f i.
Proof. intros A f n i d H. rewrite (nth_indep _ d (f 0)) by (rewrite map_length, seq_length; exact H). rewrite map_nth, seq_nth by exact H. reflexivity. Qed.
Lemma g_row : forall v i, i < 4 * hm_r v -> nth i (hm_G v) [] = nth (2 * i) (hm_Tsrc v) [] /\ hm_timesw (nth i (hm_G v) []) = nth (2 * i + 1) (hm_Tsrc v) [] /\
  length (nth i (hm_G v) []) = 2 * hm_r v /\ length (hm_timesw (nth i (hm_G v) [])) = 2 * hm_r v.
Proof.
  intros v i Hi. destruct (gen_rows v) as (E0 & E1 & L0 & L1 & LG). split; [|split; [|split]].
  - rewrite <- E0. apply (nth_map_seq _ (fun i => nth (2 * i) (hm_Tsrc v) [])). exact Hi.
  - transitivity (nth i (map hm_timesw (hm_G v)) []).
    + rewrite (nth_indep (map _ _) [] (hm_timesw [])) by (rewrite map_length; lia). symmetry. apply map_nth.
    + rewrite <- E1. apply (nth_map_seq _ (fun i => nth (2 * i + 1) (hm_Tsrc v) [])). exact Hi.
  - rewrite forallb_forall in L0. apply Nat.eqb_eq, L0, nth_In. lia.
  - rewrite forallb_forall in L1. apply Nat.eqb_eq, L1, nth_In. lia.
Qed.
Lemma xors_length : forall a b, length b = length a -> length (hm_xors a b) = length a.
Proof. intros a b H. unfold hm_xors. rewrite map_length, combine_length. lia. Qed.
Lemma at_xors : forall a b z, length b = length a -> z < length a -> at_ (hm_xors a b) z = N.lxor (at_ a z) (at_ b z).
Proof.
  induction a as [|x a IH]; intros [|y b] z H Hz; cbn [length] in *; try lia. destruct z as [|z]; [reflexivity|].
  unfold hm_xors, at_ in *. cbn [combine map nth]. apply IH; lia.
Qed.
Lemma if_length : forall b a, length (hm_if b a) = length a. Proof. intros [|] a; [reflexivity|apply map_length]. Qed.
Lemma at_if : forall b a z, at_ (hm_if b a) z = sel b (at_ a z).
Proof. intros [|] a z; [reflexivity|]. cbn [hm_if sel]. unfold at_. revert z. induction a as [|x a IH]; intros [|z]; cbn [map nth]; auto. Qed.
Lemma f4_at : forall x1 x0 a z n, length a = n -> length (hm_timesw a) = n -> z < n -> length (hm_f4 x1 x0 a) = n /\ at_ (hm_f4 x1 x0 a) z = N.lxor (sel x0 (at_ a z)) (sel x1 (at_ (hm_timesw a) z)).
Proof.
  intros x1 x0 a z n L1 L2 H. unfold hm_f4. split; [rewrite xors_length, if_length; [exact L1|rewrite !if_length; lia]|].
  rewrite at_xors by (rewrite !if_length; lia). rewrite !at_if. reflexivity.
Qed.
Definition hm_t (v : hmv) (b : list N) (z i : nat) : N := sel (hm_bit b i) (at_ (nth i (hm_Tsrc v) []) z).
Lemma expand_at : forall v b z, z < 2 * hm_r v -> length (hm_expand v b) = 2 * hm_r v /\
  at_ (hm_expand v b) z = fold_left (fun a i => N.lxor a (N.lxor (hm_t v b z (2 * i)) (hm_t v b z (2 * i + 1)))) (seq 0 (4 * hm_r v)) 0%N.
Proof.
  intros v b z Hz. unfold hm_expand.
  assert (A : forall l acc, (forall i, In i l -> i < 4 * hm_r v) -> length acc = 2 * hm_r v ->
    let f := fun acc i => hm_xors acc (hm_f4 (hm_bit b (2 * i + 1)) (hm_bit b (2 * i)) (nth i (hm_G v) [])) in
    length (fold_left f l acc) = 2 * hm_r v /\ at_ (fold_left f l acc) z = fold_left (fun a i => N.lxor a (N.lxor (hm_t v b z (2 * i)) (hm_t v b z (2 * i + 1)))) l (at_ acc z)).
  { induction l as [|i l IH]; intros acc Hl La; cbv zeta in *; [split; [exact La|reflexivity]|]. cbn [fold_left].
    destruct (g_row v i (Hl i (or_introl eq_refl))) as (E0 & E1 & L0 & L1). destruct (f4_at (hm_bit b (2 * i + 1)) (hm_bit b (2 * i)) _ z _ L0 L1 Hz) as [LF EF].
    destruct (IH (hm_xors acc (hm_f4 (hm_bit b (2 * i + 1)) (hm_bit b (2 * i)) (nth i (hm_G v) [])))) as [L2 E2]; [intros k Hk; apply Hl; right; exact Hk|rewrite xors_length; lia|].
    split; [exact L2|]. rewrite E2. f_equal. rewrite at_xors by lia. rewrite EF, E1. unfold hm_t. rewrite E0. reflexivity. }
  destruct (A (seq 0 (4 * hm_r v)) (zeros (2 * hm_r v))) as [L E]; [intros i Hi; apply in_seq in Hi; lia|apply zeros_length|]. split; [exact L|]. rewrite E. f_equal.
  unfold at_, zeros. apply nth_repeat.
Qed.
Lemma land_bit : forall y n, N.eqb (N.land y (N.shiftl 1 n)) 0 = negb (N.testbit y n).
Proof.
  intros y n. rewrite N.shiftl_1_l. destruct (N.testbit y n) eqn:E; cbn [negb].
  - apply N.eqb_neq. intro H. apply (f_equal (fun x => N.testbit x n)) in H. rewrite N.land_spec, E, N.pow2_bits_true, N.bits_0 in H. discriminate H.
  - apply N.eqb_eq. apply N.bits_inj. intro i. rewrite N.land_spec, N.bits_0. destruct (N.eqb_spec n i) as [->|H]; [rewrite E; reflexivity|]. rewrite N.pow2_bits_false by exact H. apply andb_false_r.
Qed.
Lemma makeT_ok : forall v b z j, hm_makeT v (8 * j) (at_ b j) z = fold_left (fun a k => N.lxor a (hm_t v b z (8 * j + k))) (seq 0 8) 0%N.
Proof.
  intros v b z j. unfold hm_makeT.
  assert (A : forall l a, (forall k, In k l -> k < 8) -> fold_left (fun a k => if N.eqb (N.land (at_ b j) (N.shiftl 1 (N.of_nat (7 - k)))) 0 then a else N.lxor a (at_ (nth (8 * j + k) (hm_Tsrc v) []) z)) l a =
    fold_left (fun a k => N.lxor a (hm_t v b z (8 * j + k))) l a).
  { induction l as [|k l IH]; intros a Hl; [reflexivity|]. cbn [fold_left]. rewrite IH by (intros i Hi; apply Hl; right; exact Hi). f_equal.
    assert (Hk : k < 8) by (apply Hl; left; reflexivity). rewrite land_bit. unfold hm_t, hm_bit.
    replace ((8 * j + k) / 8) with j by (rewrite Nat.mul_comm, Nat.div_add_l, Nat.div_small by lia; lia).
    replace ((8 * j + k) mod 8) with k by (rewrite Nat.add_comm, Nat.mul_comm, Nat.mod_add, Nat.mod_small by lia; reflexivity).
    destruct (N.testbit (at_ b j) (N.of_nat (7 - k))); cbn [negb sel]; [reflexivity|now rewrite N.lxor_0_r]. }
  apply A. intros k Hk. apply in_seq in Hk. lia.
Qed.
Lemma regroup4 : forall t : nat -> N, fold_left (fun a j => N.lxor a (fold_left (fun a k => N.lxor a (t (8 * j + k))) (seq 0 8) 0%N)) (seq 1 3) (fold_left (fun a k => N.lxor a (t (8 * 0 + k))) (seq 0 8) 0%N) =
  fold_left (fun a i => N.lxor a (N.lxor (t (2 * i)) (t (2 * i + 1)))) (seq 0 16) 0%N.
Proof. intro t. cbn [seq fold_left Nat.mul Nat.add]. rewrite !N.lxor_0_l, !N.lxor_assoc. reflexivity. Qed.
Lemma regroup8 : forall t : nat -> N, fold_left (fun a j => N.lxor a (fold_left (fun a k => N.lxor a (t (8 * j + k))) (seq 0 8) 0%N)) (seq 1 7) (fold_left (fun a k => N.lxor a (t (8 * 0 + k))) (seq 0 8) 0%N) =
  fold_left (fun a i => N.lxor a (N.lxor (t (2 * i)) (t (2 * i + 1)))) (seq 0 32) 0%N.
Proof. intro t. cbn [seq fold_left Nat.mul Nat.add]. rewrite !N.lxor_0_l, !N.lxor_assoc. reflexivity. Qed.
Lemma fold_ext_seq : forall (f g : N -> nat -> N) l a, (forall a k, f a k = g a k) -> fold_left f l a = fold_left g l a.
Proof. intros f g l. induction l as [|k l IH]; intros a H; [reflexivity|]. cbn [fold_left]. rewrite H. apply IH, H. Qed.
Lemma m_ok : forall v b z, z < 2 * hm_r v -> hm_m v b z = at_ (hm_expand v b) z.
Proof.
  intros v b z Hz. rewrite (proj2 (expand_at v b z Hz)). unfold hm_m. change (hm_makeT v 0 (at_ b 0) z) with (hm_makeT v (8 * 0) (at_ b 0) z). rewrite makeT_ok.
  rewrite (fold_ext_seq _ (fun a j => N.lxor a (fold_left (fun a k => N.lxor a (hm_t v b z (8 * j + k))) (seq 0 8) 0%N))) by (intros a j; now rewrite makeT_ok).
  destruct v; cbn [hm_r]; [apply (regroup4 (hm_t HM256 b z))|apply (regroup8 (hm_t HM512 b z))].
Qed.
Lemma list_at : forall (l : list N) n, length l = n -> l = map (at_ l) (seq 0 n).
Proof.
  intros l n <-. induction l as [|x l IH]; [reflexivity|]. cbn [length seq map]. f_equal. rewrite <- seq_shift, map_map. exact IH.
Qed.
Lemma expand_ok : forall v b, map (hm_m v b) (seq 0 (2 * hm_r v)) = hm_expand v b /\ length (hm_expand v b) = 2 * hm_r v.
Proof.
  intros v b. assert (L : length (hm_expand v b) = 2 * hm_r v) by (apply (expand_at v b 0); destruct v; cbn [hm_r]; lia). split; [|exact L].
  rewrite (list_at _ _ L) at 1. apply map_ext_in. intros z Hz. apply in_seq in Hz. apply m_ok. lia.
Qed.
(** ** Rounds *)
Lemma hword_bit_gen : forall (f : N -> bool) n m i,
  N.testbit (fold_right (fun i acc => if f (N.of_nat i) then N.setbit acc (N.of_nat i) else acc) 0%N (seq m n)) i = (N.of_nat m <=? i)%N && (i <? N.of_nat (m + n))%N && f i.
Proof.
  intros f n. induction n as [|n IH]; intros m i.
  - cbn [seq fold_right]. rewrite N.bits_0. destruct (N.leb_spec (N.of_nat m) i), (N.ltb_spec i (N.of_nat (m + 0))); try reflexivity. lia.
  - cbn [seq fold_right]. set (acc := fold_right _ _ _). assert (E : N.testbit acc i = (N.of_nat (S m) <=? i)%N && (i <? N.of_nat (S m + n))%N && f i) by apply IH. clearbody acc.
    assert (E2 : N.testbit (if f (N.of_nat m) then N.setbit acc (N.of_nat m) else acc) i = (if (N.of_nat m =? i)%N then f i || N.testbit acc i else N.testbit acc i)).
    { destruct (N.eqb_spec (N.of_nat m) i) as [->|H].
      - destruct (f i); [now rewrite N.setbit_eq|reflexivity].
      - destruct (f (N.of_nat m)); [rewrite N.setbit_neq by auto|]; reflexivity. }
    rewrite E2, E. replace (S m + n) with (m + S n) by lia.
    destruct (N.eqb_spec (N.of_nat m) i), (N.leb_spec (N.of_nat (S m)) i), (N.leb_spec (N.of_nat m) i), (N.ltb_spec i (N.of_nat (m + S n))); try lia; cbn [andb]; try reflexivity; now rewrite ?orb_false_r.
Qed.
Lemma hword_bit : forall f i, N.testbit (hm_word f) i = (i <? 32)%N && f i.
Proof. intros f i. unfold hm_word. rewrite hword_bit_gen. change (N.of_nat 0 <=? i)%N with (0 <=? i)%N. destruct (N.leb_spec 0 i); [|lia]. reflexivity. Qed.
Lemma hword_is32 : forall f, is32 (hm_word f).
Proof. intro f. apply (lt_pow2_bits 32). intros i H. rewrite hword_bit. destruct (N.ltb_spec i 32); [lia|reflexivity]. Qed.
(** the statements of an S-box, on (a, b, c, d) = (row 0, row 1, row 2, row 3) *)
Definition gs (k : nat) (a b c d : N) : N :=
  let t := a in let a := N.land a c in let a := N.lxor a d in let c := N.lxor c b in let c := N.lxor c a in let d := N.lor d t in let d := N.lxor d b in
  let t := N.lxor t c in let b := d in let d := N.lor d t in let d := N.lxor d a in let a := N.land a b in let t := N.lxor t a in let b := N.lxor b d in let b := N.lxor b t in
  match k with 0 => c | 1 => d | 2 => b | _ => not32 t end.
Lemma gs_ok : forall k a b c d, k < 4 -> is32 a -> is32 b -> is32 c -> is32 d -> gs k a b c d = hm_S k a b c d.
Proof.
  intros k a b c d Hk Ha Hb Hc Hd. destruct k as [|[|[|[|k]]]]; [| | | |lia]; unfold gs; cbv zeta; apply bits32; try apply hword_is32; try i32;
  intros i Hi; unfold hm_S; rewrite hword_bit; rewrite (proj2 (N.ltb_lt i 32) Hi); cbn [andb];
  repeat first [rewrite N.lxor_spec | rewrite N.land_spec | rewrite N.lor_spec | rewrite (not32_bit _ _ Hi)];
  destruct (N.testbit a i), (N.testbit b i), (N.testbit c i), (N.testbit d i); reflexivity.
Qed.
(** the state of the specification held by (m, c) *)
Definition hview (v : hmv) (V : list N) : list N := hm_concat v (firstn (2 * hm_r v) V) (skipn (2 * hm_r v) V).
Definition ok32 (v : hmv) (V : list N) : Prop := length V = 4 * hm_r v /\ Forall is32 V.
Definition gsub (v : hmv) (s : list N) : list N :=
  map (fun i => let j := i mod hm_r v in gs (i / hm_r v) (at_ s j) (at_ s (hm_r v + j)) (at_ s (2 * hm_r v + j)) (at_ s (3 * hm_r v + j))) (seq 0 (4 * hm_r v)).
Ltac hlazy := lazy -[N.lxor N.lor N.land N.shiftl N.shiftr not32].
Lemma add_shape : forall v al r V, length V = 4 * hm_r v -> hview v (go_add v al r V) = hm_addc v al r (hview v V).
Proof. intros v al r V L. destruct v; cbn [hm_r Nat.mul Nat.add] in L. - destr_list V L 16. hlazy. reflexivity. - destr_list V L 32. hlazy. reflexivity. Qed.
Lemma sub_shape : forall v V, length V = 4 * hm_r v -> hview v (go_sub v V) = gsub v (hview v V).
Proof. intros v V L. destruct v; cbn [hm_r Nat.mul Nat.add] in L. - destr_list V L 16. hlazy. reflexivity. - destr_list V L 32. hlazy. reflexivity. Qed.
Lemma lin_shape : forall v V, length V = 4 * hm_r v -> hview v (go_lin v V) = hm_diff v (hview v V).
Proof. intros v V L. destruct v; cbn [hm_r Nat.mul Nat.add] in L. - destr_list V L 16. hlazy. reflexivity. - destr_list V L 32. hlazy. reflexivity. Qed.
Lemma Forall_firstn : forall (P : N -> Prop) n l, Forall P l -> Forall P (firstn n l).
Proof. intros P n l H. rewrite <- (firstn_skipn n l) in H. apply Forall_app in H. apply H. Qed.
Lemma Forall_skipn : forall (P : N -> Prop) n l, Forall P l -> Forall P (skipn n l).
Proof. intros P n l H. rewrite <- (firstn_skipn n l) in H. apply Forall_app in H. apply H. Qed.
Lemma concat_in : forall v m c x, In x (hm_concat v m c) -> x = 0%N \/ In x m \/ In x c.
Proof.
  intros v m c x H. unfold hm_concat in H. cbv zeta in H. apply in_flat_map in H. destruct H as (k & _ & H).
  assert (A : forall l i, at_ l i = 0%N \/ In (at_ l i) l) by (intros l i; unfold at_; destruct (nth_in_or_default i l 0%N) as [X|X]; [right; exact X|left; exact X]).
  destruct (Nat.even (k / (hm_r v / 4))); cbn [app In] in H; destruct H as [H|[H|[H|[H|[]]]]]; rewrite <- H;
  match goal with |- at_ ?l ?i = _ \/ _ => destruct (A l i); auto end.
Qed.
Lemma is32_0 : is32 0. Proof. reflexivity. Qed.
Lemma concat_is32 : forall v m c, Forall is32 m -> Forall is32 c -> Forall is32 (hm_concat v m c).
Proof.
  intros v m c Hm Hc. apply Forall_forall. intros x Hx. rewrite Forall_forall in Hm, Hc. destruct (concat_in v m c x Hx) as [-> | [H | H]]; [apply is32_0|apply Hm, H|apply Hc, H].
Qed.
Lemma at_is32' : forall l i, Forall is32 l -> is32 (at_ l i).
Proof. intros l i H. unfold at_. destruct (nth_in_or_default i l 0%N) as [X|X]; [rewrite Forall_forall in H; apply H, X|rewrite X; apply is32_0]. Qed.
Lemma upd_is32 : forall l i x, Forall is32 l -> is32 x -> Forall is32 (upd l i x).
Proof. induction l as [|y l IH]; intros [|i] x H Hx; cbn [upd]; try constructor; apply Forall_cons_iff in H; destruct H; auto. Qed.
Lemma addc_is32 : forall v al r s, Forall is32 al -> is32 r -> Forall is32 s -> Forall is32 (hm_addc v al r s).
Proof.
  intros v al r s Ha Hr Hs. unfold hm_addc. apply Forall_forall. intros x Hx. apply in_map_iff in Hx. destruct Hx as (i & <- & _). cbv zeta.
  apply lxor_is32; [apply at_is32', Hs|]. destruct (i =? 1); [apply lxor_is32; [apply at_is32', Ha|exact Hr]|apply at_is32', Ha].
Qed.
Lemma subst_is32 : forall v s, Forall is32 (hm_subst v s).
Proof. intros v s. unfold hm_subst. apply Forall_forall. intros x Hx. apply in_map_iff in Hx. destruct Hx as (i & <- & _). apply hword_is32. Qed.
Lemma L_is32 : forall a b c d, is32 a -> is32 b -> is32 c -> is32 d -> Forall is32 (hm_L a b c d).
Proof.
  intros a b c d Ha Hb Hc Hd. unfold hm_L. cbv zeta. repeat (apply Forall_cons; [repeat (apply rotl32_is32 || apply lxor_is32 || apply w32_is32 || assumption)|]). apply Forall_nil.
Qed.
Lemma diff_is32 : forall v s, Forall is32 s -> Forall is32 (hm_diff v s).
Proof.
  intros v s H. unfold hm_diff. generalize (hm_quads v). intro q. revert s H. induction q as [|[[[i j] k] l] q IH]; intros s H; [exact H|]. cbn [fold_left]. apply IH.
  unfold hm_Lon. cbv zeta. assert (A : Forall is32 (hm_L (at_ s i) (at_ s j) (at_ s k) (at_ s l))) by (apply L_is32; apply at_is32', H).
  repeat (apply upd_is32; [|apply at_is32', A]). exact H.
Qed.
Lemma sub_ok : forall v s, Forall is32 s -> gsub v s = hm_subst v s.
Proof.
  intros v s H. unfold gsub, hm_subst. apply map_ext_in. intros i Hi. apply in_seq in Hi. cbv zeta. apply gs_ok; try (apply at_is32', H).
  apply Nat.div_lt_upper_bound; destruct v; cbn [hm_r] in *; lia.
Qed.
Lemma len_parts : forall v al r V, length (go_add v al r V) = 4 * hm_r v /\ length (go_sub v V) = 4 * hm_r v /\ length (go_lin v V) = 4 * hm_r v.
Proof. intros v al r V. destruct v; repeat split. Qed.
Lemma ground_ok : forall v al V r, Forall is32 al -> r < 100 -> length V = 4 * hm_r v -> Forall is32 (hview v V) ->
  length (hm_go_round v al V r) = 4 * hm_r v /\ Forall is32 (hview v (hm_go_round v al V r)) /\ hview v (hm_go_round v al V r) = hm_round v al (hview v V) r.
Proof.
  intros v al V r Ha Hr L H. unfold hm_go_round. destruct (len_parts v al (N.of_nat r) V) as (L1 & _ & _). set (V1 := go_add v al (N.of_nat r) V) in *.
  destruct (len_parts v al 0 V1) as (_ & L2 & _). set (V2 := go_sub v V1) in *. destruct (len_parts v al 0 V2) as (_ & _ & L3).
  assert (E1 : hview v V1 = hm_addc v al (N.of_nat r) (hview v V)) by (apply add_shape; exact L).
  assert (H1 : Forall is32 (hview v V1)) by (rewrite E1; apply addc_is32; [exact Ha|unfold is32; apply N.lt_trans with 100%N; [lia|reflexivity]|exact H]).
  assert (E2 : hview v V2 = hm_subst v (hview v V1)) by (rewrite <- sub_ok by exact H1; apply sub_shape; exact L1).
  assert (E : hview v (go_lin v V2) = hm_diff v (hview v V2)) by (apply lin_shape; exact L2).
  split; [exact L3|]. rewrite E, E2. split; [apply diff_is32, subst_is32|]. unfold hm_round. rewrite <- E1. reflexivity.
Qed.
Lemma grounds_ok : forall v al l V, Forall is32 al -> (forall r, In r l -> r < 100) -> length V = 4 * hm_r v -> Forall is32 (hview v V) ->
  length (fold_left (hm_go_round v al) l V) = 4 * hm_r v /\ Forall is32 (hview v (fold_left (hm_go_round v al) l V)) /\ hview v (fold_left (hm_go_round v al) l V) = fold_left (hm_round v al) l (hview v V).
Proof.
  intros v al l. induction l as [|r l IH]; intros V Ha Hl L H; [repeat split; assumption|]. cbn [fold_left].
  destruct (ground_ok v al V r Ha (Hl r (or_introl eq_refl)) L H) as (L1 & H1 & E1). rewrite <- E1. apply IH; [exact Ha|intros k Hk; apply Hl; right; exact Hk|exact L1|exact H1].
Qed.
Lemma tab32 : forall v, forallb (forallb (fun x => N.ltb x 4294967296)) (hm_Tsrc v) = true.
Proof. intro v. destruct v; vm_compute; reflexivity. Qed.
Lemma row_is32 : forall v i z, is32 (at_ (nth i (hm_Tsrc v) []) z).
Proof.
  intros v i z. pose proof (tab32 v) as T. rewrite forallb_forall in T. apply at_is32'. destruct (nth_in_or_default i (hm_Tsrc v) []) as [X|X]; [|rewrite X; apply Forall_nil].
  specialize (T _ X). rewrite forallb_forall in T. apply Forall_forall. intros x Hx. specialize (T x Hx). apply N.ltb_lt in T. exact T.
Qed.
Lemma m_is32 : forall v b z, is32 (hm_m v b z).
Proof.
  assert (T : forall v x y z, is32 (hm_makeT v x y z)).
  { intros v x y z. unfold hm_makeT. assert (A : forall l a, is32 a -> is32 (fold_left (fun a k => if N.eqb (N.land y (N.shiftl 1 (N.of_nat (7 - k)))) 0 then a else N.lxor a (at_ (nth (x + k) (hm_Tsrc v) []) z)) l a)).
    { induction l as [|k l IH]; intros a H; [exact H|]. cbn [fold_left]. apply IH. destruct (N.eqb _ 0); [exact H|apply lxor_is32; [exact H|apply row_is32]]. }
    apply A, is32_0. }
  intros v b z. unfold hm_m. generalize (seq 1 (hm_r v - 1)). intro l. assert (A : forall a, is32 a -> is32 (fold_left (fun a j => N.lxor a (hm_makeT v (8 * j) (at_ b j) z)) l a)).
  { induction l as [|k l IH]; intros a H; [exact H|]. cbn [fold_left]. apply IH. apply lxor_is32; [exact H|apply T]. }
  apply A, T.
Qed.
Lemma out_shape : forall v V s, length V = 4 * hm_r v -> length s = 2 * hm_r v ->
  map (fun i => N.lxor (at_ s i) (at_ V (nth i (hm_out v) 0))) (seq 0 (2 * hm_r v)) = hm_xors s (hm_trunc v (hview v V)).
Proof.
  intros v V s L Ls. destruct v; cbn [hm_r Nat.mul Nat.add] in L, Ls.
  - destr_list V L 16. destr_list s Ls 8. hlazy. reflexivity.
  - destr_list V L 32. destr_list s Ls 16. hlazy. reflexivity.
Qed.
Definition okS (v : hmv) (s : list N) : Prop := length s = 2 * hm_r v /\ Forall is32 s.
Lemma xors_is32 : forall a b, Forall is32 a -> Forall is32 b -> Forall is32 (hm_xors a b).
Proof.
  induction a as [|x a IH]; intros [|y b] Ha Hb; cbn; try constructor; apply Forall_cons_iff in Ha; apply Forall_cons_iff in Hb; destruct Ha, Hb; [now apply lxor_is32|]. apply IH; assumption.
Qed.
Lemma rounds_ok : forall v al n s b, n < 100 -> Forall is32 al -> okS v s ->
  hm_rounds v al n s b = hm_xors s (hm_trunc v (fold_left (hm_round v al) (seq 0 n) (hm_concat v (hm_expand v b) s))) /\ okS v (hm_rounds v al n s b).
Proof.
  intros v al n s b Hn Ha [L H]. unfold hm_rounds. cbv zeta. destruct (expand_ok v b) as [E LE]. assert (H32 : Forall is32 (hm_expand v b)).
  { rewrite <- E. apply Forall_forall. intros x Hx. apply in_map_iff in Hx. destruct Hx as (z & <- & _). apply m_is32. }
  rewrite E. clear E. rewrite (firstn_all2 s) by lia. set (V := hm_expand v b ++ s).
  assert (EV : hview v V = hm_concat v (hm_expand v b) s).
  { unfold hview, V. rewrite <- LE. rewrite firstn_app, firstn_all, Nat.sub_diag, firstn_O, app_nil_r, skipn_app, skipn_all, Nat.sub_diag. reflexivity. }
  destruct (grounds_ok v al (seq 0 n) V) as (L1 & H1 & E1); [exact Ha|intros r Hr; apply in_seq in Hr; lia|unfold V; rewrite app_length; lia|rewrite EV; apply concat_is32; assumption|].
  rewrite EV in E1. rewrite <- E1. set (W := fold_left (hm_go_round v al) (seq 0 n) V) in *. clearbody W. rewrite (out_shape v W s L1 L). split; [reflexivity|].
  assert (HT : Forall is32 (hm_trunc v (hview v W))) by (unfold hm_trunc; apply Forall_app; split; [apply Forall_firstn|apply Forall_firstn, Forall_skipn]; exact H1).
  split; [|apply xors_is32; assumption]. rewrite <- (out_shape v W s L1 L). rewrite map_length, seq_length. reflexivity.
Qed.
Lemma al_is32 : Forall is32 hm_alpha /\ Forall is32 hm_alphaf.
Proof. split; repeat (apply Forall_cons; [reflexivity|]); apply Forall_nil. Qed.
Lemma process_ok : forall v s b, okS v s -> hm_process v s b = hm_compress (hm_P v) v s b /\ okS v (hm_process v s b).
Proof. intros v s b H. destruct v; unfold hm_process; [apply (rounds_ok HM256 hm_alpha 3)|apply (rounds_ok HM512 hm_alpha 6)]; try lia; try apply al_is32; exact H. Qed.
Lemma processFinal_ok : forall v s b, okS v s -> hm_processFinal v s b = hm_compress (hm_Pf v) v s b /\ okS v (hm_processFinal v s b).
Proof. intros v s b H. destruct v; unfold hm_processFinal; [apply (rounds_ok HM256 hm_alphaf 6)|apply (rounds_ok HM512 hm_alphaf 12)]; try lia; try apply al_is32; exact H. Qed.
(** ** The buffer *)
Lemma lor_byte : forall y b, (b < 256)%N -> N.lor (256 * y) b = (b + 256 * y)%N.
Proof.
  intros y b Hb. assert (A : N.land (256 * y) b = 0%N).
  { apply N.bits_inj. intro i. rewrite N.land_spec, N.bits_0. destruct (N.ltb_spec i 8) as [H|H].
    - change 256%N with (2 ^ 8)%N. rewrite N.mul_comm, N.mul_pow2_bits_low by assumption. reflexivity.
    - change 256%N with (2 ^ 8)%N in Hb. rewrite (proj1 (lt_pow2_bits 8 b) Hb i H). apply andb_false_r. }
  rewrite <- N.lxor_lor by exact A. rewrite <- N.add_nocarry_lxor by exact A. apply N.add_comm.
Qed.
Lemma be_snoc : forall l b, be_val (l ++ [b]) = (b + 256 * be_val l)%N.
Proof. intros. unfold be_val. rewrite rev_app_distr. reflexivity. Qed.
Lemma le_snoc : forall l x, le_val (l ++ [x]) = (le_val l + 256 ^ N.of_nat (length l) * x)%N.
Proof.
  induction l as [|y l IH]; intro x; [cbn [app le_val length]; change (N.of_nat 0) with 0%N; rewrite N.pow_0_r; lia|]. cbn [app le_val length]. rewrite IH. rewrite Nat2N.inj_succ, N.pow_succ_r by lia. lia.
Qed.
Lemma be_cons : forall x l, be_val (x :: l) = (be_val l + 256 ^ N.of_nat (length l) * x)%N.
Proof. intros x l. unfold be_val. cbn [rev]. rewrite le_snoc, rev_length. reflexivity. Qed.
Lemma be_lt : forall l, isbytes l -> (be_val l < 2 ^ N.of_nat (8 * length l))%N.
Proof. intros l B. unfold be_val. rewrite <- (rev_length l). apply Refine.le_val_lt. apply Forall_rev. exact B. Qed.
Definition hmod (v : hmv) : N := match v with HM256 => 4294967296%N | HM512 => 18446744073709551616%N end.
Lemma hmod_eq : forall v, hmod v = (256 ^ N.of_nat (hm_r v))%N. Proof. intro v. destruct v; reflexivity. Qed.
Lemma shift1 : forall v x l b, isbytes (x :: l) -> (b < 256)%N -> length l + 1 = hm_r v -> hm_shift v (be_val (x :: l)) b = be_val (l ++ [b]).
Proof.
  intros v x l b B Hb L. apply Forall_cons_iff in B. destruct B as [Bx B]. rewrite be_snoc. unfold hm_shift. change (N.land b 255) with (w8 b). rewrite w8_small by exact Hb.
  assert (E : match v with HM256 => w32 (N.shiftl (be_val (x :: l)) 8) | HM512 => w64 (N.shiftl (be_val (x :: l)) 8) end = ((be_val (x :: l) * 256) mod hmod v)%N).
  { rewrite N.shiftl_mul_pow2. change (2 ^ 8)%N with 256%N. destruct v; [apply w32_mod|apply w64_mod]. }
  rewrite E. clear E. assert (E2 : ((be_val (x :: l) * 256) mod hmod v = 256 * be_val l)%N).
  { rewrite be_cons. assert (EM : hmod v = (256 * 256 ^ N.of_nat (length l))%N) by (rewrite hmod_eq, <- L, Nat.add_1_r, Nat2N.inj_succ, N.pow_succ_r by lia; reflexivity).
    rewrite EM. replace ((be_val l + 256 ^ N.of_nat (length l) * x) * 256)%N with (256 * be_val l + x * (256 * 256 ^ N.of_nat (length l)))%N by lia.
    assert (P : (256 ^ N.of_nat (length l) <> 0)%N) by (apply N.pow_nonzero; lia). rewrite N.mod_add by lia. apply N.mod_small.
    apply N.mul_lt_mono_pos_l; [lia|]. pose proof (be_lt l B) as H. replace (256 ^ N.of_nat (length l))%N with (2 ^ N.of_nat (8 * length l))%N; [exact H|].
    change 256%N with (2 ^ 8)%N. rewrite <- N.pow_mul_r. f_equal. lia. }
  rewrite E2. apply lor_byte. exact Hb.
Qed.
Lemma shifts : forall v q w, isbytes w -> isbytes q -> length w = hm_r v -> fold_left (hm_shift v) q (be_val w) = be_val (skipn (length q) (w ++ q)).
Proof.
  intros v q. induction q as [|b q IH]; intros w Bw Bq L; [cbn [fold_left length skipn]; now rewrite app_nil_r|]. apply Forall_cons_iff in Bq. destruct Bq as [Hb Bq].
  destruct w as [|x l]; [destruct v; cbn in L; lia|]. cbn [length] in L. cbn [fold_left]. rewrite shift1 by (assumption || lia). rewrite IH.
  - cbn [length app skipn]. rewrite <- app_assoc. reflexivity.
  - apply Forall_cons_iff in Bw. apply Forall_app. split; [apply Bw|now constructor].
  - exact Bq.
  - rewrite app_length. cbn [length]. lia.
Qed.
Lemma be4' : forall w, be_bytes 4 w = [w8 (N.shiftr w 24); w8 (N.shiftr w 16); w8 (N.shiftr w 8); w8 w].
Proof. intro w. unfold be_bytes. cbn [le_bytes rev app]. rewrite !N.shiftr_shiftr. reflexivity. Qed.
Lemma be8' : forall w, be_bytes 8 w = map (fun k => w8 (N.shiftr w k)) [56; 48; 40; 32; 24; 16; 8; 0]%N.
Proof. intro w. unfold be_bytes. cbn [le_bytes rev app map]. rewrite !N.shiftr_shiftr, N.shiftr_0_r. reflexivity. Qed.
Lemma land_w32 : forall x, N.land (w32 x) 255 = w8 x.
Proof. intro x. unfold w32, w8. rewrite <- N.land_assoc. reflexivity. Qed.
Lemma args_ok : forall v b, isbytes b -> length b = hm_r v -> hm_args v (be_val b) = b.
Proof.
  intros v b B L. pose proof (be_bytes_be_val b B) as E. rewrite L in E. destruct v; cbn [hm_r hm_args] in *.
  - rewrite be4' in E. rewrite <- E at 5. unfold w8. f_equal. pose proof (be_lt b B) as H. rewrite L in H. symmetry. apply w8_small.
    rewrite N.shiftr_div_pow2. apply N.div_lt_upper_bound; [discriminate|exact H].
  - rewrite be8' in E. etransitivity; [|exact E]. apply map_ext. intro k. apply land_w32.
Qed.
Lemma blocks_ok : forall v q s, isbytes q -> hm_blocks v s q (length q / hm_r v) = fold_left (hm_process v) (chunks (hm_r v) q) s.
Proof.
  intros v q s B. unfold hm_blocks, chunks. assert (A : forall n s, n <= length q / hm_r v -> fold_left (fun s k => hm_process v s (map (fun j => N.land (at_ q (hm_r v * k + j)) 255) (seq 0 (hm_r v)))) (seq 0 n) s =
    fold_left (hm_process v) (map (fun i => firstn (hm_r v) (skipn (i * hm_r v) q)) (seq 0 n)) s).
  { induction n as [|n IH]; intros t Hn; [reflexivity|]. rewrite seq_S, map_app, !fold_left_app. cbn [Nat.add map fold_left]. rewrite IH by lia. f_equal.
    assert (R : hm_r v <> 0) by (destruct v; cbn [hm_r]; lia). assert (LQ : hm_r v * (n + 1) <= length q) by (transitivity (hm_r v * (length q / hm_r v)); [apply Nat.mul_le_mono_l; lia|apply Nat.mul_div_le; exact R]).
    assert (LC : length (firstn (hm_r v) (skipn (n * hm_r v) q)) = hm_r v) by (rewrite firstn_length, skipn_length; lia).
    rewrite (list_at _ _ LC). apply map_ext_in. intros j Hj. apply in_seq in Hj.
    assert (EA : at_ (firstn (hm_r v) (skipn (n * hm_r v) q)) j = at_ q (hm_r v * n + j)).
    { unfold at_. rewrite <- (firstn_skipn (n * hm_r v) q) at 2. rewrite app_nth2 by (rewrite firstn_length; lia). rewrite firstn_length, Nat.min_l by lia.
      replace (hm_r v * n + j - n * hm_r v) with j by lia. rewrite <- (firstn_skipn (hm_r v) (skipn (n * hm_r v) q)) at 2. rewrite app_nth1 by lia. reflexivity. }
    rewrite EA. apply w8_small. unfold at_. destruct (nth_in_or_default (hm_r v * n + j) q 0%N) as [X|X]; [unfold isbytes in B; rewrite Forall_forall in B; apply B, X|rewrite X; reflexivity]. }
  apply A. lia.
Qed.
Lemma rpos : forall v, 0 < hm_r v. Proof. intro v. destruct v; cbn [hm_r]; lia. Qed.
Definition hrel (v : hmv) (hs : nat) (d : hmd) (m : list N) : Prop :=
  isbytes m /\ okS v (hd_s d) /\ hd_s d = fold_left (hm_compress (hm_P v) v) (chunks (hm_r v) m) (hm_iv hs) /\
  hd_plen d = length (rest (hm_r v) m) /\ (exists J, isbytes J /\ length J + length (rest (hm_r v) m) = hm_r v /\ hd_partial d = be_val (J ++ rest (hm_r v) m)) /\
  hd_len d = w64 (8 * N.of_nat (length m)).
Definition hm_sz (v : hmv) (hs : nat) : Prop := match v with HM256 => hs = 28 \/ hs = 32 | HM512 => hs = 48 \/ hs = 64 end.
Lemma reset_ok : forall v hs, hm_sz v hs -> hrel v hs (hm_reset v hs) [].
Proof.
  intros v hs H. assert (E : hd_s (hm_reset v hs) = hm_iv hs) by (destruct v; cbn [hm_sz] in H; destruct H as [-> | ->]; vm_compute; reflexivity).
  unfold hrel. rewrite E. split; [apply Forall_nil|]. split; [|split; [|split; [|split]]].
  - assert (B : (length (hm_iv hs) =? 2 * hm_r v) && forallb (fun x => N.ltb x 4294967296) (hm_iv hs) = true) by (destruct v; cbn [hm_sz] in H; destruct H as [-> | ->]; vm_compute; reflexivity).
    apply andb_true_iff in B. destruct B as [B1 B2]. apply Nat.eqb_eq in B1. split; [exact B1|]. rewrite forallb_forall in B2. apply Forall_forall. intros x Hx. apply N.ltb_lt, B2, Hx.
  - rewrite chunks_short by apply rpos. reflexivity.
  - rewrite rest_short by apply rpos. reflexivity.
  - exists (zeros (hm_r v)). rewrite rest_short by apply rpos. split; [apply zeros_isbytes|]. split; [rewrite zeros_length; cbn [length]; lia|]. destruct v; reflexivity.
  - reflexivity.
Qed.
Lemma procs_ok : forall v bs s, okS v s -> okS v (fold_left (hm_process v) bs s) /\ fold_left (hm_process v) bs s = fold_left (hm_compress (hm_P v) v) bs s.
Proof.
  intros v bs. induction bs as [|b bs IH]; intros s H; [split; [exact H|reflexivity]|]. cbn [fold_left]. destruct (process_ok v s b H) as [E O]. rewrite <- E. apply IH. exact O.
Qed.
Lemma tail_ok : forall v hs m s w q, isbytes m -> isbytes q -> isbytes w -> length w = hm_r v -> rest (hm_r v) m = [] -> okS v s ->
  s = fold_left (hm_compress (hm_P v) v) (chunks (hm_r v) m) (hm_iv hs) ->
  hrel v hs (hm_tail v s (w64 (8 * N.of_nat (length (m ++ q)))) (be_val w) q) (m ++ q).
Proof.
  intros v hs m s w q Bm Bq Bw Lw Rm O Es. pose proof (rpos v) as RP. unfold hm_tail. cbv zeta. rewrite blocks_ok by exact Bq.
  replace (skipn (hm_r v * (length q / hm_r v)) q) with (rest (hm_r v) q) by (unfold rest; f_equal; lia).
  pose proof (rest_length_lt _ (hm_r v) q RP) as LR. assert (BR : isbytes (rest (hm_r v) q)) by (apply isbytes_skipn; exact Bq).
  destruct (procs_ok v (chunks (hm_r v) q) s O) as [O1 E1]. unfold hrel. cbn [hd_s hd_len hd_partial hd_plen].
  rewrite chunks_app, rest_app by exact RP. rewrite Rm. cbn [app].
  split; [apply Forall_app; split; assumption|]. split; [exact O1|]. split; [rewrite E1, fold_left_app, <- Es; reflexivity|]. split; [reflexivity|]. split; [|reflexivity].
  exists (skipn (length (rest (hm_r v) q)) w). split; [apply isbytes_skipn; exact Bw|]. split; [rewrite skipn_length; lia|].
  rewrite shifts by assumption. f_equal. rewrite skipn_app. replace (length (rest (hm_r v) q) - length w) with 0 by lia. reflexivity.
Qed.
Lemma len_ok : forall m p : list N, w64 (w64 (8 * N.of_nat (length m)) + N.shiftl (N.of_nat (length p)) 3) = w64 (8 * N.of_nat (length (m ++ p))).
Proof.
  intros m p. rewrite N.shiftl_mul_pow2. change (2 ^ 3)%N with 8%N. rewrite app_length, Nat2N.inj_add, !w64_mod, N.add_mod_idemp_l by discriminate. f_equal. lia.
Qed.
Lemma write_ok : forall v hs d m p, hrel v hs d m -> isbytes p -> hrel v hs (fst (hm_write v d p)) (m ++ p) /\ snd (hm_write v d p) = length p.
Proof.
  intros v hs d m p (Bm & O & Es & EP & (J & BJ & LJ & EQ) & EL) Bp. split; [|reflexivity]. pose proof (rpos v) as RP. unfold hm_write. cbv zeta. cbn [fst]. rewrite EL, len_ok, EP, EQ.
  assert (BR : isbytes (rest (hm_r v) m)) by (apply isbytes_skipn; exact Bm). destruct (Nat.eqb_spec (length (rest (hm_r v) m)) 0) as [Z|Z].
  - apply length_zero_iff_nil in Z. rewrite Z in *. rewrite app_nil_r. cbn [length] in LJ. apply tail_ok; try assumption. lia.
  - set (k := Nat.min (hm_r v - length (rest (hm_r v) m)) (length p)). assert (LK : length (firstn k p) = k) by (rewrite firstn_length; lia).
    assert (BK : isbytes (firstn k p)) by (apply isbytes_firstn; exact Bp).
    assert (EF : fold_left (hm_shift v) (firstn k p) (be_val (J ++ rest (hm_r v) m)) = be_val (skipn k J ++ rest (hm_r v) m ++ firstn k p)).
    { rewrite shifts; [|apply Forall_app; split; assumption|exact BK|rewrite app_length; exact LJ]. rewrite LK. f_equal. rewrite <- app_assoc, skipn_app. replace (k - length J) with 0 by lia. reflexivity. }
    rewrite EF. clear EF. destruct (Nat.ltb_spec (length (rest (hm_r v) m) + k) (hm_r v)) as [H|H].
    + assert (Ek : firstn k p = p) by (apply firstn_all2; lia). rewrite Ek in *. assert (LRP : length (rest (hm_r v) m ++ p) < hm_r v) by (rewrite app_length; lia).
      unfold hrel. cbn [hd_s hd_len hd_partial hd_plen]. rewrite chunks_app, rest_app by exact RP. rewrite (chunks_short _ (hm_r v) (rest (hm_r v) m ++ p)), (rest_short _ (hm_r v) (rest (hm_r v) m ++ p)) by exact LRP. rewrite app_nil_r.
      split; [apply Forall_app; split; assumption|]. split; [exact O|]. split; [exact Es|]. split; [rewrite app_length; lia|]. split; [|reflexivity].
      exists (skipn k J). split; [apply isbytes_skipn; exact BJ|]. split; [rewrite skipn_length, app_length; lia|]. reflexivity.
    + assert (Hk : length (rest (hm_r v) m) + k = hm_r v) by lia. rewrite (skipn_all2 J) by lia. cbn [app]. set (b := rest (hm_r v) m ++ firstn k p).
      assert (LB : length b = hm_r v) by (unfold b; rewrite app_length; lia). assert (BB : isbytes b) by (unfold b; apply Forall_app; split; assumption).
      rewrite args_ok by assumption. destruct (process_ok v (hd_s d) b O) as [E1 O1]. rewrite E1 in O1 |- *.
      assert (EM : m ++ p = (m ++ firstn k p) ++ skipn k p) by (rewrite <- app_assoc, firstn_skipn; reflexivity). rewrite EM.
      apply tail_ok; try assumption.
      * apply Forall_app; split; assumption.
      * apply isbytes_skipn; exact Bp.
      * rewrite rest_app by exact RP. fold b. exact (rest_one _ _ b RP LB).
      * rewrite chunks_app by exact RP. fold b. rewrite (chunks_one _ _ b RP LB). rewrite fold_left_app, <- Es. reflexivity.
Qed.
Lemma zeros_ok : forall v hs fuel d m, hrel v hs d m -> (hm_r v - length m mod hm_r v) mod hm_r v < fuel ->
  hrel v hs (hm_zeros fuel v d) (m ++ zeros ((hm_r v - length m mod hm_r v) mod hm_r v)).
Proof.
  intros v hs fuel. pose proof (rpos v) as RP. induction fuel as [|fuel IH]; intros d m R H; [lia|]. cbn [hm_zeros]. assert (EP : hd_plen d = length m mod hm_r v) by (destruct R as (_ & _ & _ & EP & _); rewrite EP; apply rest_length; lia).
  rewrite EP. pose proof (Nat.mod_upper_bound (length m) (hm_r v) ltac:(lia)) as U. destruct (Nat.eqb_spec (length m mod hm_r v) 0) as [Z|Z].
  - rewrite Z in *. rewrite Nat.sub_0_r, Nat.mod_same by lia. cbn [zeros repeat]. rewrite app_nil_r. exact R.
  - destruct (write_ok v hs d m [0%N] R ltac:(repeat constructor)) as [R1 _]. set (d1 := fst (hm_write v d [0%N])) in *. clearbody d1. specialize (IH d1 (m ++ [0%N]) R1). rewrite app_length in IH. cbn [length] in IH.
    assert (E1 : (length m + 1) mod hm_r v = (length m mod hm_r v + 1) mod hm_r v) by (rewrite Nat.add_mod_idemp_l by lia; reflexivity).
    rewrite Nat.mod_small in H by lia. rewrite (Nat.mod_small (hm_r v - length m mod hm_r v)) by lia. rewrite E1 in IH.
    assert (E2 : (hm_r v - (length m mod hm_r v + 1) mod hm_r v) mod hm_r v = hm_r v - length m mod hm_r v - 1).
    { destruct (Nat.eq_dec (length m mod hm_r v + 1) (hm_r v)) as [Q|Q]; [rewrite Q, Nat.mod_same, Nat.sub_0_r, Nat.mod_same by lia; lia|]. rewrite (Nat.mod_small (_ + 1)) by lia. rewrite Nat.mod_small by lia. lia. }
    rewrite E2 in IH. replace (zeros (hm_r v - length m mod hm_r v)) with ([0%N] ++ zeros (hm_r v - length m mod hm_r v - 1)); [rewrite app_assoc; apply IH; lia|].
    unfold zeros. replace (hm_r v - length m mod hm_r v) with (S (hm_r v - length m mod hm_r v - 1)) at 2 by lia. reflexivity.
Qed.
(** ** The output *)
Lemma byte_shl : forall ch, w8 (N.shiftr (shl32 ch 8) 24) = w8 (N.shiftr ch 16) /\ w8 (N.shiftr (shl32 (shl32 ch 8) 8) 24) = w8 (N.shiftr ch 8) /\ w8 (N.shiftr (shl32 (shl32 (shl32 ch 8) 8) 8) 24) = w8 ch.
Proof.
  intro ch. unfold w8, shl32, w32. repeat split; apply N.bits_inj; intro i; change 255%N with (N.ones 8); change 4294967295%N with (N.ones 32);
  rewrite !N.land_spec; (destruct (N.ltb_spec i 8) as [H|H]; [rewrite N.ones_spec_low by exact H|rewrite N.ones_spec_high by exact H; rewrite !andb_false_r; reflexivity]);
  rewrite !andb_true_r; repeat (rewrite N.shiftr_spec' || (rewrite N.land_spec, N.ones_spec_low, andb_true_r by lia) || rewrite N.shiftl_spec_high' by lia); f_equal; lia.
Qed.
Lemma be4s : forall ch, [w8 (N.shiftr ch 24); w8 (N.shiftr (shl32 ch 8) 24); w8 (N.shiftr (shl32 (shl32 ch 8) 8) 24); w8 (N.shiftr (shl32 (shl32 (shl32 ch 8) 8) 8) 24)] = be_bytes 4 ch.
Proof. intro ch. destruct (byte_shl ch) as (E1 & E2 & E3). rewrite E1, E2, E3, be4'. reflexivity. Qed.
Definition outs (ws : list N) : list N := flat_map (fun ch => [w8 (N.shiftr ch 24); w8 (N.shiftr (shl32 ch 8) 24); w8 (N.shiftr (shl32 (shl32 ch 8) 8) 24); w8 (N.shiftr (shl32 (shl32 (shl32 ch 8) 8) 8) 24)]) ws.
Lemma outs_ok : forall ws, outs ws = flat_map (be_bytes 4) ws.
Proof. intro ws. unfold outs. induction ws as [|w ws IH]; [reflexivity|]. cbn [flat_map]. rewrite be4s, IH. reflexivity. Qed.
Ltac ol := lazy -[N.shiftr shl32 w8]; reflexivity.
Lemma bytes28 : forall ws, length ws = 8 -> hm_bytes ws 28 = outs (firstn 7 ws). Proof. intros ws L. destr_list ws L 8. ol. Qed.
Lemma bytes32 : forall ws, length ws = 8 -> hm_bytes ws 32 = outs ws. Proof. intros ws L. destr_list ws L 8. ol. Qed.
Lemma bytes48 : forall ws, length ws = 12 -> hm_bytes ws 48 = outs ws. Proof. intros ws L. destr_list ws L 12. ol. Qed.
Lemma bytes64 : forall ws, length ws = 16 -> hm_bytes ws 64 = outs ws. Proof. intros ws L. destr_list ws L 16. ol. Qed.
(** ** checkSum *)
Lemma pad_len : forall v m, length (hm_pad v m) mod hm_r v = 0.
Proof.
  intros v m. unfold hm_pad. rewrite !app_length, zeros_length. cbn [length]. pose proof (rpos v) as RP. set (n := length m + 1). replace (length m + (1 + (hm_r v - n mod hm_r v) mod hm_r v)) with (n + (hm_r v - n mod hm_r v) mod hm_r v) by (unfold n; lia).
  rewrite Nat.add_mod_idemp_r by lia. rewrite (Nat.div_mod n (hm_r v)) at 1 by lia. pose proof (Nat.mod_upper_bound n (hm_r v) ltac:(lia)) as U.
  replace (hm_r v * (n / hm_r v) + n mod hm_r v + (hm_r v - n mod hm_r v)) with ((n / hm_r v + 1) * hm_r v) by lia. apply Nat.mod_mul. lia.
Qed.
Lemma padded_ok : forall v hs d m, hrel v hs d m -> exists d', hm_zeros 9 v (fst (hm_write v d [128%N])) = d' /\ okS v (hd_s d') /\ hd_s d' = fold_left (hm_compress (hm_P v) v) (chunks (hm_r v) (hm_pad v m)) (hm_iv hs).
Proof.
  intros v hs d m R. destruct (write_ok v hs d m [128%N] R ltac:(repeat constructor)) as [R1 _]. pose proof (zeros_ok v hs 9 _ _ R1) as Z. rewrite app_length in Z. cbn [length] in Z.
  specialize (Z ltac:(eapply Nat.lt_le_trans; [apply Nat.mod_upper_bound; pose proof (rpos v); lia|destruct v; cbn [hm_r]; lia])). rewrite <- app_assoc in Z.
  eexists. split; [reflexivity|]. destruct Z as (_ & O & E & _). split; [exact O|]. exact E.
Qed.
Lemma flat_map_map_ : forall (f : N -> list N) (g : nat -> N) l, flat_map f (map g l) = flat_map (fun k => f (g k)) l.
Proof. intros f g l. induction l as [|x l IH]; [reflexivity|]. cbn [map flat_map]. rewrite IH. reflexivity. Qed.
Lemma firstn_at : forall n (l : list N), n <= length l -> firstn n l = map (at_ l) (seq 0 n).
Proof.
  intros n l H. rewrite (list_at (firstn n l) n) by (rewrite firstn_length; lia). apply map_ext_in. intros j Hj. apply in_seq in Hj. unfold at_. rewrite <- (firstn_skipn n l) at 2. rewrite app_nth1 by (rewrite firstn_length; lia). reflexivity.
Qed.
Lemma be8_split : forall w, be_bytes 8 w = be_bytes 4 (N.shiftr w 32) ++ be_bytes 4 w.
Proof. intro w. rewrite be8', !be4', !N.shiftr_shiftr. cbn [map app]. rewrite N.shiftr_0_r. reflexivity. Qed.
Lemma checkSum_ok : forall v hs d m, hm_sz v hs -> hrel v hs d m -> hm_checkSum v hs d = hm_hash v hs m.
Proof.
  intros v hs d m HH R. pose proof (rpos v) as RP. assert (EL : hd_len d = w64 (8 * N.of_nat (length m))) by (destruct R as (_ & _ & _ & _ & _ & E); exact E).
  destruct (padded_ok v hs d m R) as (d' & ED & O & E). unfold hm_checkSum, hm_hash. cbv zeta. rewrite ED, EL. clear ED EL. set (w := w64 _). clearbody w.
  assert (EC : chunks (hm_r v) (hm_pad v m ++ be_bytes 8 w) = chunks (hm_r v) (hm_pad v m) ++ chunks (hm_r v) (be_bytes 8 w)).
  { rewrite chunks_app by exact RP. assert (RN : rest (hm_r v) (hm_pad v m) = []) by (apply length_zero_iff_nil; rewrite rest_length by lia; apply pad_len). rewrite RN. reflexivity. }
  rewrite EC. clear EC. destruct v; cbn [hm_r] in *.
  - assert (E8 : chunks 4 (be_bytes 8 w) = [be_bytes 4 (N.shiftr w 32); be_bytes 4 w]).
    { rewrite be8_split, chunks_app by lia. rewrite (chunks_one _ 4 (be_bytes 4 (N.shiftr w 32))), (rest_one _ 4 (be_bytes 4 (N.shiftr w 32))) by (lia || apply be_bytes_length). cbn [app]. rewrite (chunks_one _ 4 (be_bytes 4 w)) by (lia || apply be_bytes_length). reflexivity. }
    rewrite E8. clear E8. set (C := chunks 4 (hm_pad HM256 m)) in *. change (C ++ [be_bytes 4 (N.shiftr w 32); be_bytes 4 w]) with (C ++ [be_bytes 4 (N.shiftr w 32)] ++ [be_bytes 4 w]). rewrite app_assoc, removelast_last, last_last, fold_left_app, <- E. cbn [fold_left].
    assert (EA : map (fun k => N.land (w32 (N.shiftr w k)) 255) [56; 48; 40; 32]%N = be_bytes 4 (N.shiftr w 32)) by (rewrite be4', !N.shiftr_shiftr; cbn [map]; rewrite !land_w32; reflexivity).
    assert (EB : map (fun k => N.land (w32 (N.shiftr w k)) 255) [24; 16; 8; 0]%N = be_bytes 4 w) by (rewrite be4'; cbn [map]; rewrite !land_w32, N.shiftr_0_r; reflexivity).
    rewrite EA, EB. clear EA EB. destruct (process_ok HM256 (hd_s d') (be_bytes 4 (N.shiftr w 32)) O) as [E1 O1]. rewrite E1 in *.
    set (s1 := hm_compress (hm_P HM256) HM256 (hd_s d') (be_bytes 4 (N.shiftr w 32))) in *. clearbody s1. destruct (processFinal_ok HM256 s1 (be_bytes 4 w) O1) as [E2 O2]. rewrite E2 in *.
    set (s2 := hm_compress (hm_Pf HM256) HM256 s1 (be_bytes 4 w)) in *. clearbody s2. destruct O2 as [L2 _]. cbn [hm_sz] in HH. cbn [hm_r Nat.mul Nat.add] in L2. destruct HH as [-> | ->].
    + rewrite bytes28 by exact L2. rewrite outs_ok, firstn_at by lia. apply flat_map_map_.
    + rewrite bytes32 by exact L2. rewrite outs_ok, <- (firstn_all s2), L2, firstn_at by lia. rewrite flat_map_map_. reflexivity.
  - rewrite (chunks_one _ 8 (be_bytes 8 w)) by (lia || apply be_bytes_length). rewrite removelast_last, last_last, <- E.
    assert (EA : map (fun k => N.land (w32 (N.shiftr w k)) 255) [56; 48; 40; 32; 24; 16; 8; 0]%N = be_bytes 8 w) by (rewrite be8'; apply map_ext; intro k; apply land_w32).
    rewrite EA. clear EA. destruct (processFinal_ok HM512 (hd_s d') (be_bytes 8 w) O) as [E2 O2]. rewrite E2 in *.
    set (s2 := hm_compress (hm_Pf HM512) HM512 (hd_s d') (be_bytes 8 w)) in *. clearbody s2. destruct O2 as [L2 _]. cbn [hm_sz] in HH. destruct HH as [-> | ->]; cbn [Nat.eqb].
    + rewrite bytes48 by (rewrite map_length; reflexivity). rewrite outs_ok. apply flat_map_map_.
    + rewrite bytes64 by (rewrite map_length; reflexivity). rewrite outs_ok. apply flat_map_map_.
Qed.
Lemma bytes_length : forall ws n, length (hm_bytes ws n) = n.
Proof.
  intros ws n. unfold hm_bytes. cbv zeta. assert (A : forall L st, length (fst (fst (fold_left (fun (st : list N * N * nat) (i : nat) => let '(out, ch, j) := st in let '(ch, j) := if N.eqb (N.land (N.of_nat i) 3) 0 then (at_ ws j, S j) else (ch, j) in
    (upd out i (w8 (N.shiftr ch 24)), shl32 ch 8, j)) L st))) = length (fst (fst st))).
  { induction L as [|i L IH]; intros st; [reflexivity|]. cbn [fold_left]. rewrite IH. destruct st as [[out ch] j]. destruct (N.eqb (N.land (N.of_nat i) 3) 0); cbn [fst]; apply upd_length. }
  rewrite A. cbn [fst]. apply zeros_length.
Qed.
Lemma checkSum_length : forall v hs d, length (hm_checkSum v hs d) = hs.
Proof. intros v hs d. unfold hm_checkSum. cbv zeta. destruct v; apply bytes_length. Qed.
(** C123: every history of Hamsi-224/256/384/512. *)
Theorem C123_hamsi_history : forall v hs ops, hm_sz v hs -> Forall op_bytes ops -> run (hm_impl v hs) (hm_reset v hs) ops = ideal_run (hm_hash v hs) [] ops.
Proof.
  intros v hs ops HH HF. apply (run_refines_bytes _ (hm_impl v hs) (hm_hash v hs) (hrel v hs)).
  - intros d m p Bp R. apply (write_ok v hs d m p R Bp).
  - intros d m p Bp R. apply (write_ok v hs d m p R Bp).
  - intros d m i R. exact R.
  - intros d m i R. cbn [hm_impl i_sum snd]. f_equal. apply checkSum_ok; assumption.
  - intros d m _. apply reset_ok. exact HH.
  - exact HF.
  - apply reset_ok. exact HH.
Qed.
Theorem C123_hamsi_Sum : forall v hs data, hm_sz v hs -> isbytes data -> hm_Sum v hs data = hm_hash v hs data.
Proof.
  intros v hs data HH B. unfold hm_Sum. cbv zeta. destruct (write_ok v hs (hm_reset v hs) [] data (reset_ok v hs HH) B) as [R _]. cbn [app] in R.
  rewrite (firstn_all2 (hm_checkSum v hs _)) by (rewrite checkSum_length; lia).
  rewrite copy_at_full; [|lia|rewrite zeros_length, checkSum_length; lia]. rewrite firstn_O. cbn [app].
  rewrite firstn_all2 by (rewrite zeros_length, checkSum_length; lia). apply checkSum_ok; assumption.
Qed.
Example hamsi_hyp : hm_sz HM512 48 /\ Forall op_bytes [Write [1; 2]%N; Sum []; Write (repeat 7%N 9); Sum [9]%N; Reset; Sum []].
Proof. split; [left; reflexivity|]. repeat constructor. Qed.
