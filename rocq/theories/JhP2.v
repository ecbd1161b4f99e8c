(** JhP2.v -- E_8 and F_8: the code against SpecJh.v (no model definitions here). *)
From Coq Require Import List NArith Arith Lia Bool.
From Verif Require Import Base Words HashAPI Refine EschP SpecJh Jh Jh2 JhP.
Import ListNotations.
Opaque jh_C jh_rc jh2_C rho_tab.

(** ** One round on words *)
Lemma div_lt2 : forall i, i < 128 -> i / 64 < 2.
Proof. intros i H. apply Nat.div_lt_upper_bound; lia. Qed.
Lemma word_round : forall pos cc h g h' t r, pos_ok pos = true -> t = r mod 7 -> is_ls h cc g -> is_sw t g h' ->
  forall k p i, k < 4 -> p < 2 -> i < 128 ->
  bslice pos h' k p i = bit_at (col (bslice pos h) (fun p i => N.testbit (cc p (i / 64)) (pos (i mod 64))) (if p =? 0 then i else swapidx (r mod 7) i)) (4 * p + k).
Proof.
  intros pos cc h g h' t r HP Et HL HS k p i Hk Hp Hi. rewrite <- Et. assert (Ht : t < 7) by (rewrite Et; apply Nat.mod_upper_bound; lia).
  assert (G : forall j, j < 128 -> bslice pos g k p j = bit_at (col (bslice pos h) (fun p i => N.testbit (cc p (i / 64)) (pos (i mod 64))) j) (4 * p + k)).
  { intros j Hj. unfold bslice at 1. destruct (pos_facts pos (j mod 64) HP ltac:(apply Nat.mod_upper_bound; lia)) as [P0 _].
    rewrite (is_ls_bits h cc g k p (j / 64) (pos (j mod 64)) HL Hk Hp (div_lt2 j Hj) P0). reflexivity. }
  unfold bslice at 1. destruct (pos_facts pos (i mod 64) HP ltac:(apply Nat.mod_upper_bound; lia)) as [P0 P1].
  rewrite (HS k p (i / 64) (pos (i mod 64)) Hk Hp (div_lt2 i Hi) P0). destruct (Nat.eqb_spec p 0) as [E|E]; [now rewrite <- G|].
  assert (SL : swapidx t i < 128).
  { pose proof (rho_facts r i Hi) as (_ & _ & _ & K & _). rewrite Et. exact K. }
  rewrite <- G by exact SL. unfold bslice. destruct (Nat.eqb_spec t 6) as [E6|E6].
  - subst t. rewrite E6. destruct (swapidx_6 i Hi) as [A B]. rewrite A, B. reflexivity.
  - destruct (swapidx_low t i ltac:(lia) Hi) as [A B]. rewrite A, B. destruct (P1 t ltac:(lia)) as [_ C]. now rewrite C.
Qed.

(** ** E_8 *)
Lemma seq42 : seq 0 42 = flat_map (fun q => map (fun t => 7 * q + t) (seq 0 7)) (seq 0 6).
Proof. reflexivity. Qed.
Lemma fold_flat_map : forall A B C (f : A -> C -> A) (g : B -> list C) l a, fold_left f (flat_map g l) a = fold_left (fun a x => fold_left f (g x) a) l a.
Proof. induction l as [|x l IH]; intros a; [reflexivity|]. cbn [flat_map fold_left]. now rewrite fold_left_app, IH. Qed.
Lemma fold_rel : forall (R : nat -> list N -> list N -> Prop) (f : list N -> nat -> list N) (g : list N -> nat -> list N) n,
  (forall i x y, i < n -> R i x y -> R (S i) (f x i) (g y i)) -> forall x y, R 0 x y -> R n (fold_left f (seq 0 n) x) (fold_left g (seq 0 n) y).
Proof.
  intros R f g n H. assert (G : forall k, k <= n -> forall x y, R 0 x y -> R k (fold_left f (seq 0 k) x) (fold_left g (seq 0 k) y)).
  { induction k as [|k IH]; intros Hk x y H0; [exact H0|]. rewrite seq_S, !fold_left_app. cbn [fold_left Nat.add]. apply H; [lia|]. apply IH; [lia|exact H0]. }
  intros x y H0. now apply G.
Qed.
Definition wrel (pos : nat -> N) (W : list N -> Prop) (r : nat) (h q : list N) : Prop := W h /\ brel r (bslice pos h) q.
Lemma e8_gen : forall pos (W : list N -> Prop) (step : list N -> nat -> nat -> list N),
  (forall h q r t, t = r mod 7 -> r < 42 -> wrel pos W r h q -> wrel pos W (S r) (step h r t) (jh_R 256 (jh_Cbit (jh_C r)) q)) ->
  forall h q, wrel pos W 0 h q ->
  wrel pos W 42 (fold_left (fun h q => fold_left (fun h t => step h (7 * q + t) t) (seq 0 7) h) (seq 0 6) h) (fold_left (fun q r => jh_R 256 (jh_Cbit (jh_C r)) q) (seq 0 42) q).
Proof.
  intros pos W step H h q H0. rewrite seq42, fold_flat_map. change 42 with (7 * 6). 
  apply (fold_rel (fun i => wrel pos W (7 * i)) (fun h q => fold_left (fun h t => step h (7 * q + t) t) (seq 0 7) h) (fun a x => fold_left (fun q r => jh_R 256 (jh_Cbit (jh_C r)) q) (map (fun t => 7 * x + t) (seq 0 7)) a) 6); [|exact H0].
  intros i x y Hi Hx. rewrite fold_map. replace (7 * S i) with (7 * i + 7) by lia.
  apply (fold_rel (fun t => wrel pos W (7 * i + t)) (fun h t => step h (7 * i + t) t) (fun q t => jh_R 256 (jh_Cbit (jh_C (7 * i + t))) q) 7).
  - intros t x' y' Ht Hx'. replace (7 * i + S t) with (S (7 * i + t)) by lia. apply H; [|lia|exact Hx'].
    replace (7 * i + t) with (t + i * 7) by lia. rewrite Nat.mod_add by lia. now rewrite Nat.mod_small.
  - rewrite Nat.add_0_r. exact Hx.
Qed.
Definition state_of (pos : nat -> N) (h : list N) : list bool := map (fun t => N.testbit (at_ h (t / 64)) (pos (t mod 64))) (seq 0 1024).
Lemma bit_map_seq : forall (f : nat -> bool) n i, i < n -> bit_at (map f (seq 0 n)) i = f i.
Proof. intros f n i H. unfold bit_at. rewrite (nth_indep _ false (f 0)) by (rewrite map_length, seq_length; lia). rewrite (map_nth f), seq_nth by lia. reflexivity. Qed.
Lemma state_bit : forall pos h k p i, k < 4 -> p < 2 -> i < 128 -> bit_at (state_of pos h) (256 * k + 128 * p + i) = bslice pos h k p i.
Proof.
  intros pos h k p i Hk Hp Hi. unfold state_of. rewrite bit_map_seq by lia. unfold bslice.
  assert (E : 256 * k + 128 * p + i = i + (4 * k + 2 * p) * 64) by lia. rewrite E, Nat.div_add, Nat.mod_add by lia. f_equal. f_equal. lia.
Qed.
Lemma group_rel : forall pos h, brel 0 (bslice pos h) (jh_group (state_of pos h)).
Proof.
  intros pos h p i Hp Hi. rewrite rho_0 by assumption. unfold jh_group. rewrite at_map_seq0 by lia. cbv zeta.
  assert (E1 : (2 * i + p) / 2 = i) by (rewrite Nat.mul_comm, Nat.div_add_l by lia; rewrite Nat.div_small by lia; lia).
  assert (E2 : (2 * i + p) mod 2 = p) by (rewrite Nat.add_comm, Nat.mul_comm, Nat.mod_add by lia; apply Nat.mod_small; lia).
  rewrite E1, E2. rewrite <- !state_bit by lia. f_equal; f_equal; lia.
Qed.
Lemma nib_bit : forall a b c d k, k < 4 -> N.testbit (jh_nib a b c d) (N.of_nat (3 - k)) = nth k [a; b; c; d] false.
Proof. intros a b c d k H. do 4 (destruct k as [|k]; [destruct a, b, c, d; reflexivity|]). lia. Qed.
Lemma rho_42 : forall p i, rho 42 p i = rho 0 p i.
Proof. intros. unfold rho. reflexivity. Qed.
Lemma degroup_rel : forall pos h q, brel 42 (bslice pos h) q -> jh_degroup q = state_of pos h.
Proof.
  intros pos h q H. unfold jh_degroup, state_of. apply map_ext_in. intros t Ht. apply in_seq in Ht. cbv zeta.
  set (k := t / 256). set (u := t mod 256). assert (Et : t = 256 * k + u) by (apply Nat.div_mod; lia). assert (Hu : u < 256) by (apply Nat.mod_upper_bound; lia). clearbody k u.
  set (p := u / 128). set (i := u mod 128). assert (Eu : u = 128 * p + i) by (apply Nat.div_mod; lia). assert (Hi : i < 128) by (apply Nat.mod_upper_bound; lia). clearbody p i.
  assert (Hp : p < 2) by lia. assert (Hk : k < 4) by lia.
  assert (E : (if u <? 128 then 2 * u else 2 * (u - 128) + 1) = rho 42 p i) by (rewrite rho_42, rho_0 by assumption; destruct (Nat.ltb_spec u 128); lia).
  rewrite E, (H p i Hp Hi), nib_bit by exact Hk.
  assert (B : nth k [bslice pos h 0 p i; bslice pos h 1 p i; bslice pos h 2 p i; bslice pos h 3 p i] false = bslice pos h k p i) by (do 4 (destruct k as [|k]; [reflexivity|]); lia).
  rewrite B. rewrite <- state_bit by assumption. subst t u. rewrite <- bit_map_seq with (n := 1024) (f := fun t => N.testbit (at_ h (t / 64)) (pos (t mod 64))) by lia. unfold state_of. f_equal. lia.
Qed.
Definition W1 (h : list N) : Prop := length h = 16 /\ Forall hi0 h.
Definition W2 (h : list N) : Prop := length h = 16.
Lemma jh2_lin_len : forall h i, length (jh2_lin h i) = length h.
Proof. intros. unfold jh2_lin. cbv zeta. now rewrite !upd_length. Qed.
Lemma jh2_ls_len : forall h r, length (jh2_doL (jh2_doS h r)) = length h.
Proof.
  intros. unfold jh2_doL, jh2_doS. rewrite !jh2_lin_len. assert (K : forall h i, length (jh2_sbox h r i) = length h) by (intros; rewrite jh2_sbox_eq; cbv zeta; now rewrite !upd_length). now rewrite !K.
Qed.
Theorem jh2_e8_ok : forall h, length h = 16 -> jh_E8 (state_of posBE h) = state_of posBE (jh2_e8 h) /\ length (jh2_e8 h) = 16.
Proof.
  intros h L. unfold jh_E8, jh2_e8.
  destruct (e8_gen posBE W2 (fun h r t => jh2_W (jh2_doL (jh2_doS h r)) t)) with (h := h) (q := jh_group (state_of posBE h)) as [A B].
  - clear h L. intros h q r t Et Hr [L HB]. red in L. assert (Ht : t < 7) by (rewrite Et; apply Nat.mod_upper_bound; lia).
    destruct (jh2_W_sw t (jh2_doL (jh2_doS h r)) Ht) as [S1 S2]; [now rewrite jh2_ls_len|]. split; [exact S2|].
    eapply round_ok; [exact HB| |exact (word_round posBE (cc2 r) h _ _ t r posBE_ok Et (jh2_ls h r L) S1)].
    intros p i Hp Hi. now apply const2.
  - split; [exact L|apply group_rel].
  - split; [now apply degroup_rel|exact A].
Qed.
Theorem jh_e8_ok : forall h, length h = 16 -> Forall hi0 h -> jh_E8 (state_of posLE h) = state_of posLE (jh_e8 h) /\ length (jh_e8 h) = 16 /\ Forall hi0 (jh_e8 h).
Proof.
  intros h L H0. unfold jh_E8, jh_e8.
  destruct (e8_gen posLE W1 jh_round) with (h := h) (q := jh_group (state_of posLE h)) as [A B].
  - clear h L H0. intros h q r t Et Hr [[L H0] HB]. assert (Ht : t < 7) by (rewrite Et; apply Nat.mod_upper_bound; lia).
    destruct (hi0_round h r t L H0) as [G1 G2]. destruct (jh_round_sw t h r Ht L G1) as [S1 S2]. split; [split; [exact S2|exact G2]|].
    eapply round_ok; [exact HB| |exact (word_round posLE (cc1 r) h _ _ t r posLE_ok Et (jh_ls_ok h r L) S1)].
    intros p i Hp Hi. now apply const1.
  - split; [split; assumption|apply group_rel].
  - destruct A as [A1 A2]. split; [now apply degroup_rel|split; assumption].
Qed.
