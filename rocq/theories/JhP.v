(** JhP.v -- the bit-sliced rounds of packages jh and jh2 compute E_8 of SpecJh.v (no model definitions here). *)
From Coq Require Import List NArith Arith Lia Bool Btauto.
From Verif Require Import Base Words HashAPI SpecJh Jh Jh2.
Import ListNotations.

(** ** Bits level: one column of eight bits, S-boxes and L *)
Definition ssB (x0 x1 x2 x3 cc : bool) : bool * bool * bool * bool :=
  let x3 := negb x3 in
  let x0 := xorb x0 (cc && negb x2) in
  let tmp := xorb cc (x0 && x1) in
  let x0 := xorb x0 (x2 && x3) in
  let x3 := xorb x3 (negb x1 && x2) in
  let x1 := xorb x1 (x0 && x2) in
  let x2 := xorb x2 (x0 && negb x3) in
  let x0 := xorb x0 (x1 || x3) in
  let x3 := xorb x3 (x1 && x2) in
  let x1 := xorb x1 (tmp && x0) in
  let x2 := xorb x2 tmp in (x0, x1, x2, x3).
(** The eight resulting bits; bit k of element p is at 4 p + k. *)
Definition lsB (x0 x1 x2 x3 x4 x5 x6 x7 c0 c1 : bool) : list bool :=
  let '(x0, x1, x2, x3) := ssB x0 x1 x2 x3 c0 in
  let '(x4, x5, x6, x7) := ssB x4 x5 x6 x7 c1 in
  let x4 := xorb x4 x1 in
  let x5 := xorb x5 x2 in
  let x6 := xorb x6 (xorb x3 x0) in
  let x7 := xorb x7 x0 in
  let x0 := xorb x0 x5 in
  let x1 := xorb x1 x6 in
  let x2 := xorb x2 (xorb x7 x4) in
  let x3 := xorb x3 x4 in [x0; x1; x2; x3; x4; x5; x6; x7].
Definition sb (c : bool) (x : N) : N := nth (N.to_nat x) (if c then jh_S1 else jh_S0) 0%N.
Lemma lsB_ok : forall x0 x1 x2 x3 x4 x5 x6 x7 c0 c1,
  let l := lsB x0 x1 x2 x3 x4 x5 x6 x7 c0 c1 in
  jh_L (sb c0 (jh_nib x0 x1 x2 x3)) (sb c1 (jh_nib x4 x5 x6 x7)) =
  (jh_nib (bit_at l 0) (bit_at l 1) (bit_at l 2) (bit_at l 3), jh_nib (bit_at l 4) (bit_at l 5) (bit_at l 6) (bit_at l 7)).
Proof. intros [] [] [] [] [] [] [] [] [] []; vm_compute; reflexivity. Qed.

(** ** Where the elements are: slot (p, i) holds element [rho r p i] before round r (period 7) *)
Definition p8inv (e : nat) : nat := let e := jh_pi e in jh_phi 256 (if Nat.even e then e / 2 else 128 + e / 2).
Definition swapidx (t i : nat) : nat := if Nat.even (i / 2 ^ t) then i + 2 ^ t else i - 2 ^ t.
Fixpoint rho_tabs (n t : nat) (l : list nat) : list (list nat) :=
  match n with
  | O => []
  | S n => l :: rho_tabs n (S t) (map (fun j => p8inv (if j <? 128 then nth j l 0 else nth (128 + swapidx t (j - 128)) l 0)) (seq 0 256))
  end.
Definition rho_tab : list (list nat) := Eval vm_compute in rho_tabs 7 0 (map (fun j => if j <? 128 then 2 * j else 2 * (j - 128) + 1) (seq 0 256)).
Definition rho (r p i : nat) : nat := nth (128 * p + i) (nth (r mod 7) rho_tab []) 0.
Definition rho_chk (f : nat -> nat -> nat -> nat) : bool :=
  forallb (fun t => forallb (fun i =>
    let j := swapidx t i in
    (f t 0 i <? 256) && (f t 1 i <? 256) && Nat.even (f t 0 i) && (f t 1 i =? f t 0 i + 1) && (j <? 128) &&
    (jh_perm 256 (f (S t) 0 i) =? f t 0 i) && (jh_perm 256 (f (S t) 1 i) =? f t 1 j)) (seq 0 128)) (seq 0 7).
Lemma rho_chk_ok : rho_chk rho = true. Proof. vm_compute. reflexivity. Qed.
Lemma rho_mod : forall r p i, rho (r mod 7) p i = rho r p i.
Proof. intros. unfold rho. now rewrite Nat.mod_mod. Qed.
Lemma rho_gen : forall f, rho_chk f = true -> (forall r p i, f (r mod 7) p i = f r p i) -> forall r i, i < 128 -> let t := r mod 7 in let j := swapidx t i in
  f r 0 i < 256 /\ f r 1 i < 256 /\ (exists e, f r 0 i = 2 * e /\ f r 1 i = 2 * e + 1) /\ j < 128 /\
  jh_perm 256 (f (S r) 0 i) = f r 0 i /\ jh_perm 256 (f (S r) 1 i) = f r 1 j.
Proof.
  intros f K rmod r i Hi t j. unfold rho_chk in K. rewrite forallb_forall in K.
  assert (Ht : t < 7) by (apply Nat.mod_upper_bound; lia). specialize (K t ltac:(apply in_seq; lia)). rewrite forallb_forall in K. specialize (K i ltac:(apply in_seq; lia)). cbv zeta in K. fold j in K.
  assert (ES : forall p i, f (S t) p i = f (S r) p i) by (intros p i'; rewrite <- (rmod (S t)), <- (rmod (S r)); f_equal; unfold t; rewrite <- (Nat.add_1_r (r mod 7)), <- (Nat.add_1_r r); rewrite Nat.add_mod_idemp_l by lia; reflexivity).
  assert (ER : forall p i, f t p i = f r p i) by (intros; unfold t; apply rmod).
  rewrite !ES, !ER in K. rewrite !andb_true_iff, !Nat.ltb_lt, !Nat.eqb_eq in K. destruct K as [[[[[[A B] C] D] E] F] G].
  apply Nat.even_spec in C. destruct C as [e C]. repeat split; auto. exists e. lia.
Qed.
Lemma rho_facts : forall r i, i < 128 -> let t := r mod 7 in let j := swapidx t i in
  rho r 0 i < 256 /\ rho r 1 i < 256 /\ (exists e, rho r 0 i = 2 * e /\ rho r 1 i = 2 * e + 1) /\ j < 128 /\
  jh_perm 256 (rho (S r) 0 i) = rho r 0 i /\ jh_perm 256 (rho (S r) 1 i) = rho r 1 j.
Proof. exact (rho_gen rho rho_chk_ok rho_mod). Qed.
Lemma rho_0 : forall p i, p < 2 -> i < 128 -> rho 0 p i = 2 * i + p.
Proof.
  assert (K : forallb (fun p => forallb (fun i => rho 0 p i =? 2 * i + p) (seq 0 128)) (seq 0 2) = true) by (vm_compute; reflexivity).
  intros p i Hp Hi. rewrite forallb_forall in K. specialize (K p ltac:(apply in_seq; lia)). rewrite forallb_forall in K. apply Nat.eqb_eq, K. apply in_seq. lia.
Qed.

(** ** One round *)
Definition brel (r : nat) (bs : nat -> nat -> nat -> bool) (q : list N) : Prop :=
  forall p i, p < 2 -> i < 128 -> at_ q (rho r p i) = jh_nib (bs 0 p i) (bs 1 p i) (bs 2 p i) (bs 3 p i).
Definition col (bs : nat -> nat -> nat -> bool) (c : nat -> nat -> bool) (i : nat) : list bool :=
  lsB (bs 0 0 i) (bs 1 0 i) (bs 2 0 i) (bs 3 0 i) (bs 0 1 i) (bs 1 1 i) (bs 2 1 i) (bs 3 1 i) (c 0 i) (c 1 i).
Lemma at_map_seq0 : forall (f : nat -> N) n i, i < n -> at_ (map f (seq 0 n)) i = f i.
Proof. intros f n i H. unfold at_. rewrite (nth_indep _ 0%N (f 0)) by (rewrite map_length, seq_length; lia). rewrite (map_nth f), seq_nth by lia. reflexivity. Qed.
Lemma at_pairs : forall (f : nat -> N * N) n a e, e < n ->
  at_ (flat_map (fun j => let '(c, d) := f j in [c; d]) (seq a n)) (2 * e) = fst (f (a + e)) /\ at_ (flat_map (fun j => let '(c, d) := f j in [c; d]) (seq a n)) (2 * e + 1) = snd (f (a + e)).
Proof.
  induction n as [|n IH]; intros a e H; [lia|]. cbn [seq flat_map]. destruct e as [|e].
  - rewrite Nat.add_0_r. destruct (f a). split; reflexivity.
  - destruct (IH (S a) e ltac:(lia)) as [A B]. replace (a + S e) with (S a + e) by lia. rewrite <- A, <- B. destruct (f a) as [c d].
    replace (2 * S e) with (S (S (2 * e))) by lia. split; reflexivity.
Qed.
Lemma round_ok : forall r bs bs' c q, brel r bs q ->
  (forall p i, p < 2 -> i < 128 -> c p i = jh_Cbit (jh_C r) (rho r p i)) ->
  (forall k p i, k < 4 -> p < 2 -> i < 128 -> bs' k p i = bit_at (col bs c (if p =? 0 then i else swapidx (r mod 7) i)) (4 * p + k)) ->
  brel (S r) bs' (jh_R 256 (jh_Cbit (jh_C r)) q).
Proof.
  intros r bs bs' c q HR HC HB p i Hp Hi. unfold jh_R. set (C := jh_C r) in *. clearbody C. cbv zeta.
  set (s := map (fun i => nth (N.to_nat (at_ q i)) (if jh_Cbit C i then jh_S1 else jh_S0) 0%N) (seq 0 256)). set (l := flat_map (fun j => let '(c, d) := jh_L (at_ s (2 * j)) (at_ s (2 * j + 1)) in [c; d]) (seq 0 (256 / 2))).
  destruct (rho_facts r i Hi) as (_ & _ & _ & Hj & P0 & P1). cbv zeta in *.
  assert (HB0 : forall k, k < 4 -> bs' k p i = bit_at (col bs c (if p =? 0 then i else swapidx (r mod 7) i)) (4 * p + k)) by (intros k Hk; now apply HB). clear HB.
  set (j := swapidx (r mod 7) i) in *. clearbody j.
  assert (H1 : rho (S r) p i < 256) by (destruct (rho_facts (S r) i Hi) as (A & B & _); destruct p as [|[|]]; [exact A|exact B|lia]).
  rewrite at_map_seq0 by exact H1. set (i' := if p =? 0 then i else j).
  assert (EP : jh_perm 256 (rho (S r) p i) = rho r p i') by (unfold i'; destruct p as [|[|]]; [exact P0|exact P1|lia]). rewrite EP.
  assert (Hi' : i' < 128) by (unfold i'; destruct (p =? 0); assumption).
  fold i' in HB0. rewrite !HB0 by lia. clear HB0 P0 P1 EP H1. clearbody i'. clear j Hj i Hi. rename i' into i. rename Hi' into Hi.
  destruct (rho_facts r i Hi) as (R0 & R1 & (e & E0 & E1) & _).
  assert (AS : forall p, p < 2 -> at_ s (rho r p i) = sb (c p i) (jh_nib (bs 0 p i) (bs 1 p i) (bs 2 p i) (bs 3 p i))).
  { intros p' Hp'. unfold s. rewrite at_map_seq0 by (destruct p' as [|[|]]; [assumption|assumption|lia]). rewrite (HR p' i Hp' Hi), <- (HC p' i Hp' Hi). reflexivity. }
  pose proof (AS 0 ltac:(lia)) as A0. pose proof (AS 1 ltac:(lia)) as A1. rewrite E0 in A0. rewrite E1 in A1.
  destruct (at_pairs (fun j => jh_L (at_ s (2 * j)) (at_ s (2 * j + 1))) 128 0 e ltac:(lia)) as [L0 L1]. change (256 / 2) with 128 in l. fold l in L0, L1. cbn [Nat.add] in L0, L1.
  rewrite A0, A1 in L0, L1. clear A0 A1 AS. clearbody l. clearbody s.
  pose proof (lsB_ok (bs 0 0 i) (bs 1 0 i) (bs 2 0 i) (bs 3 0 i) (bs 0 1 i) (bs 1 1 i) (bs 2 1 i) (bs 3 1 i) (c 0 i) (c 1 i)) as K. cbv zeta in K. fold (col bs c i) in K.
  rewrite K in L0, L1. cbn [fst snd] in L0, L1. destruct p as [|[|]]; [rewrite E0; exact L0|rewrite E1; exact L1|lia].
Qed.

(** ** Words: layout and bit order *)
Definition posBE (u : nat) : N := N.of_nat (63 - u).
Definition posLE (u : nat) : N := N.of_nat (8 * (u / 8) + (7 - u mod 8)).
Definition bslice (pos : nat -> N) (h : list N) (k p i : nat) : bool := N.testbit (at_ h (4 * k + 2 * p + i / 64)) (pos (i mod 64)).
Definition swapN (t : nat) (b : N) : N := if N.even (N.shiftr b (N.of_nat t)) then (b + 2 ^ N.of_nat t)%N else (b - 2 ^ N.of_nat t)%N.
Definition pos_ok (pos : nat -> N) : bool :=
  forallb (fun u => (pos u <? 64)%N && forallb (fun t => (swapidx t u <? 64) && (swapN t (pos u) =? pos (swapidx t u))%N) (seq 0 6)) (seq 0 64).
Lemma posBE_ok : pos_ok posBE = true. Proof. vm_compute. reflexivity. Qed.
Lemma posLE_ok : pos_ok posLE = true. Proof. vm_compute. reflexivity. Qed.
Lemma pos_facts : forall pos u, pos_ok pos = true -> u < 64 -> (pos u < 64)%N /\ forall t, t < 6 -> swapidx t u < 64 /\ swapN t (pos u) = pos (swapidx t u).
Proof.
  intros pos u K Hu. unfold pos_ok in K. rewrite forallb_forall in K. specialize (K u ltac:(apply in_seq; lia)). rewrite andb_true_iff in K. destruct K as [A B].
  split; [now apply N.ltb_lt|]. intros t Ht. rewrite forallb_forall in B. specialize (B t ltac:(apply in_seq; lia)). rewrite andb_true_iff in B. destruct B as [B C]. apply Nat.ltb_lt in B. apply N.eqb_eq in C. auto.
Qed.
Lemma swapidx_low : forall t i, t < 6 -> i < 128 -> (swapidx t i) / 64 = i / 64 /\ (swapidx t i) mod 64 = swapidx t (i mod 64).
Proof.
  assert (K : forallb (fun t => forallb (fun i => ((swapidx t i) / 64 =? i / 64) && ((swapidx t i) mod 64 =? swapidx t (i mod 64))) (seq 0 128)) (seq 0 6) = true) by (vm_compute; reflexivity).
  intros t i Ht Hi. rewrite forallb_forall in K. specialize (K t ltac:(apply in_seq; lia)). rewrite forallb_forall in K. specialize (K i ltac:(apply in_seq; lia)).
  rewrite andb_true_iff, !Nat.eqb_eq in K. exact K.
Qed.
Lemma swapidx_6 : forall i, i < 128 -> (swapidx 6 i) / 64 = 1 - i / 64 /\ (swapidx 6 i) mod 64 = i mod 64.
Proof.
  assert (K : forallb (fun i => ((swapidx 6 i) / 64 =? 1 - i / 64) && ((swapidx 6 i) mod 64 =? i mod 64)) (seq 0 128) = true) by (vm_compute; reflexivity).
  intros i Hi. rewrite forallb_forall in K. specialize (K i ltac:(apply in_seq; lia)). rewrite andb_true_iff, !Nat.eqb_eq in K. exact K.
Qed.

(** The words after the S-box and L layers, as bits. *)
Definition wcol (h : list N) (cc : nat -> nat -> N) (hf : nat) (b : N) : list bool :=
  lsB (N.testbit (at_ h hf) b) (N.testbit (at_ h (4 + hf)) b) (N.testbit (at_ h (8 + hf)) b) (N.testbit (at_ h (12 + hf)) b)
      (N.testbit (at_ h (2 + hf)) b) (N.testbit (at_ h (6 + hf)) b) (N.testbit (at_ h (10 + hf)) b) (N.testbit (at_ h (14 + hf)) b)
      (N.testbit (cc 0 hf) b) (N.testbit (cc 1 hf) b).
Lemma not64_b : forall x b, (b < 64)%N -> N.testbit (not64 x) b = negb (N.testbit x b).
Proof. intros. unfold not64. rewrite N.lxor_spec. change 18446744073709551615%N with (N.ones 64). rewrite N.ones_spec_low by assumption. apply xorb_true_r. Qed.
Ltac des16 a L := do 16 (destruct a as [|? a]; [discriminate L|]); destruct a; [|discriminate L]; clear L.
Ltac bits Hb := rewrite ?N.lxor_spec, ?N.land_spec, ?N.lor_spec, ?not64_b, ?N.lxor_spec, ?N.land_spec, ?N.lor_spec, ?not64_b by exact Hb.
(** The S-box on words. *)
Definition sN (x0 x1 x2 x3 cc : N) : N * N * N * N :=
  let x3 := not64 x3 in
  let x0 := N.lxor x0 (N.land cc (not64 x2)) in
  let tmp := N.lxor cc (N.land x0 x1) in
  let x0 := N.lxor x0 (N.land x2 x3) in
  let x3 := N.lxor x3 (N.land (not64 x1) x2) in
  let x1 := N.lxor x1 (N.land x0 x2) in
  let x2 := N.lxor x2 (N.land x0 (not64 x3)) in
  let x0 := N.lxor x0 (N.lor x1 x3) in
  let x3 := N.lxor x3 (N.land x1 x2) in
  let x1 := N.lxor x1 (N.land tmp x0) in
  let x2 := N.lxor x2 tmp in (x0, x1, x2, x3).
Definition q0 (t : N * N * N * N) : N := fst (fst (fst t)).
Definition q1 (t : N * N * N * N) : N := snd (fst (fst t)).
Definition q2 (t : N * N * N * N) : N := snd (fst t).
Definition q3 (t : N * N * N * N) : N := snd t.
Lemma sN_bits : forall x0 x1 x2 x3 cc b, (b < 64)%N -> let t := sN x0 x1 x2 x3 cc in
  (N.testbit (q0 t) b, N.testbit (q1 t) b, N.testbit (q2 t) b, N.testbit (q3 t) b) = ssB (N.testbit x0 b) (N.testbit x1 b) (N.testbit x2 b) (N.testbit x3 b) (N.testbit cc b).
Proof.
  intros x0 x1 x2 x3 cc b Hb t. unfold t, sN, ssB, q0, q1, q2, q3. cbn [fst snd]. repeat bits Hb. reflexivity.
Qed.
Definition lsN (h : list N) (cc : nat -> nat -> N) (hf : nat) : list N :=
  let s := sN (at_ h hf) (at_ h (4 + hf)) (at_ h (8 + hf)) (at_ h (12 + hf)) (cc 0 hf) in
  let u := sN (at_ h (2 + hf)) (at_ h (6 + hf)) (at_ h (10 + hf)) (at_ h (14 + hf)) (cc 1 hf) in
  let x0 := q0 s in let x1 := q1 s in let x2 := q2 s in let x3 := q3 s in let x4 := q0 u in let x5 := q1 u in let x6 := q2 u in let x7 := q3 u in
  let x4 := N.lxor x4 x1 in
  let x5 := N.lxor x5 x2 in
  let x6 := N.lxor x6 (N.lxor x3 x0) in
  let x7 := N.lxor x7 x0 in
  let x0 := N.lxor x0 x5 in
  let x1 := N.lxor x1 x6 in
  let x2 := N.lxor x2 (N.lxor x7 x4) in
  let x3 := N.lxor x3 x4 in [x0; x1; x2; x3; x4; x5; x6; x7].
Lemma lsN_bits : forall h cc hf b, (b < 64)%N -> map (fun x => N.testbit x b) (lsN h cc hf) = wcol h cc hf b.
Proof.
  intros h cc hf b Hb. unfold lsN, wcol, lsB. cbv zeta.
  pose proof (sN_bits (at_ h hf) (at_ h (4 + hf)) (at_ h (8 + hf)) (at_ h (12 + hf)) (cc 0 hf) b Hb) as K1.
  pose proof (sN_bits (at_ h (2 + hf)) (at_ h (6 + hf)) (at_ h (10 + hf)) (at_ h (14 + hf)) (cc 1 hf) b Hb) as K2. cbv zeta in K1, K2.
  rewrite <- K1, <- K2. clear K1 K2. set (s := sN _ _ _ _ (cc 0 hf)). set (u := sN _ _ _ _ _). clearbody s u. cbn [map]. rewrite !N.lxor_spec. reflexivity.
Qed.
(** A list of 16 words is the result of the two layers. *)
Definition is_ls (h : list N) (cc : nat -> nat -> N) (h' : list N) : Prop :=
  forall k p hf, k < 4 -> p < 2 -> hf < 2 -> at_ h' (4 * k + 2 * p + hf) = at_ (lsN h cc hf) (4 * p + k).
Lemma is_ls_bits : forall h cc h' k p hf b, is_ls h cc h' -> k < 4 -> p < 2 -> hf < 2 -> (b < 64)%N ->
  N.testbit (at_ h' (4 * k + 2 * p + hf)) b = bit_at (wcol h cc hf b) (4 * p + k).
Proof.
  intros h cc h' k p hf b H Hk Hp Hh Hb. rewrite (H k p hf) by assumption. rewrite <- (lsN_bits h cc hf b Hb). unfold bit_at.
  change false with ((fun x => N.testbit x b) 0%N) at 1. rewrite map_nth. reflexivity.
Qed.
Ltac cases3 k p hf := destruct k as [|[|[|[|]]]]; [..|lia]; (destruct p as [|[|]]; [..|lia]); (destruct hf as [|[|]]; [..|lia]).
Definition cc2 (r p hf : nat) : N := at_ jh2_C (4 * r + (2 * p + hf)).
Lemma jh2_sbox_eq : forall h r i, jh2_sbox h r i = (let t := sN (at_ h i) (at_ h (4 + i)) (at_ h (8 + i)) (at_ h (12 + i)) (at_ jh2_C (4 * r + i)) in
  upd (upd (upd (upd h i (q0 t)) (4 + i) (q1 t)) (8 + i) (q2 t)) (12 + i) (q3 t)).
Proof. reflexivity. Qed.
Lemma jh2_sbox_0 : forall a0 a1 a2 a3 a4 a5 a6 a7 a8 a9 a10 a11 a12 a13 a14 a15 r, let t := (sN a0 a4 a8 a12 (at_ jh2_C (4 * r + 0))) in jh2_sbox [a0; a1; a2; a3; a4; a5; a6; a7; a8; a9; a10; a11; a12; a13; a14; a15] r 0 = [q0 t; a1; a2; a3; q1 t; a5; a6; a7; q2 t; a9; a10; a11; q3 t; a13; a14; a15].
Proof. intros. unfold t. rewrite jh2_sbox_eq. reflexivity. Qed.
Lemma jh2_sbox_1 : forall a0 a1 a2 a3 a4 a5 a6 a7 a8 a9 a10 a11 a12 a13 a14 a15 r, let t := (sN a1 a5 a9 a13 (at_ jh2_C (4 * r + 1))) in jh2_sbox [a0; a1; a2; a3; a4; a5; a6; a7; a8; a9; a10; a11; a12; a13; a14; a15] r 1 = [a0; q0 t; a2; a3; a4; q1 t; a6; a7; a8; q2 t; a10; a11; a12; q3 t; a14; a15].
Proof. intros. unfold t. rewrite jh2_sbox_eq. reflexivity. Qed.
Lemma jh2_sbox_2 : forall a0 a1 a2 a3 a4 a5 a6 a7 a8 a9 a10 a11 a12 a13 a14 a15 r, let t := (sN a2 a6 a10 a14 (at_ jh2_C (4 * r + 2))) in jh2_sbox [a0; a1; a2; a3; a4; a5; a6; a7; a8; a9; a10; a11; a12; a13; a14; a15] r 2 = [a0; a1; q0 t; a3; a4; a5; q1 t; a7; a8; a9; q2 t; a11; a12; a13; q3 t; a15].
Proof. intros. unfold t. rewrite jh2_sbox_eq. reflexivity. Qed.
Lemma jh2_sbox_3 : forall a0 a1 a2 a3 a4 a5 a6 a7 a8 a9 a10 a11 a12 a13 a14 a15 r, let t := (sN a3 a7 a11 a15 (at_ jh2_C (4 * r + 3))) in jh2_sbox [a0; a1; a2; a3; a4; a5; a6; a7; a8; a9; a10; a11; a12; a13; a14; a15] r 3 = [a0; a1; a2; q0 t; a4; a5; a6; q1 t; a8; a9; a10; q2 t; a12; a13; a14; q3 t].
Proof. intros. unfold t. rewrite jh2_sbox_eq. reflexivity. Qed.
Lemma jh2_lin_0 : forall a0 a1 a2 a3 a4 a5 a6 a7 a8 a9 a10 a11 a12 a13 a14 a15, jh2_lin [a0; a1; a2; a3; a4; a5; a6; a7; a8; a9; a10; a11; a12; a13; a14; a15] 0 = [N.lxor a0 (N.lxor a6 a8); a1; N.lxor a2 a4; a3; N.lxor a4 (N.lxor a10 (N.lxor a12 a0)); a5; N.lxor a6 a8; a7; N.lxor a8 (N.lxor (N.lxor a14 a0) (N.lxor a2 a4)); a9; N.lxor a10 (N.lxor a12 a0); a11; N.lxor a12 (N.lxor a2 a4); a13; N.lxor a14 a0; a15].
Proof. reflexivity. Qed.
Lemma jh2_lin_1 : forall a0 a1 a2 a3 a4 a5 a6 a7 a8 a9 a10 a11 a12 a13 a14 a15, jh2_lin [a0; a1; a2; a3; a4; a5; a6; a7; a8; a9; a10; a11; a12; a13; a14; a15] 1 = [a0; N.lxor a1 (N.lxor a7 a9); a2; N.lxor a3 a5; a4; N.lxor a5 (N.lxor a11 (N.lxor a13 a1)); a6; N.lxor a7 a9; a8; N.lxor a9 (N.lxor (N.lxor a15 a1) (N.lxor a3 a5)); a10; N.lxor a11 (N.lxor a13 a1); a12; N.lxor a13 (N.lxor a3 a5); a14; N.lxor a15 a1].
Proof. reflexivity. Qed.
Lemma jh2_ls : forall h r, length h = 16 -> is_ls h (cc2 r) (jh2_doL (jh2_doS h r)).
Proof.
  intros h r L k p hf Hk Hp Hhf. unfold jh2_doS, jh2_doL, lsN, cc2. change (2 * 0 + hf) with hf. change (2 * 1 + hf) with (2 + hf).
  des16 h L. rewrite jh2_sbox_0. cbv zeta. rewrite jh2_sbox_1. cbv zeta. rewrite jh2_sbox_2. cbv zeta. rewrite jh2_sbox_3. cbv zeta. rewrite jh2_lin_0, jh2_lin_1.
  set (cst := at_ jh2_C). clearbody cst. set (rr := 4 * r). clearbody rr.
  cases3 k p hf; reflexivity.
Qed.
Definition cc1 (r p hf : nat) : N := at_ jh_rc (4 * r + hf + 2 * p).
Definition jh_ls (x : list N) (r : nat) : list N := jh_half (jh_half x r 0) r 1.
Lemma jh_SS_eq : forall m0 m1 m2 m3 m4 m5 m6 m7 c0 c1, jh_SS (mkoct m0 m1 m2 m3 m4 m5 m6 m7) c0 c1 =
  let s := sN m0 m1 m2 m3 c0 in let u := sN m4 m5 m6 m7 c1 in mkoct (q0 s) (q1 s) (q2 s) (q3 s) (q0 u) (q1 u) (q2 u) (q3 u).
Proof. intros. unfold jh_SS, sN, q0, q1, q2, q3. cbv zeta. cbn [fst snd]. rewrite (N.land_comm (not64 m2) c0), (N.land_comm (not64 m6) c1). reflexivity. Qed.
Lemma jh_half_eq : forall x r i, jh_half x r i = 
  let s := sN (at_ x (0 + i)) (at_ x (4 + i)) (at_ x (8 + i)) (at_ x (12 + i)) (at_ jh_rc (4 * r + i)) in
  let u := sN (at_ x (2 + i)) (at_ x (6 + i)) (at_ x (10 + i)) (at_ x (14 + i)) (at_ jh_rc (4 * r + i + 2)) in
  let '(mkoct m0 m1 m2 m3 m4 m5 m6 m7) := jh_LL (mkoct (q0 s) (q1 s) (q2 s) (q3 s) (q0 u) (q1 u) (q2 u) (q3 u)) in
  upd (upd (upd (upd (upd (upd (upd (upd x (0 + i) m0) (4 + i) m1) (8 + i) m2) (12 + i) m3) (2 + i) m4) (6 + i) m5) (10 + i) m6) (14 + i) m7.
Proof. intros. unfold jh_half. rewrite jh_SS_eq. reflexivity. Qed.
Lemma jh_half_0 : forall a0 a1 a2 a3 a4 a5 a6 a7 a8 a9 a10 a11 a12 a13 a14 a15 r, let s := sN a0 a4 a8 a12 (at_ jh_rc (4 * r + 0)) in let u := sN a2 a6 a10 a14 (at_ jh_rc (4 * r + 0 + 2)) in
  jh_half [a0; a1; a2; a3; a4; a5; a6; a7; a8; a9; a10; a11; a12; a13; a14; a15] r 0 = [N.lxor (q0 s) (N.lxor (q1 u) (q2 s)); a1; N.lxor (q0 u) (q1 s); a3; N.lxor (q1 s) (N.lxor (q2 u) (N.lxor (q3 s) (q0 s))); a5; N.lxor (q1 u) (q2 s); a7; N.lxor (q2 s) (N.lxor (N.lxor (q3 u) (q0 s)) (N.lxor (q0 u) (q1 s))); a9; N.lxor (q2 u) (N.lxor (q3 s) (q0 s)); a11; N.lxor (q3 s) (N.lxor (q0 u) (q1 s)); a13; N.lxor (q3 u) (q0 s); a15].
Proof.
  intros. rewrite jh_half_eq. cbv zeta. change (at_ [a0; a1; a2; a3; a4; a5; a6; a7; a8; a9; a10; a11; a12; a13; a14; a15] (0 + 0)) with a0. cbn [Nat.add at_ nth]. fold s. fold u. unfold jh_LL. cbv zeta.
  rewrite (N.lxor_comm (q0 s) (q3 s)), (N.lxor_comm (N.lxor (q0 u) (q1 s)) (N.lxor (q3 u) (q0 s))). reflexivity.
Qed.
Lemma jh_half_1 : forall a0 a1 a2 a3 a4 a5 a6 a7 a8 a9 a10 a11 a12 a13 a14 a15 r, let s := sN a1 a5 a9 a13 (at_ jh_rc (4 * r + 1)) in let u := sN a3 a7 a11 a15 (at_ jh_rc (4 * r + 1 + 2)) in
  jh_half [a0; a1; a2; a3; a4; a5; a6; a7; a8; a9; a10; a11; a12; a13; a14; a15] r 1 = [a0; N.lxor (q0 s) (N.lxor (q1 u) (q2 s)); a2; N.lxor (q0 u) (q1 s); a4; N.lxor (q1 s) (N.lxor (q2 u) (N.lxor (q3 s) (q0 s))); a6; N.lxor (q1 u) (q2 s); a8; N.lxor (q2 s) (N.lxor (N.lxor (q3 u) (q0 s)) (N.lxor (q0 u) (q1 s))); a10; N.lxor (q2 u) (N.lxor (q3 s) (q0 s)); a12; N.lxor (q3 s) (N.lxor (q0 u) (q1 s)); a14; N.lxor (q3 u) (q0 s)].
Proof.
  intros. rewrite jh_half_eq. cbv zeta. change (at_ [a0; a1; a2; a3; a4; a5; a6; a7; a8; a9; a10; a11; a12; a13; a14; a15] (0 + 1)) with a1. cbn [Nat.add at_ nth]. fold s. fold u. unfold jh_LL. cbv zeta.
  rewrite (N.lxor_comm (q0 s) (q3 s)), (N.lxor_comm (N.lxor (q0 u) (q1 s)) (N.lxor (q3 u) (q0 s))). reflexivity.
Qed.
Lemma jh_ls_ok : forall h r, length h = 16 -> is_ls h (cc1 r) (jh_ls h r).
Proof.
  intros h r L k p hf Hk Hp Hhf. unfold jh_ls, lsN, cc1. change (2 * 0) with 0. change (2 * 1) with 2. rewrite (Nat.add_0_r (4 * r + hf)).
  des16 h L. rewrite jh_half_0. cbv zeta. rewrite jh_half_1. cbv zeta.
  set (cst := at_ jh_rc). clearbody cst. set (rr := 4 * r). clearbody rr.
  cases3 k p hf; reflexivity.
Qed.

(** ** The swapping layers *)
Definition hi0 (x : N) : Prop := forall b, (64 <= b)%N -> N.testbit x b = false.
Lemma w64_b : forall x b, N.testbit (w64 x) b = ((b <? 64)%N && N.testbit x b)%bool.
Proof.
  intros x b. unfold w64. rewrite N.land_spec. change 18446744073709551615%N with (N.ones 64).
  destruct (N.ltb_spec b 64); [rewrite N.ones_spec_low by assumption; now rewrite andb_true_r|rewrite N.ones_spec_high by assumption; now rewrite andb_false_r].
Qed.
Lemma shl64_b : forall x k b, (b < 64)%N -> N.testbit (shl64 x k) b = ((k <=? b)%N && N.testbit x (b - k))%bool.
Proof.
  intros x k b Hb. unfold shl64. rewrite w64_b. apply N.ltb_lt in Hb. rewrite Hb. cbn [andb].
  destruct (N.leb_spec k b); [now rewrite N.shiftl_spec_high'|now rewrite N.shiftl_spec_low].
Qed.
Definition jmask (t : nat) : N := nth t [0x5555555555555555; 0x3333333333333333; 0x0F0F0F0F0F0F0F0F; 0x00FF00FF00FF00FF; 0x0000FFFF0000FFFF; 0x00000000FFFFFFFF]%N 0%N.
Definition jmask' (t : nat) : N := nth t [0xaaaaaaaaaaaaaaaa; 0xcccccccccccccccc; 0xf0f0f0f0f0f0f0f0; 0xff00ff00ff00ff00; 0xffff0000ffff0000]%N 0%N.
Definition jev (t : nat) (b : N) : bool := N.even (N.shiftr b (N.of_nat t)).
Lemma mask_facts : forall t b, t < 6 -> (b < 64)%N -> let n := (2 ^ N.of_nat t)%N in
  if jev t b then N.testbit (jmask t) b = true /\ ((n <= b)%N -> N.testbit (jmask t) (b - n) = false) /\ (t < 5 -> N.testbit (jmask' t) (b + n) = true) /\ (t = 5 -> (b < 32)%N)
  else N.testbit (jmask t) b = false /\ (n <= b)%N /\ N.testbit (jmask t) (b - n) = true /\ (t < 5 -> N.testbit (jmask' t) (b + n) = false) /\ (t = 5 -> (32 <= b)%N).
Proof.
  assert (K : forallb (fun t => forallb (fun b0 => let b := N.of_nat b0 in let n := (2 ^ N.of_nat t)%N in
     if jev t b then N.testbit (jmask t) b && (negb (n <=? b)%N || negb (N.testbit (jmask t) (b - n))) && (negb (t <? 5) || N.testbit (jmask' t) (b + n)) && (negb (t =? 5) || (b <? 32)%N)
     else negb (N.testbit (jmask t) b) && (n <=? b)%N && N.testbit (jmask t) (b - n) && (negb (t <? 5) || negb (N.testbit (jmask' t) (b + n))) && (negb (t =? 5) || (32 <=? b)%N)) (seq 0 64)) (seq 0 6) = true) by (vm_compute; reflexivity).
  intros t b Ht Hb n. rewrite forallb_forall in K. specialize (K t ltac:(apply in_seq; lia)). rewrite forallb_forall in K. specialize (K (N.to_nat b) ltac:(apply in_seq; lia)). cbv zeta in K. rewrite N2Nat.id in K. fold n in K.
  set (m := jmask t) in *. set (m' := jmask' t) in *. clearbody m m' n. destruct (jev t b); rewrite !andb_true_iff, !orb_true_iff, !negb_true_iff in K.
  - rewrite N.leb_gt, Nat.ltb_ge, Nat.eqb_neq, N.ltb_lt in K. destruct K as [[[A B] C] D]. repeat split; auto.
    + intros H. destruct B as [B|B]; [exfalso; apply N.lt_nge in B; contradiction|exact B].
    + intros H. destruct C as [C|C]; [lia|exact C].
    + intros H. destruct D as [D|D]; [contradiction|exact D].
  - rewrite N.leb_le, Nat.ltb_ge, Nat.eqb_neq in K. destruct K as [[[[A B] C] D] E]. repeat split; auto.
    + intros H. destruct D as [D|D]; [lia|exact D].
    + intros H. destruct E as [E|E]; [contradiction|now apply N.leb_le].
Qed.
Lemma wgen_bit : forall t x b, t < 6 -> (b < 64)%N -> N.testbit (jh2_wgen1 (jmask t) (2 ^ N.of_nat t) x) b = N.testbit x (swapN t b).
Proof.
  intros t x b Ht Hb. pose proof (mask_facts t b Ht Hb) as K. cbv zeta in K. unfold jh2_wgen1, swapN. fold (jev t b).
  rewrite N.lor_spec, shl64_b, N.land_spec, N.land_spec, N.shiftr_spec' by exact Hb. set (n := (2 ^ N.of_nat t)%N) in *. clearbody n. destruct (jev t b).
  - destruct K as (A & B & _). rewrite A, andb_true_r. destruct (N.leb_spec n b) as [L|L]; [rewrite (B L), andb_false_r|]; cbn [andb orb]; reflexivity.
  - destruct K as (A & B & C & _). apply N.leb_le in B. rewrite A, B, C, andb_true_r, andb_false_r, orb_false_r. reflexivity.
Qed.
Lemma swap_bit : forall t x b, t < 6 -> hi0 x -> (b < 64)%N -> N.testbit (jh_swap t x) b = N.testbit x (swapN t b).
Proof.
  intros t x b Ht Hx Hb. pose proof (mask_facts t b Ht Hb) as K. cbv zeta in K. unfold swapN. fold (jev t b).
  destruct (Nat.eq_dec t 5) as [->|N5].
  - change (jh_swap 5 x) with (N.lor (shl64 x 32) (N.shiftr x 32)). rewrite N.lor_spec, shl64_b, N.shiftr_spec' by exact Hb. change (2 ^ N.of_nat 5)%N with 32%N in *. destruct (jev 5 b).
    + destruct K as (_ & _ & _ & K). specialize (K eq_refl). destruct (N.leb_spec 32 b); [lia|]. reflexivity.
    + destruct K as (_ & _ & _ & _ & K). specialize (K eq_refl). apply N.leb_le in K. rewrite K. cbn [andb]. rewrite (Hx (b + 32)%N); [apply orb_false_r|]. apply N.leb_le in K. lia.
  - assert (E : jh_swap t x = N.lor (shl64 (N.land x (jmask t)) (2 ^ N.of_nat t)) (N.shiftr (N.land x (jmask' t)) (2 ^ N.of_nat t))) by (do 5 (destruct t as [|t]; [reflexivity|]); lia).
    rewrite E, N.lor_spec, shl64_b, N.shiftr_spec', !N.land_spec by exact Hb. set (n := (2 ^ N.of_nat t)%N) in *. clearbody n. destruct (jev t b).
    + destruct K as (_ & B & C & _). rewrite C by lia. rewrite andb_true_r. destruct (N.leb_spec n b) as [L|L]; [rewrite (B L), andb_false_r|]; cbn [andb orb]; reflexivity.
    + destruct K as (_ & B & C & D & _). apply N.leb_le in B. rewrite B, C, D by lia. rewrite andb_true_r, andb_false_r, orb_false_r. reflexivity.
Qed.
(** [is_sw f t g h]: h is g after swapping layer t, done with [f] on single words. *)
Definition is_sw (t : nat) (g h : list N) : Prop :=
  forall k p hf b, k < 4 -> p < 2 -> hf < 2 -> (b < 64)%N ->
    N.testbit (at_ h (4 * k + 2 * p + hf)) b =
    if p =? 0 then N.testbit (at_ g (4 * k + 2 * p + hf)) b
    else if t =? 6 then N.testbit (at_ g (4 * k + 2 * p + (1 - hf))) b else N.testbit (at_ g (4 * k + 2 * p + hf)) (swapN t b).
Lemma jh2_W_sw : forall t g, t < 7 -> length g = 16 -> is_sw t g (jh2_W g t) /\ length (jh2_W g t) = 16.
Proof.
  intros t g Ht L. split.
  - intros k p hf b Hk Hp Hhf Hb. destruct (Nat.eqb_spec t 6) as [->|N6].
    + change (jh2_W g 6) with (jh2_doW6 g). des16 g L. cases3 k p hf; reflexivity.
    + assert (E : jh2_W g t = jh2_doWgen g (jmask t) (2 ^ N.of_nat t)) by (do 6 (destruct t as [|t]; [reflexivity|]); lia). rewrite E. unfold jh2_doWgen.
      pose proof (fun x => wgen_bit t x b ltac:(lia) Hb) as W. set (f := jh2_wgen1 (jmask t) (2 ^ N.of_nat t)) in *. clearbody f. clear E N6 Ht Hb. des16 g L.
      cases3 k p hf; cbn [fold_left upd at_ nth Nat.add Nat.mul Nat.eqb]; (reflexivity || apply W).
  - do 6 (destruct t as [|t]; [cbn [jh2_W]; unfold jh2_doWgen; cbn [fold_left]; now rewrite !upd_length|]). cbn [jh2_W]. unfold jh2_doW6; cbn [fold_left]; now rewrite !upd_length.
Qed.
Lemma jh_half_len : forall x r i, length (jh_half x r i) = length x.
Proof. intros. rewrite jh_half_eq. cbv zeta. unfold jh_LL. cbv zeta. now rewrite !upd_length. Qed.
Lemma half_swap_comm : forall t x r, length x = 16 -> jh_half_swap t (jh_half_swap t x r 0) r 1 =
  fold_left (fun h i => upd h i (jh_swap t (at_ h i))) [2; 6; 10; 14; 3; 7; 11; 15] (jh_ls x r).
Proof.
  intros t x r L. unfold jh_half_swap, jh_ls. assert (L0 : length (jh_half x r 0) = 16) by (now rewrite jh_half_len). set (f := jh_swap t). clearbody f.
  cbv zeta. set (y := jh_half x r 0) in *. clearbody y. clear x L. des16 y L0.
  cbn [upd at_ nth Nat.add]. rewrite !jh_half_1. cbv zeta. reflexivity.
Qed.
Lemma jh_round_sw : forall t x r, t < 7 -> length x = 16 -> Forall hi0 (jh_ls x r) -> is_sw t (jh_ls x r) (jh_round x r t) /\ length (jh_round x r t) = 16.
Proof.
  intros t x r Ht L H. assert (LL : length (jh_ls x r) = 16) by (unfold jh_ls; now rewrite !jh_half_len). unfold jh_round. split.
  - intros k p hf b Hk Hp Hhf Hb. destruct (Nat.ltb_spec t 6) as [L6|L6].
    + destruct (Nat.eqb_spec t 6); [lia|]. rewrite half_swap_comm by exact L. set (g := jh_ls x r) in *. clearbody g.
      assert (W : forall i, N.testbit (jh_swap t (at_ g i)) b = N.testbit (at_ g i) (swapN t b)).
      { intros i. apply swap_bit; auto. destruct (Nat.lt_ge_cases i (length g)) as [G|G]; [rewrite Forall_forall in H; apply H, nth_In, G|]. unfold at_. rewrite nth_overflow by lia. intros ? _. apply N.bits_0. }
      set (f := jh_swap t) in *. clearbody f. clear H Ht L6. des16 g LL. cases3 k p hf; cbn [fold_left upd at_ nth Nat.add Nat.mul Nat.eqb]; try reflexivity.
      all: first [exact (W 2)|exact (W 3)|exact (W 6)|exact (W 7)|exact (W 10)|exact (W 11)|exact (W 14)|exact (W 15)].
    + assert (t = 6) by lia. subst t. fold (jh_ls x r). set (g := jh_ls x r) in *. clearbody g. des16 g LL. cases3 k p hf; reflexivity.
  - destruct (Nat.ltb_spec t 6); [rewrite half_swap_comm by exact L; cbn [fold_left]; now rewrite !upd_length|]. fold (jh_ls x r). unfold jh_swap6. cbn [fold_left]. now rewrite !upd_length.
Qed.

(** ** Words stay below 2^64 *)
Lemma hi0_lxor : forall a b, hi0 a -> hi0 b -> hi0 (N.lxor a b). Proof. intros a b A B i Hi. now rewrite N.lxor_spec, A, B. Qed.
Lemma hi0_land : forall a b, hi0 a -> hi0 (N.land a b). Proof. intros a b A i Hi. now rewrite N.land_spec, A. Qed.
Lemma hi0_lor : forall a b, hi0 a -> hi0 b -> hi0 (N.lor a b). Proof. intros a b A B i Hi. now rewrite N.lor_spec, A, B. Qed.
Lemma hi0_not : forall a, hi0 a -> hi0 (not64 a).
Proof. intros a A i Hi. unfold not64. rewrite N.lxor_spec, A by exact Hi. change 18446744073709551615%N with (N.ones 64). now rewrite N.ones_spec_high. Qed.
Lemma hi0_shl : forall a k, hi0 (shl64 a k).
Proof. intros a k i Hi. unfold shl64. rewrite w64_b. apply N.ltb_ge in Hi. now rewrite Hi. Qed.
Lemma hi0_shr : forall a k, hi0 a -> hi0 (N.shiftr a k).
Proof. intros a k A i Hi. rewrite N.shiftr_spec'. apply A. lia. Qed.
Lemma hi0_0 : hi0 0. Proof. intros i _. apply N.bits_0. Qed.
Lemma hi0_lt : forall x, (x < 2 ^ 64)%N -> hi0 x.
Proof.
  intros x H i Hi. destruct (N.eq_dec x 0) as [->|NZ]; [apply N.bits_0|]. apply N.bits_above_log2. apply N.lt_le_trans with 64%N; [|exact Hi]. apply N.log2_lt_pow2; [lia|exact H].
Qed.
Lemma hi0_at : forall l i, Forall hi0 l -> hi0 (at_ l i).
Proof. intros l i H. destruct (Nat.lt_ge_cases i (length l)) as [G|G]; [rewrite Forall_forall in H; apply H, nth_In, G|]. unfold at_. rewrite nth_overflow by lia. apply hi0_0. Qed.
Lemma hi0_upd : forall l i v, Forall hi0 l -> hi0 v -> Forall hi0 (upd l i v).
Proof. induction l as [|a l IH]; intros i v H Hv; [destruct i; constructor|]. inversion H; subst. destruct i; cbn [upd]; constructor; auto. Qed.
Lemma hi0_sN : forall x0 x1 x2 x3 cc, hi0 x0 -> hi0 x1 -> hi0 x2 -> hi0 x3 -> hi0 cc -> let t := sN x0 x1 x2 x3 cc in hi0 (q0 t) /\ hi0 (q1 t) /\ hi0 (q2 t) /\ hi0 (q3 t).
Proof.
  intros. unfold t, sN, q0, q1, q2, q3. cbn [fst snd]. split; [|split; [|split]]; repeat (first [assumption|apply hi0_not|apply hi0_lxor|apply hi0_land|apply hi0_lor]).
Qed.
Lemma hi0_rc : Forall hi0 jh_rc.
Proof.
  assert (K : forallb (fun x => (x <? 2 ^ 64)%N) jh_rc = true) by (vm_compute; reflexivity).
  rewrite forallb_forall in K. apply Forall_forall. intros x Hx. apply hi0_lt. apply N.ltb_lt, K, Hx.
Qed.
Lemma hi0_half : forall x r i, Forall hi0 x -> Forall hi0 (jh_half x r i).
Proof.
  intros x r i H. rewrite jh_half_eq. cbv zeta.
  destruct (hi0_sN (at_ x (0 + i)) (at_ x (4 + i)) (at_ x (8 + i)) (at_ x (12 + i)) (at_ jh_rc (4 * r + i))) as (A0 & A1 & A2 & A3); try (apply hi0_at; assumption). apply hi0_at, hi0_rc.
  destruct (hi0_sN (at_ x (2 + i)) (at_ x (6 + i)) (at_ x (10 + i)) (at_ x (14 + i)) (at_ jh_rc (4 * r + i + 2))) as (B0 & B1 & B2 & B3); try (apply hi0_at; assumption). apply hi0_at, hi0_rc.
  set (s := sN _ _ _ _ (at_ jh_rc (4 * r + i))) in *. set (u := sN _ _ _ _ _) in *. clearbody s u. unfold jh_LL. cbv zeta.
  repeat (apply hi0_upd; [|repeat (first [assumption|apply hi0_lxor])]). exact H.
Qed.
Lemma hi0_swap : forall t x, hi0 x -> hi0 (jh_swap t x).
Proof.
  intros t x H. do 5 (destruct t as [|t]; [cbn [jh_swap]; apply hi0_lor; [apply hi0_shl|apply hi0_shr, hi0_land, H]|]). cbn [jh_swap]. apply hi0_lor; [apply hi0_shl|apply hi0_shr, H].
Qed.
Lemma hi0_round : forall x r t, length x = 16 -> Forall hi0 x -> Forall hi0 (jh_ls x r) /\ Forall hi0 (jh_round x r t).
Proof.
  intros x r t L H. assert (G : Forall hi0 (jh_ls x r)) by (unfold jh_ls; now apply hi0_half, hi0_half). split; [exact G|].
  unfold jh_round. destruct (t <? 6).
  - rewrite half_swap_comm by exact L. set (g := jh_ls x r) in *. clearbody g.
    assert (F : forall l g, Forall hi0 g -> Forall hi0 (fold_left (fun h i => upd h i (jh_swap t (at_ h i))) l g)) by (induction l as [|a l IH]; intros g' Hg'; [exact Hg'|]; cbn [fold_left]; apply IH, hi0_upd; [exact Hg'|now apply hi0_swap, hi0_at]).
    now apply F.
  - fold (jh_ls x r). set (g := jh_ls x r) in *. clearbody g. unfold jh_swap6.
    assert (F : forall l g, Forall hi0 g -> Forall hi0 (fold_left (fun x i => let temp0 := at_ x (2 * i) in let x := upd x (2 * i) (at_ x (2 * i + 1)) in upd x (2 * i + 1) temp0) l g)).
    { induction l as [|a l IH]; intros g' Hg'; [exact Hg'|]. cbn [fold_left]. apply IH. cbv zeta. apply hi0_upd; [apply hi0_upd; [exact Hg'|]|]; now apply hi0_at. }
    now apply F.
Qed.

(** ** The constants *)
Fixpoint const_chk (bit : nat -> nat -> nat -> bool) (C : list N) (r n : nat) : bool :=
  match n with
  | O => true
  | S n => forallb (fun p => forallb (fun i => Bool.eqb (bit r p i) (jh_Cbit C (rho r p i))) (seq 0 128)) (seq 0 2) && const_chk bit (jh_R 64 (fun _ => false) C) (S r) n
  end.
Lemma const_chk_ok : forall bit n r, const_chk bit (jh_C r) r n = true -> forall r' p i, r <= r' < r + n -> p < 2 -> i < 128 -> bit r' p i = jh_Cbit (jh_C r') (rho r' p i).
Proof.
  intros bit. induction n as [|n IH]; intros r K r' p i Hr Hp Hi; [lia|]. cbn [const_chk] in K. apply andb_true_iff in K. destruct K as [A B].
  destruct (Nat.eq_dec r r') as [->|NE].
  - rewrite forallb_forall in A. specialize (A p ltac:(apply in_seq; lia)). rewrite forallb_forall in A. specialize (A i ltac:(apply in_seq; lia)). now apply eqb_prop.
  - apply (IH (S r)); auto. lia.
Qed.
Lemma const2 : forall r p i, r < 42 -> p < 2 -> i < 128 -> N.testbit (cc2 r p (i / 64)) (posBE (i mod 64)) = jh_Cbit (jh_C r) (rho r p i).
Proof.
  intros r p i Hr Hp Hi. apply (const_chk_ok (fun r p i => N.testbit (cc2 r p (i / 64)) (posBE (i mod 64))) 42 0); try assumption; [|lia]. vm_compute. reflexivity.
Qed.
Lemma const1 : forall r p i, r < 42 -> p < 2 -> i < 128 -> N.testbit (cc1 r p (i / 64)) (posLE (i mod 64)) = jh_Cbit (jh_C r) (rho r p i).
Proof.
  intros r p i Hr Hp Hi. apply (const_chk_ok (fun r p i => N.testbit (cc1 r p (i / 64)) (posLE (i mod 64))) 42 0); try assumption; [|lia]. vm_compute. reflexivity.
Qed.
