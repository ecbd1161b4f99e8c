(** Fermat.v -- number theory used by the makwa Recover theorem: Fermat's little theorem and square roots
    modulo primes p = 3 (mod 4), from the standard library only. *)
From Coq Require Import List ZArith Znumtheory Lia Permutation.
Import ListNotations.
Local Open Scope Z_scope.

Definition cong (p x y : Z) : Prop := (p | x - y).
Lemma cong_refl : forall p x, cong p x x. Proof. intros. unfold cong. rewrite Z.sub_diag. apply Z.divide_0_r. Qed.
Lemma cong_sym : forall p x y, cong p x y -> cong p y x.
Proof. intros p x y [k E]. exists (- k). lia. Qed.
Lemma cong_trans : forall p x y z, cong p x y -> cong p y z -> cong p x z.
Proof. intros p x y z [k E] [l F]. exists (k + l). lia. Qed.
Lemma cong_mul : forall p x y x' y', cong p x x' -> cong p y y' -> cong p (x * y) (x' * y').
Proof. intros p x y x' y' [k E] [l F]. exists (k * y + x' * l). rewrite Z.mul_add_distr_r. replace (k * y * p) with (y * (x - x')) by (rewrite E; ring). replace (x' * l * p) with (x' * (y - y')) by (rewrite F; ring). ring. Qed.
Lemma cong_mod : forall p x, 0 < p -> cong p (x mod p) x.
Proof. intros p x Hp. exists (- (x / p)). pose proof (Z.div_mod x p ltac:(lia)). lia. Qed.
Lemma cong_eq : forall p x y, 0 < p -> cong p x y -> x mod p = y mod p.
Proof. intros p x y Hp [k E]. replace x with (y + k * p) by lia. apply Z_mod_plus_full. Qed.
Lemma cong_small : forall p x y, 0 <= x < p -> 0 <= y < p -> cong p x y -> x = y.
Proof. intros p x y Hx Hy C. apply cong_eq in C; [|lia]. rewrite !Z.mod_small in C by lia. exact C. Qed.
Lemma cong_pow_base : forall p n x y, 0 <= n -> cong p x y -> cong p (x ^ n) (y ^ n).
Proof.
  intros p n x y Hn C. revert n Hn. apply natlike_ind; [apply cong_refl|]. intros n Hn IH. rewrite !Z.pow_succ_r by exact Hn. now apply cong_mul.
Qed.
Lemma cong_cancel : forall p c x y, prime p -> ~ (p | c) -> cong p (c * x) (c * y) -> cong p x y.
Proof.
  intros p c x y Hp Hc C. unfold cong in *. rewrite <- Z.mul_sub_distr_l in C. apply prime_mult in C; [|exact Hp]. destruct C as [C|C]; [contradiction|exact C].
Qed.

Definition prod (l : list Z) : Z := fold_right Z.mul 1 l.
Lemma prod_perm : forall l l', Permutation l l' -> prod l = prod l'.
Proof. induction 1; cbn [prod fold_right] in *; unfold prod in *; lia. Qed.
Lemma prod_map : forall p a l, 0 < p -> cong p (prod (map (fun i => (a * i) mod p) l)) (a ^ Z.of_nat (length l) * prod l).
Proof.
  intros p a l Hp. induction l as [|x l IH]; [apply cong_refl|]. cbn [map prod fold_right length]. fold (prod l). fold (prod (map (fun i => (a * i) mod p) l)).
  rewrite Nat2Z.inj_succ, Z.pow_succ_r by lia. replace (a * a ^ Z.of_nat (length l) * (x * prod l)) with ((a * x) * (a ^ Z.of_nat (length l) * prod l)) by ring.
  apply cong_mul; [now apply cong_mod|exact IH].
Qed.
Lemma prod_coprime : forall p l, prime p -> Forall (fun x => ~ (p | x)) l -> ~ (p | prod l).
Proof.
  intros p l Hp HF. induction HF as [|x l Hx _ IH]; cbn [prod fold_right].
  - intros D. apply Z.divide_1_r in D. pose proof (prime_ge_2 p Hp). lia.
  - intros D. apply prime_mult in D; [|exact Hp]. destruct D; contradiction.
Qed.
Lemma not_div_range : forall p x, 0 < x < p -> ~ (p | x).
Proof. intros p x Hx D. apply Z.divide_pos_le in D; lia. Qed.
Theorem fermat_unit : forall p a, prime p -> ~ (p | a) -> cong p (a ^ (p - 1)) 1.
Proof.
  intros p a Hp Ha. pose proof (prime_ge_2 p Hp) as P2.
  set (L := map Z.of_nat (seq 1 (Z.to_nat (p - 1)))).
  assert (LL : length L = Z.to_nat (p - 1)) by (unfold L; now rewrite map_length, seq_length).
  assert (RL : forall x, In x L <-> 0 < x < p).
  { intros x. unfold L. rewrite in_map_iff. split.
    - intros [n [<- Hn]]. apply in_seq in Hn. lia.
    - intros Hx. exists (Z.to_nat x). split; [lia|]. apply in_seq. lia. }
  assert (NL : NoDup L).
  { unfold L. apply FinFun.Injective_map_NoDup; [intros x y; apply Nat2Z.inj|apply seq_NoDup]. }
  set (f := fun i => (a * i) mod p).
  assert (Rf : forall x, 0 < x < p -> 0 < f x < p).
  { intros x Hx. unfold f. pose proof (Z.mod_pos_bound (a * x) p ltac:(lia)) as B.
    assert ((a * x) mod p <> 0); [|lia]. intros E. apply Z.mod_divide in E; [|lia]. apply prime_mult in E; [|exact Hp]. destruct E as [E|E]; [contradiction|]. exact (not_div_range p x Hx E). }
  assert (NM : NoDup (map f L)).
  { assert (G : forall l, NoDup l -> (forall x, In x l -> 0 < x < p) -> NoDup (map f l)).
    { induction l as [|x l IH]; intros Hn Hl; [constructor|]. inversion Hn as [|? ? Hx Hn']. cbn [map]. constructor.
      - intros K. apply in_map_iff in K. destruct K as [y [E Hy]]. apply Hx.
        assert (C : cong p (a * y) (a * x)).
        { eapply cong_trans; [apply cong_sym, cong_mod; lia|]. unfold f in E. rewrite E. apply cong_mod. lia. }
        apply cong_cancel in C; [|exact Hp|exact Ha]. apply cong_small in C; [|specialize (Hl y (or_intror Hy)); lia|specialize (Hl x (or_introl eq_refl)); lia]. now rewrite <- C.
      - apply IH; [exact Hn'|]. intros y Hy. apply Hl. now right. }
    apply G; [exact NL|]. intros x Hx. now apply RL. }
  assert (PM : Permutation (map f L) L).
  { apply NoDup_Permutation_bis; [exact NM|now rewrite map_length|]. intros y Hy. apply in_map_iff in Hy. destruct Hy as [x [<- Hx]]. apply RL, Rf, RL, Hx. }
  apply prod_perm in PM. pose proof (prod_map p a L ltac:(lia)) as C. fold f in C. rewrite PM, LL, Z2Nat.id in C by lia.
  apply cong_sym in C. apply (cong_cancel p (prod L)); [exact Hp| |].
  - apply prod_coprime; [exact Hp|]. apply Forall_forall. intros x Hx. apply not_div_range. now apply RL.
  - rewrite Z.mul_1_r, Z.mul_comm. exact C.
Qed.
Lemma fermat : forall p a, prime p -> cong p (a ^ p) a.
Proof.
  intros p a Hp. pose proof (prime_ge_2 p Hp) as P2. replace (a ^ p) with (a ^ (p - 1) * a) by (replace p with (Z.succ (p - 1)) at 2 by lia; rewrite Z.pow_succ_r by lia; ring).
  destruct (Zdivide_dec p a) as [D|D].
  - unfold cong. replace (a ^ (p - 1) * a - a) with ((a ^ (p - 1) - 1) * a) by ring. now apply Z.divide_mul_r.
  - pose proof (cong_mul _ _ _ _ _ (fermat_unit p a Hp D) (cong_refl p a)) as C. now rewrite Z.mul_1_l in C.
Qed.
(** exponents can be reduced modulo p - 1 when the reduced exponent is positive *)
Lemma cong_pow_exp : forall p a e, prime p -> 0 <= e -> 0 < e mod (p - 1) -> cong p (a ^ (e mod (p - 1))) (a ^ e).
Proof.
  intros p a e Hp He Hm. pose proof (prime_ge_2 p Hp) as P2. assert (P3 : 1 < p - 1) by (destruct (Z.eq_dec p 2) as [->|]; [rewrite Z.mod_1_r in Hm; lia|lia]).
  pose proof (Z.div_mod e (p - 1) ltac:(lia)) as E. pose proof (Z.div_pos e (p - 1) He ltac:(lia)) as Hq.
  set (q := e / (p - 1)) in *. set (r := e mod (p - 1)) in *. rewrite E, Z.pow_add_r, Z.pow_mul_r by nia.
  destruct (Zdivide_dec p a) as [D|D].
  - assert (Z0 : (p | a ^ r)) by (replace r with (Z.succ (r - 1)) by lia; rewrite Z.pow_succ_r by lia; now apply Z.divide_mul_l).
    unfold cong. apply Z.divide_sub_r; [exact Z0|now apply Z.divide_mul_r].
  - rewrite <- (Z.mul_1_l (a ^ r)) at 1. apply cong_mul; [|apply cong_refl].
    pose proof (cong_pow_base p q _ _ Hq (fermat_unit p a Hp D)) as C. rewrite Z.pow_1_l in C by exact Hq. now apply cong_sym.
Qed.

(** ** Square roots for p = 3 mod 4, e = (p + 1) / 4 *)
Section Root.
Variable p : Z.
Hypothesis Hp : prime p.
Hypothesis H4 : p mod 4 = 3.
Definition root_e : Z := (p + 1) / 4.
Lemma root_e_eq : 4 * root_e = p + 1.
Proof. unfold root_e. pose proof (Z.div_mod (p + 1) 4 ltac:(lia)). assert ((p + 1) mod 4 = 0); [|lia]. rewrite Z.add_mod, H4 by lia. reflexivity. Qed.
Lemma p_ge3 : 3 <= p.
Proof. pose proof (prime_ge_2 p Hp). assert (p <> 2) by (intros E; rewrite E in H4; discriminate H4). lia. Qed.
Lemma root_e_pos : 0 < root_e. Proof. pose proof root_e_eq. pose proof p_ge3. lia. Qed.
(** squares are recovered from their squares *)
Lemma root_square : forall t, cong p ((t ^ 4) ^ root_e) (t ^ 2).
Proof.
  intros t. pose proof root_e_pos. pose proof p_ge3. rewrite <- Z.pow_mul_r, root_e_eq by lia. rewrite Z.pow_add_r by lia. replace (t ^ 2) with (t * t ^ 1) by ring. apply cong_mul; [now apply fermat|apply cong_refl].
Qed.
Lemma root_iter : forall w x, 0 <= w -> cong p ((x ^ (2 ^ (w + 1))) ^ (root_e ^ w)) (x ^ 2).
Proof.
  intros w x Hw. revert w Hw. apply (natlike_ind (fun w => cong p ((x ^ (2 ^ (w + 1))) ^ (root_e ^ w)) (x ^ 2))).
  - cbn [Z.add]. rewrite Z.pow_0_r. rewrite !Z.pow_1_r. apply cong_refl.
  - intros w Hw IH. pose proof root_e_pos. rewrite (Z.pow_succ_r root_e) by exact Hw. rewrite Z.pow_mul_r by (try apply Z.pow_nonneg; lia).
    eapply cong_trans; [|exact IH]. apply cong_pow_base; [apply Z.pow_nonneg; lia|].
    pose proof (root_square (x ^ (2 ^ w))) as C. rewrite <- !Z.pow_mul_r in C by (try apply Z.pow_nonneg; lia).
    replace (2 ^ w * (4 * root_e)) with (2 ^ (Z.succ w + 1) * root_e) in C by (rewrite Z.pow_add_r, Z.pow_succ_r by lia; change (2 ^ 1) with 2; ring).
    replace (2 ^ w * 2) with (2 ^ (w + 1)) in C by (rewrite Z.pow_add_r by lia; lia). rewrite <- Z.pow_mul_r by (try apply Z.pow_nonneg; lia). exact C.
Qed.
(** the full exponent e^(w+1) gives x up to sign *)
Lemma root_pm : forall w x, 0 <= w -> let r := (x ^ (2 ^ (w + 1))) ^ (root_e ^ (w + 1)) in cong p r x \/ cong p r (- x).
Proof.
  intros w x Hw r. pose proof root_e_pos. 
  assert (C : cong p r ((x ^ 2) ^ root_e)).
  { unfold r. rewrite (Z.pow_add_r root_e w 1), Z.pow_1_r by lia. rewrite Z.pow_mul_r by (try apply Z.pow_nonneg; lia). apply cong_pow_base; [lia|]. now apply root_iter. }
  assert (C2 : cong p (r * r) (x * x)).
  { eapply cong_trans; [apply cong_mul; exact C|]. rewrite <- Z.pow_2_r, <- Z.pow_mul_r by lia. rewrite (Z.mul_comm root_e 2), Z.pow_mul_r, <- (Z.pow_mul_r x 2 2) by lia. change (2 * 2) with 4.
    eapply cong_trans; [apply root_square|]. rewrite Z.pow_2_r. apply cong_refl. }
  unfold cong in *. replace (r * r - x * x) with ((r - x) * (r - - x)) in C2 by ring. apply prime_mult in C2; [exact C2|exact Hp].
Qed.
(** the reduced exponent is positive *)
Lemma root_exp_pos : forall w, 0 <= w -> 0 < (root_e ^ w) mod (p - 1).
Proof.
  intros w Hw. pose proof p_ge3. pose proof root_e_eq as E4. pose proof root_e_pos.
  pose proof (Z.mod_pos_bound (root_e ^ w) (p - 1) ltac:(lia)) as B. assert ((root_e ^ w) mod (p - 1) <> 0); [|lia]. intros Z0.
  apply Z.mod_divide in Z0; [|lia].
  assert (G : rel_prime root_e (2 * root_e - 1)). { apply bezout_rel_prime. apply (Bezout_intro _ _ _ 2 (-1)). ring. }
  assert (D : (2 * root_e - 1 | root_e ^ w)). { apply Z.divide_trans with (p - 1); [exists 2; lia|exact Z0]. }
  assert (G' : rel_prime (root_e ^ w) (2 * root_e - 1)).
  { clear D Z0 B. revert w Hw. apply natlike_ind; [rewrite Z.pow_0_r; apply rel_prime_1|]. intros w Hw IH. rewrite Z.pow_succ_r by exact Hw. apply rel_prime_sym, rel_prime_mult; now apply rel_prime_sym. }
  assert (D1 : (2 * root_e - 1 | 1)). { apply G'; [exact D|apply Z.divide_refl]. }
  apply Z.divide_1_r in D1. assert (E1 : root_e = 1) by lia. rewrite E1, Z.pow_1_l in Z0 by exact Hw. replace (p - 1) with 2 in Z0 by lia. apply Z.divide_1_r in Z0. lia.
Qed.
End Root.
(** Chinese remaindering: a number below p q is determined by its residues. *)
Lemma crt_unique : forall p q x y, prime p -> prime q -> p <> q -> 0 <= x < p * q -> 0 <= y < p * q -> cong p x y -> cong q x y -> x = y.
Proof.
  intros p q x y Hp Hq Hne Hx Hy Cp Cq. pose proof (prime_ge_2 p Hp). pose proof (prime_ge_2 q Hq).
  assert (R : rel_prime p q). { apply prime_rel_prime; [exact Hp|]. intros D. apply prime_div_prime in D; [contradiction|exact Hp|exact Hq]. }
  apply (cong_small (p * q)); [exact Hx|exact Hy|]. unfold cong in *. destruct Cp as [k Ek]. rewrite Ek in *.
  rewrite Z.mul_comm in Cq. apply Gauss in Cq; [destruct Cq as [l El]; exists l; rewrite El; ring|now apply rel_prime_sym].
Qed.
