(** MakwaR.v -- lemmas about makwa's Hash, Extend and Recover. *)
From Coq Require Import List NArith ZArith Znumtheory Arith Lia Bool.
From Verif Require Import Base Words Refine Makwa MakwaP Fermat.
Import ListNotations.
Local Open Scope nat_scope.
Local Ltac Zify.zify_post_hook ::= idtac.

(** ** Big integers as byte strings *)
Lemma be_val_lt : forall l, isbytes l -> (be_val l < 256 ^ N.of_nat (length l))%N.
Proof. intros l Hl. unfold be_val. rewrite pow256. rewrite <- (rev_length l). apply le_val_lt. now apply Forall_rev. Qed.
Lemma le_val_zeros : forall k, le_val (zeros k) = 0%N.
Proof. induction k as [|k IH]; [reflexivity|]. change (zeros (S k)) with (0%N :: zeros k). cbn [le_val]. rewrite IH. reflexivity. Qed.
Lemma be_val_zeros_app : forall k l, be_val (zeros k ++ l) = be_val l.
Proof.
  intros k l. unfold be_val. rewrite rev_app_distr, le_val_app. replace (rev (zeros k)) with (zeros k); [rewrite le_val_zeros; lia|].
  unfold zeros. induction k as [|k IH]; [reflexivity|]. cbn [repeat rev]. rewrite <- IH. clear. induction k as [|k IH]; [reflexivity|]. cbn [repeat app]. now rewrite IH.
Qed.
Lemma be_bytes_unique : forall l k x, isbytes l -> length l = k -> be_val l = x -> be_bytes k x = l.
Proof. intros l k x Hl <- <-. now apply be_bytes_be_val. Qed.
Lemma be_val_be_small : forall k x, (x < 256 ^ N.of_nat k)%N -> be_val (be_bytes k x) = x.
Proof. intros. rewrite be_val_be_bytes. now apply N.mod_small. Qed.
Lemma be_bytes_pad : forall a l x, (x < 256 ^ N.of_nat l)%N -> be_bytes (a + l) x = zeros a ++ be_bytes l x.
Proof.
  intros a l x Hx. apply be_bytes_unique; [apply Forall_app; split; [apply zeros_isbytes|apply be_bytes_isbytes]|now rewrite app_length, zeros_length, be_bytes_length|].
  rewrite be_val_zeros_app. now apply be_val_be_small.
Qed.
Lemma byte_len_lt : forall x, (x < 256 ^ N.of_nat (byte_len x))%N.
Proof.
  intros x. rewrite pow256. eapply N.lt_le_trans; [apply N.size_gt|]. apply N.pow_le_mono_r; [discriminate|]. unfold byte_len.
  pose proof (Nat.div_mod (N.to_nat (N.size x) + 7) 8 ltac:(lia)). pose proof (Nat.mod_upper_bound (N.to_nat (N.size x) + 7) 8 ltac:(lia)). lia.
Qed.
Lemma size_pow : forall x, x <> 0%N -> (2 ^ (N.size x - 1) <= x)%N.
Proof.
  intros x Hx. rewrite N.size_log2 by exact Hx. replace (N.succ (N.log2 x) - 1)%N with (N.log2 x) by lia. apply N.log2_spec. lia.
Qed.
Lemma byte_len_le : forall x m, (x < 256 ^ N.of_nat m)%N -> byte_len x <= m.
Proof.
  intros x m Hx. destruct (N.eq_dec x 0) as [->|H0]; [cbn; lia|]. pose proof (size_pow x H0) as S1.
  assert (N.size x - 1 < N.of_nat (8 * m))%N. { apply (N.pow_lt_mono_r_iff 2); [lia|]. rewrite <- pow256. lia. }
  assert (N.size x <> 0)%N by (rewrite N.size_log2 by exact H0; lia).
  assert (L : N.to_nat (N.size x) <= 8 * m) by lia. unfold byte_len.
  assert (B : (N.to_nat (N.size x) + 7) / 8 < m + 1) by (apply Nat.div_lt_upper_bound; lia). lia.
Qed.
Lemma big_bytes_len : forall x, length (big_bytes x) = byte_len x.
Proof. intros. apply be_bytes_length. Qed.
Lemma big_bytes_val : forall x, be_val (big_bytes x) = x.
Proof. intros. apply be_val_be_small, byte_len_lt. Qed.
Lemma mk_pad_ok : forall n x, (x < 256 ^ N.of_nat (byte_len n))%N -> mk_pad n x = be_bytes (byte_len n) x.
Proof.
  intros n x Hx. pose proof (byte_len_le x _ Hx) as L. unfold mk_pad. cbv zeta. rewrite big_bytes_len. destruct (Nat.ltb_spec (byte_len x) (byte_len n)) as [H|H].
  - rewrite firstn_all2 by (rewrite app_length, zeros_length, big_bytes_len; lia). unfold big_bytes. rewrite <- be_bytes_pad by apply byte_len_lt. f_equal. lia.
  - rewrite firstn_all2 by (rewrite big_bytes_len; lia). unfold big_bytes. f_equal. lia.
Qed.
(** the big-endian form without leading zero bytes *)
Lemma big_bytes_strip : forall k x, (x < 256 ^ N.of_nat k)%N -> be_bytes k x = zeros (k - byte_len x) ++ big_bytes x.
Proof.
  intros k x Hx. pose proof (byte_len_le x k Hx). unfold big_bytes. rewrite <- be_bytes_pad by apply byte_len_lt. f_equal. lia.
Qed.
(** ** Modular powers *)
Lemma pow_mod_pos_ok : forall e x m, m <> 0%N -> pow_mod_pos x e m = (x ^ N.pos e mod m)%N.
Proof.
  induction e as [e IH|e IH|]; intros x m Hm; cbn [pow_mod_pos].
  - rewrite IH by exact Hm. change (N.pos e~1) with (2 * N.pos e + 1)%N. rewrite N.pow_add_r, N.pow_1_r, N.pow_mul_r, N.pow_2_r.
    rewrite (N.mul_comm x), N.mul_mod_idemp_l by exact Hm. rewrite N.mul_mod by exact Hm.
    assert (E : forall a k, (((a mod m) ^ k) mod m = (a ^ k) mod m)%N).
    { intros a k. induction k as [|k IHk] using N.peano_ind; [reflexivity|]. rewrite !N.pow_succ_r'. rewrite N.mul_mod, IHk, N.mod_mod, <- N.mul_mod by exact Hm. reflexivity. }
    rewrite E, <- N.mul_mod by exact Hm. reflexivity.
  - rewrite IH by exact Hm. change (N.pos e~0) with (2 * N.pos e)%N. rewrite N.pow_mul_r, N.pow_2_r.
    assert (E : forall a k, (((a mod m) ^ k) mod m = (a ^ k) mod m)%N).
    { intros a k. induction k as [|k IHk] using N.peano_ind; [reflexivity|]. rewrite !N.pow_succ_r'. rewrite N.mul_mod, IHk, N.mod_mod, <- N.mul_mod by exact Hm. reflexivity. }
    apply E.
  - now rewrite N.pow_1_r.
Qed.
Lemma pow_mod_ok : forall x e m, m <> 0%N -> pow_mod x e m = (x ^ e mod m)%N.
Proof. intros x [|e] m Hm; [reflexivity|now apply pow_mod_pos_ok]. Qed.
Lemma squarings_ok : forall k n x, n <> 0%N -> squarings (S k) n x = (x ^ (2 ^ N.of_nat (S k)) mod n)%N.
Proof.
  intros k n x Hn. induction k as [|k IH].
  - unfold squarings. cbn [Nat.iter]. unfold square_mod. change (2 ^ N.of_nat 1)%N with 2%N. now rewrite N.pow_2_r.
  - change (squarings (S (S k)) n x) with (square_mod n (squarings (S k) n x)). rewrite IH. unfold square_mod.
    rewrite <- N.mul_mod by exact Hn. f_equal. rewrite (Nat2N.inj_succ (S k)), N.pow_succ_r'. rewrite (N.mul_comm 2), N.pow_mul_r, N.pow_2_r. reflexivity.
Qed.
Lemma squarings_add : forall a b n x, squarings (a + b) n x = squarings a n (squarings b n x).
Proof.
  intros a b n x. induction a as [|a IH]; [reflexivity|].
  change (squarings (S a + b) n x) with (square_mod n (squarings (a + b) n x)). rewrite IH. reflexivity.
Qed.
Lemma squarings_lt : forall k n x, n <> 0%N -> (x < n)%N -> (squarings k n x < n)%N.
Proof. intros [|k] n x Hn Hx; [exact Hx|]. rewrite squarings_ok by exact Hn. now apply N.mod_lt. Qed.
Lemma n_ge : forall n, 160 <= N.to_nat (N.size n) / 8 -> n <> 0%N /\ (256 ^ N.of_nat (N.to_nat (N.size n) / 8 - 1) <= n)%N.
Proof.
  intros n F. assert (H0 : n <> 0%N) by (intros ->; cbn in F; lia). split; [exact H0|]. eapply N.le_trans; [|now apply size_pow].
  rewrite pow256. apply N.pow_le_mono_r; [discriminate|]. pose proof (Nat.div_mod (N.to_nat (N.size n)) 8 ltac:(lia)). lia.
Qed.
(** ** Recover *)
Lemma ofN_pow_mod : forall x e m, Z.of_N (x ^ e mod m) = ((Z.of_N x ^ Z.of_N e) mod Z.of_N m)%Z.
Proof. intros. now rewrite N2Z.inj_mod, N2Z.inj_pow. Qed.
Section Blum.
Variable p q iq n : N.
Hypothesis Pp : prime (Z.of_N p).
Hypothesis Pq : prime (Z.of_N q).
Hypothesis Pne : p <> q.
Hypothesis P4 : (p mod 4 = 3)%N.
Hypothesis Q4 : (q mod 4 = 3)%N.
Hypothesis En : n = (p * q)%N.
Hypothesis Iq : ((iq * q) mod p = 1)%N.
Lemma pgt : (1 < p)%N. Proof. pose proof (prime_ge_2 _ Pp). lia. Qed.
Lemma qgt : (1 < q)%N. Proof. pose proof (prime_ge_2 _ Pq). lia. Qed.
Lemma crt_ok : forall zp zq, (zp < p)%N -> (zq < q)%N ->
  let z := crt p q iq zp zq in (z < n)%N /\ cong (Z.of_N p) (Z.of_N z) (Z.of_N zp) /\ cong (Z.of_N q) (Z.of_N z) (Z.of_N zq).
Proof.
  intros zp zq Hp Hq z. pose proof pgt as Gp. pose proof qgt as Gq. subst z. unfold crt. cbv zeta.
  set (h := ((Z.of_N zp - Z.of_N zq) * Z.of_N iq mod Z.of_N p)%Z).
  assert (Bh : (0 <= h < Z.of_N p)%Z) by (apply Z.mod_pos_bound; lia).
  assert (EZ : Z.of_N (zq + q * Z.to_N h) = (Z.of_N zq + Z.of_N q * h)%Z) by (rewrite N2Z.inj_add, N2Z.inj_mul, Z2N.id by lia; reflexivity). split.
  { apply N2Z.inj_lt. rewrite EZ, En, N2Z.inj_mul. assert (Z.of_N q * h <= Z.of_N q * (Z.of_N p - 1))%Z by (apply Z.mul_le_mono_nonneg_l; lia). lia. }
  rewrite EZ. split.
  - assert (C1 : cong (Z.of_N p) (Z.of_N q * h) (Z.of_N zp - Z.of_N zq)).
    { eapply cong_trans; [apply cong_mul; [apply cong_refl|apply cong_mod; lia]|].
      replace (Z.of_N q * ((Z.of_N zp - Z.of_N zq) * Z.of_N iq))%Z with ((Z.of_N zp - Z.of_N zq) * (Z.of_N iq * Z.of_N q))%Z by ring.
      replace (Z.of_N zp - Z.of_N zq)%Z with ((Z.of_N zp - Z.of_N zq) * 1)%Z at 2 by ring. apply cong_mul; [apply cong_refl|].
      apply cong_sym. eapply cong_trans; [|apply cong_mod; lia]. replace (Z.of_N iq * Z.of_N q)%Z with (Z.of_N (iq * q)) by lia. rewrite <- N2Z.inj_mod, Iq. apply cong_refl. }
    destruct C1 as [k E1]. exists k. lia.
  - exists h. lia.
Qed.
(** the two candidate residues modulo one prime *)
Definition x1 (s w y : N) : N := pow_mod (y mod s) (sqrtExp s w) s.
Definition x2 (s w y : N) : N := ((s - x1 s w y) mod s)%N.
Lemma roots_ok : forall s x wf y, prime (Z.of_N s) -> (s mod 4 = 3)%N -> (0 <= wf)%Z ->
  cong (Z.of_N s) (Z.of_N y) (Z.of_N x ^ (2 ^ (wf + 1))) ->
  let w := Z.to_N (wf + 1) in
  (x1 s w y < s)%N /\ (x2 s w y < s)%N /\
  (cong (Z.of_N s) (Z.of_N (x1 s w y)) (Z.of_N x) \/ cong (Z.of_N s) (Z.of_N (x1 s w y)) (- Z.of_N x)) /\
  cong (Z.of_N s) (Z.of_N (x2 s w y)) (- Z.of_N (x1 s w y)).
Proof.
  intros s x wf y Ps S4 Hw Cy w. pose proof (prime_ge_2 _ Ps) as G.
  assert (S0 : s <> 0%N) by lia. assert (S3 : (3 <= s)%N) by (destruct (N.eq_dec s 2) as [->|]; [discriminate S4|lia]).
  assert (Z4 : (Z.of_N s mod 4 = 3)%Z) by (change 4%Z with (Z.of_N 4); rewrite <- N2Z.inj_mod, S4; reflexivity).
  assert (L1 : (x1 s w y < s)%N) by (unfold x1; rewrite pow_mod_ok by exact S0; now apply N.mod_lt).
  assert (L2 : (x2 s w y < s)%N) by (unfold x2; now apply N.mod_lt).
  split; [exact L1|]. split; [exact L2|]. split.
  - assert (Ex : Z.of_N (sqrtExp s w) = ((root_e (Z.of_N s) ^ (wf + 1)) mod (Z.of_N s - 1))%Z).
    { unfold sqrtExp. rewrite pow_mod_ok by lia. rewrite ofN_pow_mod. unfold w, root_e. rewrite N.shiftr_div_pow2. change (2 ^ 2)%N with 4%N.
      rewrite N2Z.inj_div, N2Z.inj_add, N2Z.inj_sub by lia. rewrite Z2N.id by lia. reflexivity. }
    pose proof (root_exp_pos (Z.of_N s) Ps Z4 (wf + 1) ltac:(lia)) as Epos. pose proof (root_e_pos (Z.of_N s) Ps Z4) as Rp.
    assert (C : cong (Z.of_N s) (Z.of_N (x1 s w y)) ((Z.of_N x ^ (2 ^ (wf + 1))) ^ (root_e (Z.of_N s) ^ (wf + 1)))).
    { unfold x1. rewrite pow_mod_ok by exact S0. rewrite ofN_pow_mod, Ex.
      eapply cong_trans; [apply cong_mod; lia|]. eapply cong_trans; [apply cong_pow_exp; [exact Ps|apply Z.pow_nonneg; lia|exact Epos]|].
      apply cong_pow_base; [apply Z.pow_nonneg; lia|]. rewrite N2Z.inj_mod. eapply cong_trans; [apply cong_mod; lia|exact Cy]. }
    destruct (root_pm (Z.of_N s) Ps Z4 wf (Z.of_N x) Hw) as [R|R]; [left|right]; eapply cong_trans; eauto.
  - unfold x2. rewrite N2Z.inj_mod. eapply cong_trans; [apply cong_mod; lia|]. exists 1%Z. lia.
Qed.
Lemma cong_opp : forall s a b, cong s a b -> cong s (- a) (- b).
Proof. intros s a b [k E]. exists (- k)%Z. lia. Qed.
Definition cands (w y : N) : list N :=
  [crt p q iq (x1 p w y) (x1 q w y); crt p q iq (x1 p w y) (x2 q w y); crt p q iq (x2 p w y) (x1 q w y); crt p q iq (x2 p w y) (x2 q w y)].
(** the hashed number is among the candidates, and every candidate has the same 2^(w+1)-th power *)
Lemma cands_ok : forall x wf y, (0 <= wf)%Z -> (x < n)%N -> y = (x ^ (2 ^ Z.to_N (wf + 1)) mod n)%N ->
  In x (cands (Z.to_N (wf + 1)) y) /\
  forall v, In v (cands (Z.to_N (wf + 1)) y) -> (v < n)%N /\ (v ^ (2 ^ Z.to_N (wf + 1)) mod n)%N = y.
Proof.
  intros x wf y Hw Hx Ey. pose proof pgt as Gp. pose proof qgt as Gq. assert (N0 : n <> 0%N) by nia.
  assert (Cy : forall s t, (0 < s)%N -> n = (s * t)%N -> cong (Z.of_N s) (Z.of_N y) (Z.of_N x ^ (2 ^ (wf + 1)))).
  { intros s t Hs E. rewrite Ey, ofN_pow_mod, N2Z.inj_pow, Z2N.id by lia. change (Z.of_N 2) with 2%Z.
    destruct (cong_mod (Z.of_N n) (Z.of_N x ^ 2 ^ (wf + 1)) ltac:(lia)) as [k K]. exists (k * Z.of_N t)%Z. rewrite K, E, N2Z.inj_mul. ring. }
  pose proof (Cy p q ltac:(lia) En) as Cp. pose proof (Cy q p ltac:(lia) ltac:(lia)) as Cq. clear Cy.
  destruct (roots_ok p x wf y Pp P4 Hw Cp) as (Lp1 & Lp2 & Rp & Op). destruct (roots_ok q x wf y Pq Q4 Hw Cq) as (Lq1 & Lq2 & Rq & Oq). cbv zeta in *. set (w := Z.to_N (wf + 1)) in *.
  (* every residue candidate is x or -x *)
  assert (Pm : forall s a, (a = x1 s w y \/ a = x2 s w y) -> 
     (cong (Z.of_N s) (Z.of_N (x1 s w y)) (Z.of_N x) \/ cong (Z.of_N s) (Z.of_N (x1 s w y)) (- Z.of_N x)) ->
     cong (Z.of_N s) (Z.of_N (x2 s w y)) (- Z.of_N (x1 s w y)) -> cong (Z.of_N s) (Z.of_N a) (Z.of_N x) \/ cong (Z.of_N s) (Z.of_N a) (- Z.of_N x)).
  { intros s a [-> | ->] R O; [exact R|]. destruct R as [R|R]; apply cong_opp in R.
    - right. eapply cong_trans; eauto. - left. rewrite Z.opp_involutive in R. eapply cong_trans; eauto. }
  assert (Hit : forall a b, (a = x1 p w y \/ a = x2 p w y) -> (b = x1 q w y \/ b = x2 q w y) -> In (crt p q iq a b) (cands w y)).
  { intros a b [-> | ->] [-> | ->]; unfold cands; cbn [In]; auto. }
  assert (Inv : forall v, In v (cands w y) -> exists a b, (a = x1 p w y \/ a = x2 p w y) /\ (b = x1 q w y \/ b = x2 q w y) /\ v = crt p q iq a b).
  { intros v [<-|[<-|[<-|[<-|[]]]]]; eauto 8. }
  assert (Lt : forall a b, (a = x1 p w y \/ a = x2 p w y) -> (b = x1 q w y \/ b = x2 q w y) -> (a < p)%N /\ (b < q)%N) by (intros a b [-> | ->] [-> | ->]; auto).
  assert (Good : forall s R, (cong (Z.of_N s) (Z.of_N (x1 s w y)) (Z.of_N x) \/ cong (Z.of_N s) (Z.of_N (x1 s w y)) (- Z.of_N x)) ->
     cong (Z.of_N s) (Z.of_N (x2 s w y)) (- Z.of_N (x1 s w y)) -> R = tt -> exists a, (a = x1 s w y \/ a = x2 s w y) /\ cong (Z.of_N s) (Z.of_N a) (Z.of_N x)).
  { intros s _ [R|R] O _; [exists (x1 s w y); auto|]. exists (x2 s w y). split; [auto|]. apply cong_opp in R. rewrite Z.opp_involutive in R. eapply cong_trans; eauto. }
  split.
  - destruct (Good p tt Rp Op eq_refl) as (a & Ha & Ca). destruct (Good q tt Rq Oq eq_refl) as (b & Hb & Cb).
    destruct (Lt a b Ha Hb) as [La Lb]. destruct (crt_ok a b La Lb) as (Bz & Zp & Zq).
    assert (Ez : x = crt p q iq a b).
    { apply N2Z.inj. apply (crt_unique (Z.of_N p) (Z.of_N q)); [exact Pp|exact Pq|intros K; apply Pne; lia|rewrite <- N2Z.inj_mul, <- En; lia|rewrite <- N2Z.inj_mul, <- En; lia| |].
      - apply cong_sym. eapply cong_trans; [exact Zp|exact Ca]. - apply cong_sym. eapply cong_trans; [exact Zq|exact Cb]. }
    rewrite Ez at 1. now apply Hit.
  - intros v Hv. destruct (Inv v Hv) as (a & b & Ha & Hb & ->). destruct (Lt a b Ha Hb) as [La Lb]. destruct (crt_ok a b La Lb) as (Bz & Zp & Zq). split; [exact Bz|].
    set (v := crt p q iq a b) in *. clearbody v.
    assert (Sq : forall s c, (cong s c (Z.of_N x) \/ cong s c (- Z.of_N x)) -> cong s (c ^ (2 ^ (wf + 1))) (Z.of_N x ^ (2 ^ (wf + 1)))).
    { intros s c K. replace (wf + 1)%Z with (1 + wf)%Z by lia. rewrite Z.pow_add_r by lia. rewrite !(Z.pow_mul_r _ (2 ^ 1)) by (try apply Z.pow_nonneg; lia). apply cong_pow_base; [apply Z.pow_nonneg; lia|].
      change (2 ^ 1)%Z with 2%Z. rewrite !Z.pow_2_r. destruct K as [K|K]; [now apply cong_mul|]. replace (Z.of_N x * Z.of_N x)%Z with (- Z.of_N x * - Z.of_N x)%Z by ring. now apply cong_mul. }
    rewrite Ey. apply N2Z.inj. rewrite !ofN_pow_mod. apply cong_eq; [lia|]. rewrite N2Z.inj_pow. unfold w. rewrite Z2N.id by lia. change (Z.of_N 2) with 2%Z.
    assert (Kp : cong (Z.of_N p) (Z.of_N v ^ (2 ^ (wf + 1))) (Z.of_N x ^ (2 ^ (wf + 1)))).
    { apply Sq. destruct (Pm p a Ha Rp Op) as [K|K]; [left|right]; eapply cong_trans; eauto. }
    assert (Kq : cong (Z.of_N q) (Z.of_N v ^ (2 ^ (wf + 1))) (Z.of_N x ^ (2 ^ (wf + 1)))).
    { apply Sq. destruct (Pm q b Hb Rq Oq) as [K|K]; [left|right]; eapply cong_trans; eauto. }
    unfold cong in *. rewrite En, N2Z.inj_mul. destruct Kp as [k Ek]. rewrite Ek in *. rewrite Z.mul_comm in Kq. apply Gauss in Kq.
    + destruct Kq as [l El]. exists l. rewrite El. ring.
    + apply prime_rel_prime; [exact Pq|]. intros D. apply prime_div_prime in D; [apply Pne; lia|exact Pq|exact Pp].
Qed.
End Blum.
(** ** The key derivation function *)
Section Kdf.
Variable H : list N -> list N.
Variable bs r : nat.
Hypothesis Hr : 0 < r.
Hypothesis HL : forall m, length (H m) = r.
Hypothesis HB : forall m, isbytes (H m).
Lemma mac_len : forall k v, length (mac H bs k v) = r. Proof. intros. unfold mac. apply HL. Qed.
Lemma kdf_loop_len : forall fuel k v t n, n <= length t + fuel -> n <= length (kdf_loop H bs fuel k v t n).
Proof.
  induction fuel as [|fuel IH]; intros k v t n Hn; cbn [kdf_loop]; [lia|]. destruct (Nat.ltb_spec (length t) n) as [L|L]; [|exact L].
  cbv zeta. apply IH. rewrite app_length, mac_len. lia.
Qed.
Lemma kdf_loop_bytes : forall fuel k v t n, isbytes t -> isbytes (kdf_loop H bs fuel k v t n).
Proof.
  induction fuel as [|fuel IH]; intros k v t n Ht; cbn [kdf_loop]; [exact Ht|]. destruct (length t <? n); [|exact Ht].
  cbv zeta. apply IH. apply Forall_app. split; [exact Ht|apply HB].
Qed.
Lemma kdf_len : forall d n, length (kdf H bs r d n) = n.
Proof. intros. unfold kdf. cbv zeta. rewrite firstn_length. apply Nat.min_l. apply kdf_loop_len. cbn [length]. lia. Qed.
Lemma kdf_bytes : forall d n, isbytes (kdf H bs r d n).
Proof. intros. unfold kdf. cbv zeta. apply Forall_firstn'. apply kdf_loop_bytes. constructor. Qed.

(** ** Hash *)
(** the integer that is squared *)
Definition mk_input (n : N) (password salt : list N) : list N :=
  let k := N.to_nat (N.size n) / 8 in
  let u := length password in
  [0%N] ++ kdf H bs r (salt ++ password ++ [N.of_nat u]) (k - 2 - u) ++ password ++ [N.of_nat u].
Definition fits (n : N) (password : list N) : Prop :=
  160 <= N.to_nat (N.size n) / 8 /\ length password <= 255 /\ length password <= N.to_nat (N.size n) / 8 - 32.
Lemma mk_input_len : forall n pw salt, fits n pw -> length (mk_input n pw salt) = N.to_nat (N.size n) / 8.
Proof. intros n pw salt (F1 & F2 & F3). unfold mk_input. cbv zeta. rewrite !app_length, kdf_len. cbn [length]. lia. Qed.
Lemma mk_input_bytes : forall n pw salt, fits n pw -> isbytes pw -> isbytes (mk_input n pw salt).
Proof.
  intros n pw salt (F1 & F2 & F3) Hp. unfold mk_input. cbv zeta. repeat (apply Forall_app; split); [repeat constructor|apply kdf_bytes|exact Hp|repeat constructor]. unfold isbyte. lia.
Qed.
Lemma mk_input_lt : forall n pw salt, fits n pw -> isbytes pw -> (be_val (mk_input n pw salt) < n)%N.
Proof.
  intros n pw salt F Hp. destruct (n_ge n (proj1 F)) as [_ G]. eapply N.lt_le_trans; [|exact G].
  pose proof (mk_input_len n pw salt F) as L. pose proof (mk_input_bytes n pw salt F Hp) as B. unfold mk_input in *. cbv zeta in *.
  set (tl := kdf _ _ _ _ _ ++ _) in *. change (be_val ([0%N] ++ tl)) with (be_val (zeros 1 ++ tl)). rewrite be_val_zeros_app.
  cbn [app] in B. apply Forall_inv_tail in B. pose proof (be_val_lt tl B) as V. cbn [app length] in L. rewrite <- L. now replace (S (length tl) - 1) with (length tl) by lia.
Qed.
Lemma n_lt_bytes : forall n, (n < 256 ^ N.of_nat (byte_len n))%N. Proof. exact byte_len_lt. Qed.
Definition prehashed (pre : bool) (pw : list N) : list N := if pre then kdf H bs r pw 64 else pw.
Lemma fits_dec : forall n pw, fits n pw <-> (N.to_nat (N.size n) / 8 <? 160) = false /\ (255 <? length pw) || (N.to_nat (N.size n) / 8 - 32 <? length pw) = false.
Proof.
  intros n pw. unfold fits. rewrite orb_false_iff, !Nat.ltb_ge. tauto.
Qed.
(** What Hash returns, for a work factor that is not negative. *)
Lemma mk_hash_ok : forall n pw salt wf pre post, isbytes pw -> (0 <= wf)%Z ->
  forall d, mk_hash H bs r n pw salt wf pre post = Some d <->
  (wfMant (u32_of_int wf) <> None /\ fits n (prehashed pre pw) /\
   let x := (be_val (mk_input n (prehashed pre pw) salt) ^ (2 ^ Z.to_N (wf + 1)) mod n)%N in
   let out := be_bytes (byte_len n) x in
   d = mkdigest (ModulusID H bs r n) (if (0 <? post)%Z then kdf H bs r out (Z.to_nat post) else out) salt wf pre post).
Proof.
  intros n pw salt wf pre post Hp Hw d. unfold mk_hash. destruct (wfMant (u32_of_int wf)) as [c|]; [|split; [discriminate|intros (K & _); now contradict K]].
  cbv zeta. fold (prehashed pre pw). set (pw' := prehashed pre pw). assert (Hp' : isbytes pw') by (unfold pw', prehashed; destruct pre; [apply kdf_bytes|exact Hp]). clearbody pw'.
  pose proof (fits_dec n pw') as FD. destruct (N.to_nat (N.size n) / 8 <? 160); [split; [discriminate|intros (_ & K & _); apply FD in K; destruct K; discriminate]|].
  destruct ((255 <? length pw') || (N.to_nat (N.size n) / 8 - 32 <? length pw')); [split; [discriminate|intros (_ & K & _); apply FD in K; destruct K; discriminate]|].
  assert (F : fits n pw') by now apply FD. clear FD. destruct (n_ge n (proj1 F)) as [N0 _].
  change ([0%N] ++ kdf H bs r (salt ++ pw' ++ [N.of_nat (length pw')]) (N.to_nat (N.size n) / 8 - 2 - length pw') ++ pw' ++ [N.of_nat (length pw')]) with (mk_input n pw' salt).
  set (x0 := be_val (mk_input n pw' salt)).
  assert (E : squarings (Z.to_nat (wf + 1)) n x0 = (x0 ^ (2 ^ Z.to_N (wf + 1)) mod n)%N).
  { replace (Z.to_nat (wf + 1)) with (S (Z.to_nat wf)) by lia. rewrite squarings_ok by exact N0. do 3 f_equal. lia. }
  rewrite E. rewrite mk_pad_ok by (eapply N.lt_trans; [now apply N.mod_lt|apply byte_len_lt]).
  split.
  - intros K. injection K as <-. split; [discriminate|]. split; [exact F|reflexivity].
  - intros (_ & _ & ->). reflexivity.
Qed.

End Kdf.
