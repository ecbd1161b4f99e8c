(** Threefish.v -- model of /repo/skein/threefish (threefish.go, threefish{256,512,1024}_ref.go; the conversion functions of
    threefish_ref.go, whose amd64 twins read the same little-endian words through unsafe pointers) and proofs. *)
From Coq Require Import List NArith Arith Lia Bool.
From Verif Require Import Base Words HashAPI Buf Refine Refine SpecCmac SpecSkein ThreefishTab.
Import ListNotations.

(** the tables generated from the three files *)
Definition enc_a v := match v with V256 => tf256_enc_a | V512 => tf512_enc_a | V1024 => tf1024_enc_a end.
Definition enc_b v := match v with V256 => tf256_enc_b | V512 => tf512_enc_b | V1024 => tf1024_enc_b end.
Definition enc_fin v := match v with V256 => tf256_enc_fin | V512 => tf512_enc_fin | V1024 => tf1024_enc_fin end.
Definition dec_a v := match v with V256 => tf256_dec_a | V512 => tf512_dec_a | V1024 => tf1024_dec_a end.
Definition dec_b v := match v with V256 => tf256_dec_b | V512 => tf512_dec_b | V1024 => tf1024_dec_b end.
Definition dec_fin v := match v with V256 => tf256_dec_fin | V512 => tf512_dec_fin | V1024 => tf1024_dec_fin end.
(** b_i += b_j; b_j = (b_j << r | b_j >> (64-r)) ^ b_i  (threefish512_ref.go:62-63 etc.) *)
Definition go_mix (b : list N) (m : nat * nat * N) : list N :=
  let '(i, j, r) := m in
  let b := upd b i (add64 (at_ b i) (at_ b j)) in
  upd b j (N.lxor (rotl64 (at_ b j) r) (at_ b i)).
(** tmp = b_j ^ b_i; b_j = tmp >> r | tmp << (64-r); b_i -= b_j  (threefish512_ref.go:176-178 etc.) *)
Definition go_unmix (b : list N) (m : nat * nat * N) : list N :=
  let '(i, j, r) := m in
  let tmp := N.lxor (at_ b j) (at_ b i) in
  let b := upd b j (rotr64 tmp r) in
  upd b i (sub64 (at_ b i) (at_ b j)).
(** b_i += (or -=) keys[(r+i)%(n+1)], plus tweak[r%3], tweak[(r+1)%3], uint64(r) for the last three words
    (threefish512_ref.go:52-59, 166-173 etc.) *)
Definition inj_term (v : variant) (keys tw : list N) (r i : nat) : N :=
  let k := at_ keys ((r + i) mod (nw v + 1)) in
  if i =? nw v - 3 then add64 k (at_ tw (r mod 3))
  else if i =? nw v - 2 then add64 k (at_ tw ((r + 1) mod 3))
  else if i =? nw v - 1 then add64 k (N.of_nat r)
  else k.
Definition tf_inj (op : N -> N -> N) (v : variant) (keys tw : list N) (r : nat) (b : list N) : list N :=
  map (fun i => op (at_ b i) (inj_term v keys tw r i)) (seq 0 (nw v)).
(** the injections written out after the loops *)
Definition fin_term (keys tw : list N) (e : nat * extra) : N :=
  match snd e with
  | X0 => at_ keys (fst e)
  | Xt t => add64 (at_ keys (fst e)) (at_ tw t)
  | Xc c => add64 (at_ keys (fst e)) c
  end.
Definition tf_fin (op : N -> N -> N) (tab : list (nat * extra)) (keys tw : list N) (b : list N) : list N :=
  map (fun i => op (at_ b i) (fin_term keys tw (nth i tab (0, X0)))) (seq 0 (length tab)).
(** number of executions of the loop body: r = 0, 2, ..., 16 (18 for Threefish-1024) *)
Definition iters v := match v with V256 | V512 => 9 | V1024 => 10 end.
(** threefish{256,512,1024}_ref.go Encrypt256/512/1024 *)
Definition Encrypt (v : variant) (block keys tw : list N) : list N :=
  let b := fold_left (fun b k =>
      let r := 2 * k in
      let b := fold_left go_mix (enc_a v) (tf_inj add64 v keys tw r b) in
      let r := r + 1 in
      fold_left go_mix (enc_b v) (tf_inj add64 v keys tw r b)) (seq 0 (iters v)) block in
  tf_fin add64 (enc_fin v) keys tw b.
(** threefish{256,512,1024}_ref.go Decrypt256/512/1024: r = 18 (20), 16, ..., 2 *)
Definition Decrypt (v : variant) (block keys tw : list N) : list N :=
  let b := fold_left (fun b k =>
      let r := 2 * iters v - 2 * k in
      let b := fold_left go_unmix (dec_a v) (tf_inj sub64 v keys tw r b) in
      let r := r - 1 in
      fold_left go_unmix (dec_b v) (tf_inj sub64 v keys tw r b)) (seq 0 (iters v)) block in
  tf_fin sub64 (dec_fin v) keys tw b.
(** threefish_ref.go:5-69 bytesToBlock*, block*ToBytes *)
Definition bytesToBlock (v : variant) (src : list N) : list N :=
  map (fun i => le_val (slice src (8 * i) (8 * i + 8))) (seq 0 (nw v)).
Definition blockToBytes (b : list N) : list N := flat_map (le_bytes 8) b.
(** threefish.go:42-53 NewCipher and newCipher256/512/1024: the expanded key and tweak (here for a given variant). *)
Definition xor_keys (k : list N) : N := fold_left N.lxor k C240.
Definition newCipher (v : variant) (tweak key : list N) : list N * list N :=
  let t0 := le_val (slice tweak 0 8) in
  let t1 := le_val (slice tweak 8 16) in
  let k := bytesToBlock v key in
  (k ++ [xor_keys k], [t0; t1; N.lxor t0 t1]).
Definition NewCipher (tweak key : list N) : option (variant * (list N * list N)) :=
  if length key =? 32 then Some (V256, newCipher V256 tweak key)
  else if length key =? 64 then Some (V512, newCipher V512 tweak key)
  else if length key =? 128 then Some (V1024, newCipher V1024 tweak key)
  else None.
(** the Encrypt and Decrypt methods: bytes stored in dst *)
Definition tf_Encrypt (c : variant * (list N * list N)) (src : list N) : list N :=
  let '(v, (keys, tw)) := c in blockToBytes (Encrypt v (bytesToBlock v src) keys tw).
Definition tf_Decrypt (c : variant * (list N * list N)) (src : list N) : list N :=
  let '(v, (keys, tw)) := c in blockToBytes (Decrypt v (bytesToBlock v src) keys tw).
(** threefish.go:57-64 IncrementTweak, on tweak[0], tweak[1] *)
Definition IncrementTweak (tw : N * N) (ctr : N) : N * N :=
  let '(t0, t1) := tw in
  let t0' := add64 t0 ctr in
  if (t0' <? t0)%N then (t0', N.land (add64 t1 1) 0xFFFFFFFF) else (t0', t1).
(** threefish*_ref.go UBI256/512/1024: new values of block and hVal (without the extra word) *)
Definition UBI (v : variant) (block hVal : list N) (tw : N * N) : list N * list N :=
  let keys := hVal ++ [xor_keys hVal] in
  let tweak := [fst tw; snd tw; N.lxor (fst tw) (snd tw)] in
  let e := Encrypt v block keys tweak in
  (e, xorblk e block).

(** * Proofs *)
Lemma nw_pos : forall v, 4 <= nw v <= 16. Proof. destruct v; cbn; lia. Qed.
Tactic Notation "destr_list" hyp(b) hyp(L) integer(n) := do n (destruct b as [|? b]; [discriminate L|]); destruct b; [|discriminate L].
Lemma half_a : forall v b, length b = nw v ->
  fold_left go_mix (enc_a v) b =
  tf_permute v (tf_mixes v 3 (tf_permute v (tf_mixes v 2 (tf_permute v (tf_mixes v 1 (tf_permute v (tf_mixes v 0 b))))))).
Proof.
  intros [] b L; cbn in L.
  - destr_list b L 4. lazy -[add64 rotl64 N.lxor]. reflexivity.
  - destr_list b L 8. lazy -[add64 rotl64 N.lxor]. reflexivity.
  - destr_list b L 16. lazy -[add64 rotl64 N.lxor]. reflexivity.
Qed.
Lemma half_b : forall v b, length b = nw v ->
  fold_left go_mix (enc_b v) b =
  tf_permute v (tf_mixes v 7 (tf_permute v (tf_mixes v 6 (tf_permute v (tf_mixes v 5 (tf_permute v (tf_mixes v 4 b))))))).
Proof.
  intros [] b L; cbn in L.
  - destr_list b L 4. lazy -[add64 rotl64 N.lxor]. reflexivity.
  - destr_list b L 8. lazy -[add64 rotl64 N.lxor]. reflexivity.
  - destr_list b L 16. lazy -[add64 rotl64 N.lxor]. reflexivity.
Qed.
Lemma inj_ok : forall v k t s x, tf_inj add64 v (tf_k k) (tf_t t) s x = tf_addkey v k t s x.
Proof. reflexivity. Qed.
Lemma tf_inj_len : forall op v k t s x, length (tf_inj op v k t s x) = nw v.
Proof. intros. unfold tf_inj. now rewrite map_length, seq_length. Qed.
Lemma go_mix_len : forall l b, length (fold_left go_mix l b) = length b.
Proof. induction l as [|[[i j] r] l IH]; intros b; [reflexivity|]. cbn [fold_left]. rewrite IH. unfold go_mix. now rewrite !upd_length. Qed.
Lemma permute_len : forall v x, length (tf_permute v x) = nw v.
Proof. intros. unfold tf_permute. rewrite map_length. now destruct v. Qed.
Lemma mixes_mod : forall v d q x, d mod 8 = q mod 8 -> tf_mixes v d x = tf_mixes v q x.
Proof. intros v d q x E. unfold tf_mixes. now rewrite E. Qed.
Lemma fold_seq_groups : forall A (f : A -> nat -> A) g n x,
  fold_left f (seq 0 (g * n)) x = fold_left (fun x k => fold_left f (seq (g * k) g) x) (seq 0 n) x.
Proof.
  intros A f g n x. induction n as [|n IH]; [now rewrite Nat.mul_0_r|].
  replace (g * S n) with (g * n + g) by lia. rewrite seq_app, fold_left_app, IH. rewrite Nat.add_0_l.
  rewrite <- Nat.add_1_r, seq_app, fold_left_app. reflexivity.
Qed.
Lemma eight_rounds : forall v k t m x,
  fold_left (tf_round v k t) (seq (8 * m) 8) x =
  fold_left go_mix (enc_b v) (tf_addkey v k t (2 * m + 1) (fold_left go_mix (enc_a v) (tf_addkey v k t (2 * m) x))).
Proof.
  intros v k t m x. cbn [seq fold_left].
  assert (R : forall q d x, d = 8 * m + q -> q < 8 -> tf_round v k t x d = tf_permute v (tf_mixes v q (if q mod 4 =? 0 then tf_addkey v k t (2 * m + q / 4) x else x))).
  { intros q d y -> Hq. unfold tf_round. rewrite (mixes_mod v (8 * m + q) q).
    2:{ rewrite Nat.add_comm, Nat.mul_comm, Nat.mod_add by lia. reflexivity. }
    replace (8 * m + q) with (q + (2 * m) * 4) by lia. rewrite Nat.mod_add, Nat.div_add by lia. now rewrite (Nat.add_comm (q / 4)). }
  rewrite (R 0 (8 * m)) by lia. rewrite (R 1 (S (8 * m))) by lia. rewrite (R 2 (S (S (8 * m)))) by lia.
  rewrite (R 3 (S (S (S (8 * m))))) by lia. rewrite (R 4 (S (S (S (S (8 * m)))))) by lia. rewrite (R 5 (S (S (S (S (S (8 * m))))))) by lia.
  rewrite (R 6 (S (S (S (S (S (S (8 * m)))))))) by lia. rewrite (R 7 (S (S (S (S (S (S (S (8 * m))))))))) by lia.
  change (0 mod 4) with 0. change (1 mod 4) with 1. change (2 mod 4) with 2. change (3 mod 4) with 3. change (4 mod 4) with 0. change (5 mod 4) with 1.
  change (6 mod 4) with 2. change (7 mod 4) with 3. change (0 / 4) with 0. change (4 / 4) with 1. cbn [Nat.eqb]. rewrite Nat.add_0_r.
  rewrite half_b by (unfold tf_addkey; now rewrite map_length, seq_length).
  rewrite half_a by (unfold tf_addkey; now rewrite map_length, seq_length). reflexivity.
Qed.
Lemma fin_ok : forall v k t x, length k = nw v -> tf_fin add64 (enc_fin v) (tf_k k) (tf_t t) x = tf_addkey v k t (nr v / 4) x.
Proof. intros [] k t x L; reflexivity. Qed.
Theorem Encrypt_ok : forall v k t p, length k = nw v -> Encrypt v p (tf_k k) (tf_t t) = threefish v k t p.
Proof.
  intros v k t p L. unfold Encrypt, threefish. rewrite fin_ok by auto. f_equal.
  replace (nr v) with (8 * iters v) by (destruct v; reflexivity). rewrite fold_seq_groups.
  apply fold_left_ext_in. intros x m _. rewrite eight_rounds. cbv zeta. now rewrite !inj_ok.
Qed.

(** inverse *)
Lemma sub_add64 : forall a b, is64 a -> is64 b -> sub64 (add64 a b) b = a.
Proof.
  intros a b Ha Hb. unfold sub64, add64, is64 in *. change (2 ^ 64)%N with 18446744073709551616%N in *. rewrite !w64_mod.
  destruct (N.lt_ge_cases (a + b) 18446744073709551616) as [L|L].
  - rewrite (N.mod_small (a + b)) by lia. replace (a + b + 18446744073709551616 - b)%N with (a + 1 * 18446744073709551616)%N by lia.
    rewrite N.mod_add by discriminate. now apply N.mod_small.
  - replace (a + b)%N with (a + b - 18446744073709551616 + 1 * 18446744073709551616)%N by lia. rewrite N.mod_add by discriminate.
    rewrite (N.mod_small (a + b - _)) by lia. replace (_ - b)%N with a by lia. now apply N.mod_small.
Qed.
Lemma add_sub64 : forall a b, is64 a -> is64 b -> add64 (sub64 a b) b = a.
Proof.
  intros a b Ha Hb. unfold sub64, add64, is64 in *. change (2 ^ 64)%N with 18446744073709551616%N in *. rewrite !w64_mod.
  rewrite N.add_mod_idemp_l by discriminate.
  replace (a + 18446744073709551616 - b + b)%N with (a + 1 * 18446744073709551616)%N by lia. rewrite N.mod_add by discriminate. apply N.mod_small. lia.
Qed.
Lemma rotl64_bit : forall x n i, is64 x -> (0 < n < 64)%N ->
  N.testbit (rotl64 x n) i = ((i <? 64) && N.testbit x (if n <=? i then i - n else i + 64 - n))%N%bool.
Proof.
  intros x n i Hx Hn. unfold rotl64. rewrite N.lor_spec. unfold w64. change 18446744073709551615%N with (N.ones 64).
  rewrite N.land_spec. assert (HB : forall j, (64 <= j)%N -> N.testbit x j = false) by (now apply (proj1 (lt_pow2_bits 64 x))).
  rewrite N.shiftr_spec'. destruct (N.ltb_spec i 64) as [L|L].
  - rewrite N.ones_spec_low by auto. rewrite Bool.andb_true_r. destruct (N.leb_spec n i) as [L2|L2].
    + rewrite N.shiftl_spec_high' by auto. rewrite (HB (i + (64 - n))%N) by lia. now rewrite Bool.orb_false_r.
    + rewrite N.shiftl_spec_low by auto. cbn [orb andb]. f_equal. lia.
  - rewrite N.ones_spec_high by auto. rewrite Bool.andb_false_r. cbn [orb andb]. apply HB. lia.
Qed.
Lemma rotr_rotl : forall x n, is64 x -> (0 < n < 64)%N -> rotr64 (rotl64 x n) n = x.
Proof.
  intros x n Hx Hn. unfold rotr64. apply N.bits_inj. intros i. rewrite rotl64_bit; [|now apply rotl64_is64|lia].
  assert (HB : forall j, (64 <= j)%N -> N.testbit x j = false) by (now apply (proj1 (lt_pow2_bits 64 x))).
  destruct (N.ltb_spec i 64) as [L|L]; cbn [andb]; [|symmetry; now apply HB].
  rewrite rotl64_bit by auto. destruct (N.leb_spec (64 - n) i) as [A|A].
  - destruct (N.ltb_spec (i - (64 - n)) 64); [|lia]. destruct (N.leb_spec n (i - (64 - n))); [lia|]. cbn [andb]. f_equal. lia.
  - destruct (N.ltb_spec (i + 64 - (64 - n)) 64); [|lia]. destruct (N.leb_spec n (i + 64 - (64 - n))); [|lia]. cbn [andb]. f_equal. lia.
Qed.
Lemma rotl_rotr : forall x n, is64 x -> (0 < n < 64)%N -> rotl64 (rotr64 x n) n = x.
Proof.
  intros x n Hx Hn. unfold rotr64. replace n with (64 - (64 - n))%N at 2 by lia. apply rotr_rotl; auto. lia.
Qed.
Definition wf64 (n : nat) (b : list N) : Prop := length b = n /\ Forall is64 b.
Lemma wf64_at : forall n b i, wf64 n b -> is64 (at_ b i).
Proof.
  intros n b i [L F]. unfold at_. destruct (Nat.lt_ge_cases i (length b)).
  - rewrite Forall_forall in F. apply F, nth_In; auto.
  - rewrite nth_overflow by auto. reflexivity.
Qed.
Lemma wf64_upd : forall n b i x, wf64 n b -> is64 x -> wf64 n (upd b i x).
Proof.
  intros n b i x [L F] Hx. split; [now rewrite upd_length|]. clear L. revert i. induction F as [|y b Hy F IH]; intros i; [destruct i; constructor|].
  destruct i; cbn [upd]; constructor; auto.
Qed.
Definition mix_ok (n : nat) (m : nat * nat * N) : bool :=
  let '(i, j, r) := m in (i <? n) && (j <? n) && negb (i =? j) && (0 <? r)%N && (r <? 64)%N.
Lemma mix_okD : forall n i j r, mix_ok n (i, j, r) = true -> i < n /\ j < n /\ i <> j /\ (0 < r < 64)%N.
Proof.
  intros n i j r H. unfold mix_ok in H. rewrite !Bool.andb_true_iff, Bool.negb_true_iff in H. destruct H as ((((A & B) & C) & D) & E).
  apply Nat.ltb_lt in A, B. apply Nat.eqb_neq in C. apply N.ltb_lt in D, E. auto.
Qed.
Lemma sub64_is64 : forall a b, is64 (sub64 a b). Proof. intros. apply w64_is64. Qed.
Lemma mix_wf : forall n b m, mix_ok n m = true -> wf64 n b -> wf64 n (go_mix b m).
Proof.
  intros n b [[i j] r] H W. apply mix_okD in H. destruct H as (A & B & C & D). unfold go_mix.
  assert (W1 : wf64 n (upd b i (add64 (at_ b i) (at_ b j)))) by (apply wf64_upd; auto; apply add64_is64).
  apply wf64_upd; auto. apply lxor_is64; [apply rotl64_is64|]; now apply (wf64_at n).
Qed.
Lemma unmix_wf : forall n b m, mix_ok n m = true -> wf64 n b -> wf64 n (go_unmix b m).
Proof.
  intros n b [[i j] r] H W. apply mix_okD in H. destruct H as (A & B & C & D). unfold go_unmix.
  apply wf64_upd; [|apply sub64_is64]. apply wf64_upd; auto. apply rotl64_is64, lxor_is64; now apply (wf64_at n).
Qed.
Lemma upd_upd_same : forall A (l : list A) i x y, upd (upd l i x) i y = upd l i y.
Proof. induction l as [|h l IH]; intros [|i] x y; cbn [upd]; [reflexivity..|]. now rewrite IH. Qed.
Lemma upd_comm : forall A (l : list A) i j x y, i <> j -> upd (upd l i x) j y = upd (upd l j y) i x.
Proof. induction l as [|h l IH]; intros [|i] [|j] x y H; cbn [upd]; try reflexivity; [lia|]. rewrite IH by lia. reflexivity. Qed.
Lemma upd_at_same : forall (l : list N) i, upd l i (at_ l i) = l.
Proof. induction l as [|h l IH]; intros [|i]; [reflexivity..|]. unfold at_ in *. cbn [upd nth]. now rewrite IH. Qed.
Lemma at_upd_same : forall (l : list N) i v, i < length l -> at_ (upd l i v) i = v.
Proof. intros. unfold at_. now apply nth_upd_same. Qed.
Lemma at_upd_other : forall (l : list N) i j v, i <> j -> at_ (upd l i v) j = at_ l j.
Proof. intros. unfold at_. now apply nth_upd_other. Qed.
Lemma unmix_mix : forall n b m, mix_ok n m = true -> wf64 n b -> go_unmix (go_mix b m) m = b.
Proof.
  intros n b [[i j] r] H W. apply mix_okD in H. destruct H as (A & B & C & D). pose proof W as [L _].
  pose proof (wf64_at n b i W) as Hi. pose proof (wf64_at n b j W) as Hj.
  unfold go_unmix, go_mix. set (bi := at_ b i) in *. set (bj := at_ b j) in *.
  rewrite (at_upd_other b i j) by auto. fold bj. rewrite (at_upd_same b i) by lia.
  set (s := add64 bi bj). set (x := N.lxor (rotl64 bj r) s).
  rewrite (at_upd_same (upd b i s) j) by (rewrite upd_length; lia). rewrite (at_upd_other (upd b i s) j i) by auto. rewrite (at_upd_same b i) by lia.
  assert (EX : N.lxor x s = rotl64 bj r) by (unfold x; now rewrite N.lxor_assoc, N.lxor_nilpotent, N.lxor_0_r). rewrite EX, rotr_rotl by auto.
  rewrite upd_upd_same. rewrite (at_upd_other (upd b i s) j i) by auto. rewrite (at_upd_same b i) by lia.
  rewrite (at_upd_same (upd b i s) j) by (rewrite upd_length; lia). unfold s. rewrite sub_add64 by auto.
  rewrite (upd_comm _ b i j) by auto. rewrite upd_upd_same. unfold bj. rewrite upd_at_same. apply upd_at_same.
Qed.
Lemma mix_unmix : forall n b m, mix_ok n m = true -> wf64 n b -> go_mix (go_unmix b m) m = b.
Proof.
  intros n b [[i j] r] H W. apply mix_okD in H. destruct H as (A & B & C & D). pose proof W as [L _].
  pose proof (wf64_at n b i W) as Hi. pose proof (wf64_at n b j W) as Hj.
  unfold go_unmix, go_mix. set (bi := at_ b i) in *. set (bj := at_ b j) in *.
  set (x := rotr64 (N.lxor bj bi) r). assert (Hx : is64 x) by (apply rotl64_is64, lxor_is64; auto).
  rewrite (at_upd_other b j i) by auto. fold bi. rewrite (at_upd_same b j) by lia. set (s := sub64 bi x).
  rewrite (at_upd_same (upd b j x) i) by (rewrite upd_length; lia). rewrite (at_upd_other (upd b j x) i j) by auto. rewrite (at_upd_same b j) by lia.
  assert (ES : add64 s x = bi) by (unfold s; now apply add_sub64). rewrite ES. rewrite upd_upd_same.
  rewrite ?(at_upd_other (upd b j x) i j) by auto. rewrite ?(at_upd_same b j) by lia. rewrite ?(at_upd_same (upd b j x) i) by (rewrite upd_length; lia).
  assert (EX : rotl64 x r = N.lxor bj bi) by (unfold x; apply rotl_rotr; auto; apply lxor_is64; auto). rewrite EX. rewrite N.lxor_assoc, N.lxor_nilpotent, N.lxor_0_r.
  rewrite (upd_comm _ b j i) by auto. rewrite upd_upd_same. unfold bi. rewrite upd_at_same. apply upd_at_same.
Qed.

(** both functions as programs over one small instruction set; the second is the first reversed *)
Inductive tfop := OInj (r : nat) | OMix (m : nat * nat * N).
Definition estep v keys tw b o := match o with OInj r => tf_inj add64 v keys tw r b | OMix m => go_mix b m end.
Definition dstep v keys tw b o := match o with OInj r => tf_inj sub64 v keys tw r b | OMix m => go_unmix b m end.
Definition enc_prog v := flat_map (fun k => OInj (2 * k) :: map OMix (enc_a v) ++ OInj (2 * k + 1) :: map OMix (enc_b v)) (seq 0 (iters v))
  ++ [OInj (2 * iters v)].
Definition dec_prog v := flat_map (fun k => OInj (2 * iters v - 2 * k) :: map OMix (dec_a v) ++ OInj (2 * iters v - 2 * k - 1) :: map OMix (dec_b v)) (seq 0 (iters v))
  ++ [OInj 0].
Lemma dec_rev : forall v, dec_prog v = rev (enc_prog v).
Proof. destruct v; vm_compute; reflexivity. Qed.
Definition op_ok v o := match o with OInj _ => true | OMix m => mix_ok (nw v) m end.
Lemma enc_prog_ok : forall v, Forall (fun o => op_ok v o = true) (enc_prog v).
Proof.
  intros v. apply Forall_forall. apply forallb_forall. destruct v; vm_compute; reflexivity.
Qed.
Lemma fold_mix_map : forall v keys tw l b, fold_left (estep v keys tw) (map OMix l) b = fold_left go_mix l b.
Proof. induction l as [|m l IH]; intros b; [reflexivity|]. cbn [map fold_left]. now rewrite IH. Qed.
Lemma fold_unmix_map : forall v keys tw l b, fold_left (dstep v keys tw) (map OMix l) b = fold_left go_unmix l b.
Proof. induction l as [|m l IH]; intros b; [reflexivity|]. cbn [map fold_left]. now rewrite IH. Qed.
Lemma fold_flat_map : forall A B C (f : A -> B -> A) (g : C -> list B) l a,
  fold_left f (flat_map g l) a = fold_left (fun a c => fold_left f (g c) a) l a.
Proof. induction l as [|x l IH]; intros a; [reflexivity|]. cbn [flat_map fold_left]. now rewrite fold_left_app, IH. Qed.
Lemma enc_fin_inj : forall v keys tw b, length keys = nw v + 1 -> tf_fin add64 (enc_fin v) keys tw b = tf_inj add64 v keys tw (2 * iters v) b.
Proof. intros [] keys tw b L; reflexivity. Qed.
Lemma dec_fin_inj : forall v keys tw b, wf64 (nw v + 1) keys -> tf_fin sub64 (dec_fin v) keys tw b = tf_inj sub64 v keys tw 0 b.
Proof.
  intros v keys tw b W. assert (K : forall i, add64 (at_ keys i) 0 = at_ keys i).
  { intros i. unfold add64. rewrite N.add_0_r. apply w64_small. apply (wf64_at (nw v + 1) keys i W). }
  destruct v; unfold tf_fin, tf_inj.
  - change (length (dec_fin V256)) with (nw V256). apply map_ext_in. intros i Hi. apply in_seq in Hi. cbn [nw] in Hi. f_equal.
    do 4 (destruct i as [|i]; [now try (symmetry; apply (K 3))|]). lia.
  - change (length (dec_fin V512)) with (nw V512). apply map_ext_in. intros i Hi. apply in_seq in Hi. cbn [nw] in Hi. f_equal.
    do 8 (destruct i as [|i]; [now try (symmetry; apply (K 7))|]). lia.
  - change (length (dec_fin V1024)) with (nw V1024). apply map_ext_in. intros i Hi. apply in_seq in Hi. cbn [nw] in Hi. f_equal.
    do 16 (destruct i as [|i]; [now try (symmetry; apply (K 15))|]). lia.
Qed.
Lemma Encrypt_prog : forall v b keys tw, length keys = nw v + 1 -> Encrypt v b keys tw = fold_left (estep v keys tw) (enc_prog v) b.
Proof.
  intros v b keys tw L. unfold Encrypt, enc_prog. rewrite fold_left_app, fold_flat_map. cbn [fold_left estep]. rewrite enc_fin_inj by auto. f_equal.
  apply fold_left_ext_in. intros x k _. cbn [fold_left]. rewrite fold_left_app. cbn [fold_left]. now rewrite !fold_mix_map.
Qed.
Lemma Decrypt_prog : forall v b keys tw, wf64 (nw v + 1) keys -> Decrypt v b keys tw = fold_left (dstep v keys tw) (dec_prog v) b.
Proof.
  intros v b keys tw L. unfold Decrypt, dec_prog. rewrite fold_left_app, fold_flat_map. cbn [fold_left dstep]. rewrite dec_fin_inj by auto. f_equal.
  apply fold_left_ext_in. intros x k _. cbn [fold_left]. rewrite fold_left_app. cbn [fold_left]. now rewrite !fold_unmix_map.
Qed.
Lemma inj_term_64 : forall v keys tw r i, wf64 (nw v + 1) keys -> is64 (inj_term v keys tw r i).
Proof.
  intros v keys tw r i W. unfold inj_term. repeat match goal with |- context [if ?c then _ else _] => destruct c end; try apply add64_is64. now apply (wf64_at (nw v + 1)).
Qed.
Lemma tf_inj_wf : forall op v keys tw r b, (forall x y, is64 (op x y)) -> wf64 (nw v) (tf_inj op v keys tw r b).
Proof.
  intros op v keys tw r b H. split; [apply tf_inj_len|]. unfold tf_inj. apply Forall_forall. intros x Hx. apply in_map_iff in Hx. destruct Hx as (i & <- & _). apply H.
Qed.
Lemma tf_inj_inv : forall op op' v keys tw r b, wf64 (nw v + 1) keys -> wf64 (nw v) b ->
  (forall x y, is64 x -> is64 y -> op' (op x y) y = x) -> tf_inj op' v keys tw r (tf_inj op v keys tw r b) = b.
Proof.
  intros op op' v keys tw r b WK WB H. apply (nth_ext _ _ 0%N 0%N).
  - rewrite tf_inj_len. symmetry. apply WB.
  - intros i Hi. rewrite tf_inj_len in Hi. unfold tf_inj at 1.
    set (f := fun i0 => op' _ _). rewrite (nth_indep _ 0%N (f 0)) by (rewrite map_length, seq_length; auto). rewrite map_nth, seq_nth by auto. cbn [plus]. unfold f.
    assert (E : at_ (tf_inj op v keys tw r b) i = op (at_ b i) (inj_term v keys tw r i)).
    { unfold at_ at 1, tf_inj. set (g := fun i0 => op _ _). rewrite (nth_indep _ 0%N (g 0)) by (rewrite map_length, seq_length; auto).
      rewrite map_nth, seq_nth by auto. reflexivity. }
    rewrite E. apply H; [now apply (wf64_at (nw v))|now apply inj_term_64].
Qed.
Lemma estep_wf : forall v keys tw o b, op_ok v o = true -> wf64 (nw v) b -> wf64 (nw v) (estep v keys tw b o).
Proof. intros v keys tw [r|m] b H W; cbn [estep]; [apply tf_inj_wf, add64_is64|now apply mix_wf]. Qed.
Lemma dstep_wf : forall v keys tw o b, op_ok v o = true -> wf64 (nw v) b -> wf64 (nw v) (dstep v keys tw b o).
Proof. intros v keys tw [r|m] b H W; cbn [dstep]; [apply tf_inj_wf, sub64_is64|now apply unmix_wf]. Qed.
Lemma prog_inv : forall v keys tw l b, wf64 (nw v + 1) keys -> wf64 (nw v) b -> Forall (fun o => op_ok v o = true) l ->
  fold_left (dstep v keys tw) (rev l) (fold_left (estep v keys tw) l b) = b /\ wf64 (nw v) (fold_left (estep v keys tw) l b).
Proof.
  intros v keys tw l. induction l as [|o l IH]; intros b WK WB F; [auto|]. inversion F as [|? ? Ho F']; subst. cbn [fold_left rev].
  destruct (IH (estep v keys tw b o) WK (estep_wf v keys tw o b Ho WB) F') as [E W]. rewrite fold_left_app. rewrite E. split; [|exact W]. cbn [fold_left].
  destruct o as [r|m]; cbn [estep dstep].
  - apply tf_inj_inv; auto. intros; now apply sub_add64.
  - now apply (unmix_mix (nw v)).
Qed.
Lemma prog_inv' : forall v keys tw l b, wf64 (nw v + 1) keys -> wf64 (nw v) b -> Forall (fun o => op_ok v o = true) l ->
  fold_left (estep v keys tw) (rev l) (fold_left (dstep v keys tw) l b) = b /\ wf64 (nw v) (fold_left (dstep v keys tw) l b).
Proof.
  intros v keys tw l. induction l as [|o l IH]; intros b WK WB F; [auto|]. inversion F as [|? ? Ho F']; subst. cbn [fold_left rev].
  destruct (IH (dstep v keys tw b o) WK (dstep_wf v keys tw o b Ho WB) F') as [E W]. rewrite fold_left_app. rewrite E. split; [|exact W]. cbn [fold_left].
  destruct o as [r|m]; cbn [estep dstep].
  - apply tf_inj_inv; auto. intros; now apply add_sub64.
  - now apply (mix_unmix (nw v)).
Qed.
Lemma Dec_Enc : forall v b keys tw, wf64 (nw v) b -> wf64 (nw v + 1) keys ->
  Decrypt v (Encrypt v b keys tw) keys tw = b /\ wf64 (nw v) (Encrypt v b keys tw).
Proof.
  intros v b keys tw WB WK. rewrite Encrypt_prog by apply WK. rewrite Decrypt_prog by auto. rewrite dec_rev. apply prog_inv; auto. apply enc_prog_ok.
Qed.
Lemma Enc_Dec : forall v b keys tw, wf64 (nw v) b -> wf64 (nw v + 1) keys ->
  Encrypt v (Decrypt v b keys tw) keys tw = b /\ wf64 (nw v) (Decrypt v b keys tw).
Proof.
  intros v b keys tw WB WK. rewrite Encrypt_prog by apply WK. rewrite Decrypt_prog by auto.
  replace (enc_prog v) with (rev (dec_prog v)) by (now rewrite dec_rev, rev_involutive). apply prog_inv'; auto.
  rewrite dec_rev. apply Forall_rev. apply enc_prog_ok.
Qed.

(** bytes *)
Lemma bytesToBlock_ok : forall v s, length s = nb v -> bytesToBlock v s = to_words s.
Proof.
  intros v s L. unfold bytesToBlock, to_words, chunks. rewrite L. unfold nb. rewrite (Nat.mul_comm 8), Nat.div_mul by lia. rewrite map_map.
  apply map_ext. intros i. unfold slice. do 2 f_equal; [lia|f_equal; lia].
Qed.
Lemma bytesToBlock_wf : forall v s, isbytes s -> wf64 (nw v) (bytesToBlock v s).
Proof.
  intros v s B. unfold bytesToBlock. split; [now rewrite map_length, seq_length|]. apply Forall_forall. intros x Hx. apply in_map_iff in Hx. destruct Hx as (i & <- & _).
  unfold is64. apply N.lt_le_trans with (2 ^ N.of_nat (8 * length (slice s (8 * i) (8 * i + 8))))%N.
  - apply le_val_lt. unfold slice. now apply isbytes_firstn, isbytes_skipn.
  - apply N.pow_le_mono_r; [discriminate|]. unfold slice. rewrite firstn_length. lia.
Qed.
Lemma to_bytes_len : forall b, length (to_bytes b) = 8 * length b.
Proof. induction b as [|x b IH]; [reflexivity|]. unfold to_bytes in *. cbn [flat_map length]. rewrite app_length, le_bytes_length, IH. lia. Qed.
Lemma to_bytes_bytes : forall b, isbytes (to_bytes b).
Proof. induction b as [|x b IH]; [constructor|]. unfold to_bytes in *. cbn [flat_map]. apply isbytes_app. split; auto. apply le_bytes_isbytes. Qed.
Lemma to_words_to_bytes : forall b, Forall is64 b -> to_words (to_bytes b) = b.
Proof.
  induction b as [|x b IH]; intros F; [reflexivity|]. inversion F as [|? ? Hx F']; subst. unfold to_words, to_bytes in *. cbn [flat_map].
  pose proof (le_bytes_length 8 x) as L8. rewrite chunks_app, rest_one, chunks_one by (auto; lia). cbn [app map]. rewrite IH by auto. f_equal.
  rewrite le_val_le_bytes. apply N.mod_small. exact Hx.
Qed.
Lemma to_bytes_to_words : forall s, isbytes s -> length s mod 8 = 0 -> to_bytes (to_words s) = s.
Proof.
  intros s. pattern s. apply (chunk_ind N 8); [lia| |]; clear s.
  - intros s L B M. rewrite Nat.mod_small in M by auto. destruct s; [reflexivity|discriminate].
  - intros s L IH B M. unfold to_words, to_bytes in *. rewrite chunks_cons by lia. cbn [map flat_map].
    rewrite IH; [|now apply isbytes_skipn|].
    + assert (E : le_bytes 8 (le_val (firstn 8 s)) = firstn 8 s).
      { pose proof (le_bytes_le_val (firstn 8 s) (isbytes_firstn 8 s B)) as Q. rewrite firstn_length, Nat.min_l in Q by lia. exact Q. }
      rewrite E. apply firstn_skipn.
    + rewrite skipn_length. replace (length s) with (length s - 8 + 1 * 8) in M by lia. rewrite Nat.mod_add in M by lia. exact M.
Qed.
Lemma block_bytes : forall v s, isbytes s -> length s = nb v -> blockToBytes (bytesToBlock v s) = s.
Proof.
  intros v s B L. rewrite bytesToBlock_ok by auto. apply to_bytes_to_words; auto. rewrite L. unfold nb. rewrite Nat.mul_comm. now apply Nat.mod_mul.
Qed.
Lemma bytes_block : forall v b, wf64 (nw v) b -> bytesToBlock v (blockToBytes b) = b.
Proof.
  intros v b [L F]. rewrite bytesToBlock_ok; [now apply to_words_to_bytes|]. change (blockToBytes b) with (to_bytes b). rewrite to_bytes_len. unfold nb. now rewrite L.
Qed.
Lemma xor_keys_64 : forall k, Forall is64 k -> is64 (xor_keys k).
Proof.
  intros k F. unfold xor_keys. assert (H : is64 C240) by reflexivity. revert H. generalize C240. induction F as [|x k Hx F IH]; intros c Hc; [exact Hc|].
  cbn [fold_left]. apply IH. now apply lxor_is64.
Qed.
Lemma newCipher_wf : forall v tweak key, isbytes key -> wf64 (nw v + 1) (fst (newCipher v tweak key)).
Proof.
  intros v tweak key B. unfold newCipher. cbn [fst]. pose proof (bytesToBlock_wf v key B) as [L F]. split; [rewrite app_length, L; reflexivity|].
  apply Forall_app. split; auto. constructor; [|constructor]. now apply xor_keys_64.
Qed.
Lemma newCipher_eq : forall v tweak key, length key = nb v ->
  newCipher v tweak key = (tf_k (to_words key), tf_t (le_val (slice tweak 0 8), le_val (slice tweak 8 16))).
Proof. intros v tweak key L. unfold newCipher. now rewrite bytesToBlock_ok. Qed.
Global Opaque Encrypt Decrypt.
Lemma UBI_ok : forall v b h t, length h = nw v -> UBI v b h t = (threefish v h t b, xorblk (threefish v h t b) b).
Proof. intros v b h t L. unfold UBI. change (h ++ [xor_keys h]) with (tf_k h). change [fst t; snd t; N.lxor (fst t) (snd t)] with (tf_t t). now rewrite Encrypt_ok. Qed.
