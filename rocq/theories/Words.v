(** Words.v -- bit-level facts about the fixed-width operations of Base.v. *)
From Coq Require Import List NArith Arith Lia Bool.
From Verif Require Import Base.
Import ListNotations.

Lemma lt_pow2_bits : forall k x, (x < 2 ^ k)%N <-> (forall i, (k <= i)%N -> N.testbit x i = false).
Proof.
  intros k x. split.
  - intros H i Hi. destruct (N.eq_dec x 0) as [->|Hx]; [apply N.bits_0|].
    apply N.bits_above_log2. apply N.lt_le_trans with k; auto.
    apply N.log2_lt_pow2; lia.
  - intros H. destruct (N.eq_dec x 0) as [->|Hx]; [apply N.neq_0_lt_0, N.pow_nonzero; lia|].
    apply N.log2_lt_pow2; [lia|].
    destruct (N.lt_ge_cases (N.log2 x) k) as [L|L]; auto.
    specialize (H _ L). rewrite N.bit_log2 in H by auto. discriminate.
Qed.

Lemma lxor_lt : forall k a b, (a < 2 ^ k)%N -> (b < 2 ^ k)%N -> (N.lxor a b < 2 ^ k)%N.
Proof.
  intros k a b Ha Hb. rewrite lt_pow2_bits in *. intros i Hi.
  now rewrite N.lxor_spec, Ha, Hb.
Qed.
Lemma lor_lt : forall k a b, (a < 2 ^ k)%N -> (b < 2 ^ k)%N -> (N.lor a b < 2 ^ k)%N.
Proof.
  intros k a b Ha Hb. rewrite lt_pow2_bits in *. intros i Hi.
  now rewrite N.lor_spec, Ha, Hb.
Qed.
Lemma land_lt_l : forall k a b, (a < 2 ^ k)%N -> (N.land a b < 2 ^ k)%N.
Proof.
  intros k a b Ha. rewrite lt_pow2_bits in *. intros i Hi.
  now rewrite N.land_spec, Ha.
Qed.
Lemma shiftr_lt : forall k a n, (a < 2 ^ k)%N -> (N.shiftr a n < 2 ^ k)%N.
Proof.
  intros k a n Ha. rewrite lt_pow2_bits in *. intros i Hi.
  rewrite N.shiftr_spec'. apply Ha. lia.
Qed.

Definition is32 (x : N) : Prop := (x < 2 ^ 32)%N.
Definition is64 (x : N) : Prop := (x < 2 ^ 64)%N.

Lemma w32_is32 : forall x, is32 (w32 x).
Proof. exact w32_lt. Qed.
Lemma w64_is64 : forall x, is64 (w64 x).
Proof. exact w64_lt. Qed.
Lemma add32_is32 : forall a b, is32 (add32 a b).
Proof. intros. apply w32_is32. Qed.
Lemma add64_is64 : forall a b, is64 (add64 a b).
Proof. intros. apply w64_is64. Qed.
Lemma rotl32_is32 : forall x n, is32 x -> is32 (rotl32 x n).
Proof. intros. apply lor_lt. apply w32_lt. now apply shiftr_lt. Qed.
Lemma rotl64_is64 : forall x n, is64 x -> is64 (rotl64 x n).
Proof. intros. apply lor_lt. apply w64_lt. now apply shiftr_lt. Qed.
Lemma lxor_is32 : forall a b, is32 a -> is32 b -> is32 (N.lxor a b).
Proof. intros. now apply lxor_lt. Qed.
Lemma lxor_is64 : forall a b, is64 a -> is64 b -> is64 (N.lxor a b).
Proof. intros. now apply lxor_lt. Qed.

Lemma w32_eq : forall x, is32 x -> w32 x = x.
Proof. exact w32_small. Qed.
Lemma w64_eq : forall x, is64 x -> w64 x = x.
Proof. exact w64_small. Qed.

(** Bitwise identities are checked bit by bit. *)
Ltac bitwise :=
  apply N.bits_inj; intro;
  repeat (rewrite N.lxor_spec || rewrite N.land_spec || rewrite N.lor_spec || rewrite N.ldiff_spec);
  repeat match goal with |- context [N.testbit ?a ?i] => destruct (N.testbit a i) end; reflexivity.

Lemma ch_xor_form : forall x y z,
  N.lxor (N.land (N.lxor y z) x) z = N.lor (N.land x y) (N.ldiff z x).
Proof. intros. bitwise. Qed.

Lemma fold_left_ext_in : forall A B (f g : A -> B -> A) l a,
  (forall a b, In b l -> f a b = g a b) -> fold_left f l a = fold_left g l a.
Proof.
  induction l as [|x l IH]; intros a H; [reflexivity|]. cbn [fold_left].
  rewrite H by (left; reflexivity). apply IH. intros. apply H. right; auto.
Qed.

(** Relating two folds through a map of their states. *)
Lemma fold_left_map_in : forall A A' B (h : A -> A') (f : A -> B -> A) (g : A' -> B -> A') l a,
  (forall a b, In b l -> h (f a b) = g (h a) b) -> h (fold_left f l a) = fold_left g l (h a).
Proof.
  induction l as [|x l IH]; intros a H; [reflexivity|]. cbn [fold_left].
  rewrite IH by (intros; apply H; right; auto). f_equal. apply H. left; auto.
Qed.

(** Filling an array in place versus appending. *)
Lemma fill_vs_append : forall (g : list N -> nat -> N) (next : list N -> N)
  (expand : nat -> list N -> list N),
  (forall w, expand 0 w = w) ->
  (forall n w, expand (S n) w = expand n (w ++ [next w])) ->
  forall n w k (P : list N -> Prop),
  (forall w z, P w -> g (w ++ z) (length w) = next w) ->
  (forall w v, P w -> P (w ++ [v])) -> P w ->
  fold_left (fun W j => upd W j (g W j)) (seq (length w) n) (w ++ zeros (n + k))
  = expand n w ++ zeros k.
Proof.
  intros g next expand E0 ES. induction n as [|n IH]; intros w k P Hg HP Hw.
  - cbn [seq fold_left]. now rewrite E0.
  - cbn [seq fold_left]. rewrite Hg by auto. rewrite ES.
    change (zeros (S n + k)) with (0%N :: zeros (n + k)).
    rewrite upd_app_at. rewrite <- (IH _ k P) by auto.
    rewrite app_length. cbn [length]. rewrite Nat.add_1_r. f_equal.
    rewrite <- app_assoc. reflexivity.
Qed.

(** Two step functions that agree on states satisfying an invariant. *)
Lemma fold_left_agree : forall A B (f g : A -> B -> A) (I : A -> Prop) (Q : B -> Prop),
  (forall a b, I a -> Q b -> f a b = g a b) ->
  (forall a b, I a -> Q b -> I (f a b)) ->
  forall l a, I a -> Forall Q l -> fold_left f l a = fold_left g l a /\ I (fold_left f l a).
Proof.
  intros A B f g I Q H1 H2. induction l as [|x l IH]; intros a Ia Hq; [split; auto|].
  cbn [fold_left]. inversion Hq; subst. rewrite <- H1 by auto. apply IH; auto.
Qed.

Lemma mod_mod_mul : forall a b c, (b <> 0)%N -> (c <> 0)%N -> ((a mod (b * c)) mod b = a mod b)%N.
Proof.
  intros a b c Hb Hc. rewrite N.mod_mul_r by auto.
  rewrite (N.mul_comm b), N.mod_add by auto. now rewrite N.mod_mod by auto.
Qed.
Lemma w64_mod_small : forall n k, (k <> 0)%N -> (18446744073709551616 mod k = 0)%N ->
  (w64 n mod k = n mod k)%N.
Proof.
  intros n k Hk H. rewrite w64_mod.
  pose proof (N.div_mod 18446744073709551616 k Hk) as E. rewrite H, N.add_0_r in E.
  rewrite E. apply mod_mod_mul; auto. intro Z. rewrite Z in E. lia.
Qed.

(** Decoding k big-endian words that were just encoded. *)
Lemma concat_be_length : forall w s, length (concat (map (be_bytes w) s)) = length s * w.
Proof.
  induction s as [|x s IH]; [reflexivity|]. cbn [map concat length].
  rewrite app_length, be_bytes_length, IH. lia.
Qed.
Lemma concat_le_length : forall w s, length (concat (map (le_bytes w) s)) = length s * w.
Proof.
  induction s as [|x s IH]; [reflexivity|]. cbn [map concat length].
  rewrite app_length, le_bytes_length, IH. lia.
Qed.
Lemma slice_skip : forall A (a l : list A) n i j, length a = n ->
  slice (a ++ l) (n + i) (n + j) = slice l i j.
Proof.
  intros A a l n i j L. unfold slice.
  replace (n + j - (n + i)) with (j - i) by lia.
  rewrite skipn_app. rewrite skipn_all2 by lia. rewrite app_nil_l. do 2 f_equal. lia.
Qed.
Lemma be_words_decode : forall w (s : list N) tl, (0 < w)%nat ->
  Forall (fun x => (x < 256 ^ N.of_nat w)%N) s ->
  map (fun i => be_val (slice (concat (map (be_bytes w) s) ++ tl) (w * i) (w * i + w))) (seq 0 (length s)) = s.
Proof.
  intros w s tl Hw. revert tl. induction s as [|x s IH]; intros tl Hf; [reflexivity|].
  inversion Hf as [|? ? Hx Hs]; subst. cbn [length seq map concat]. f_equal.
  - rewrite Nat.mul_0_r. unfold slice. rewrite skipn_O, <- app_assoc.
    replace (0 + w - 0) with w by lia. rewrite firstn_app, be_bytes_length, Nat.sub_diag, firstn_O, app_nil_r.
    rewrite firstn_all2 by (rewrite be_bytes_length; lia).
    rewrite be_val_be_bytes. now apply N.mod_small.
  - rewrite <- seq_shift, map_map. rewrite <- (IH tl Hs) at 2. apply map_ext. intros i.
    rewrite <- app_assoc. replace (w * S i + w) with (w + (w * i + w)) by lia.
    replace (w * S i) with (w + w * i) by lia.
    f_equal. apply slice_skip. apply be_bytes_length.
Qed.

(** Rewriting rules used instead of [cbn], so that the kernel never has to
    compare unfolded compression functions. *)
Lemma fold_left_cons : forall A B (f : A -> B -> A) b l a,
  fold_left f (b :: l) a = fold_left f l (f a b).
Proof. reflexivity. Qed.
Lemma fold_left_nil : forall A B (f : A -> B -> A) a, fold_left f [] a = a.
Proof. reflexivity. Qed.
Lemma seq_cons : forall i n, seq i (S n) = i :: seq (S i) n.
Proof. reflexivity. Qed.
