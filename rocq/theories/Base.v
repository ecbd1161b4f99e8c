(** Base.v -- bytes, machine words, Go slices.  Shared vocabulary of the whole
    model.  Nothing in this file is specific to one package of /repo.

    Conventions
    - a Go [byte] / [uint32] / [uint64] is an [N] (binary natural number); every
      arithmetic operation of the model reduces its result explicitly with
      [w8]/[w32]/[w64] exactly where Go's fixed-width arithmetic wraps;
    - a Go array or slice is a [list]; indices and lengths are [nat];
    - [copy(dst[off:], src)] is [copy_at dst off src]. *)
From Coq Require Import List NArith Arith Lia Bool.
Import ListNotations.

(** ** Words *)

Definition w8  (x : N) : N := N.land x 255.
Definition w16 (x : N) : N := N.land x 65535.
Definition w32 (x : N) : N := N.land x 4294967295.
Definition w64 (x : N) : N := N.land x 18446744073709551615.

Definition add32 (a b : N) : N := w32 (a + b).
Definition add64 (a b : N) : N := w64 (a + b).
Definition sub32 (a b : N) : N := w32 (a + 4294967296 - b).
Definition sub64 (a b : N) : N := w64 (a + 18446744073709551616 - b).
Definition mul32 (a b : N) : N := w32 (a * b).
Definition mul64 (a b : N) : N := w64 (a * b).
(** Go's [^x] (complement) on an already reduced word. *)
Definition not32 (a : N) : N := N.lxor a 4294967295.
Definition not64 (a : N) : N := N.lxor a 18446744073709551615.
Definition shl32 (a n : N) : N := w32 (N.shiftl a n).
Definition shl64 (a n : N) : N := w64 (N.shiftl a n).
(** bits.RotateLeft32 / 64 for 0 <= n < width on reduced words. *)
Definition rotl32 (x n : N) : N := N.lor (w32 (N.shiftl x n)) (N.shiftr x (32 - n)).
Definition rotl64 (x n : N) : N := N.lor (w64 (N.shiftl x n)) (N.shiftr x (64 - n)).
Definition rotr32 (x n : N) : N := rotl32 x (32 - n).
Definition rotr64 (x n : N) : N := rotl64 x (64 - n).

Definition isbyte (b : N) : Prop := (b < 256)%N.
Definition isbytes (l : list N) : Prop := Forall isbyte l.

Lemma w8_mod : forall x, w8 x = (x mod 256)%N.
Proof. intros. unfold w8. change 255%N with (N.ones 8). rewrite N.land_ones. reflexivity. Qed.
Lemma w16_mod : forall x, w16 x = (x mod 65536)%N.
Proof. intros. unfold w16. change 65535%N with (N.ones 16). rewrite N.land_ones. reflexivity. Qed.
Lemma w32_mod : forall x, w32 x = (x mod 4294967296)%N.
Proof. intros. unfold w32. change 4294967295%N with (N.ones 32). rewrite N.land_ones. reflexivity. Qed.
Lemma w64_mod : forall x, w64 x = (x mod 18446744073709551616)%N.
Proof. intros. unfold w64. change 18446744073709551615%N with (N.ones 64). rewrite N.land_ones. reflexivity. Qed.

Lemma w8_lt : forall x, (w8 x < 256)%N.
Proof. intros. rewrite w8_mod. apply N.mod_lt. discriminate. Qed.
Lemma w32_lt : forall x, (w32 x < 4294967296)%N.
Proof. intros. rewrite w32_mod. apply N.mod_lt. discriminate. Qed.
Lemma w64_lt : forall x, (w64 x < 18446744073709551616)%N.
Proof. intros. rewrite w64_mod. apply N.mod_lt. discriminate. Qed.
Lemma w64_small : forall x, (x < 18446744073709551616)%N -> w64 x = x.
Proof. intros. rewrite w64_mod. apply N.mod_small. assumption. Qed.
Lemma w32_small : forall x, (x < 4294967296)%N -> w32 x = x.
Proof. intros. rewrite w32_mod. apply N.mod_small. assumption. Qed.
Lemma w8_small : forall x, (x < 256)%N -> w8 x = x.
Proof. intros. rewrite w8_mod. apply N.mod_small. assumption. Qed.

Lemma w64_add_l : forall a b, w64 (w64 a + b) = w64 (a + b).
Proof. intros. rewrite !w64_mod. apply N.add_mod_idemp_l. discriminate. Qed.
Lemma w64_add_r : forall a b, w64 (a + w64 b) = w64 (a + b).
Proof. intros. rewrite !w64_mod. apply N.add_mod_idemp_r. discriminate. Qed.
Lemma w64_mul_l : forall a b, w64 (w64 a * b) = w64 (a * b).
Proof. intros. rewrite !w64_mod. apply N.mul_mod_idemp_l. discriminate. Qed.
Lemma w64_mul_r : forall a b, w64 (a * w64 b) = w64 (a * b).
Proof. intros. rewrite !w64_mod. apply N.mul_mod_idemp_r. discriminate. Qed.
Lemma w64_idem : forall a, w64 (w64 a) = w64 a.
Proof. intros. rewrite !w64_mod. apply N.mod_mod. discriminate. Qed.
Lemma w32_add_l : forall a b, w32 (w32 a + b) = w32 (a + b).
Proof. intros. rewrite !w32_mod. apply N.add_mod_idemp_l. discriminate. Qed.
Lemma w32_add_r : forall a b, w32 (a + w32 b) = w32 (a + b).
Proof. intros. rewrite !w32_mod. apply N.add_mod_idemp_r. discriminate. Qed.
Lemma w32_idem : forall a, w32 (w32 a) = w32 a.
Proof. intros. rewrite !w32_mod. apply N.mod_mod. discriminate. Qed.

(** ** Byte encodings *)

(** [k] bytes of [n], least significant first (encoding/binary.LittleEndian). *)
Fixpoint le_bytes (k : nat) (n : N) : list N :=
  match k with
  | O => []
  | S k' => w8 n :: le_bytes k' (N.shiftr n 8)
  end.
Definition be_bytes (k : nat) (n : N) : list N := rev (le_bytes k n).

Fixpoint le_val (l : list N) : N :=
  match l with
  | [] => 0%N
  | b :: t => (b + 256 * le_val t)%N
  end.
Definition be_val (l : list N) : N := le_val (rev l).

Lemma le_bytes_length : forall k n, length (le_bytes k n) = k.
Proof. induction k; simpl; intros; auto. Qed.
Lemma be_bytes_length : forall k n, length (be_bytes k n) = k.
Proof. intros. unfold be_bytes. rewrite rev_length. apply le_bytes_length. Qed.

Lemma le_bytes_isbytes : forall k n, isbytes (le_bytes k n).
Proof.
  induction k; simpl; intros; constructor.
  - apply w8_lt.
  - apply IHk.
Qed.
Lemma isbytes_rev : forall l, isbytes l -> isbytes (rev l).
Proof. intros. apply Forall_forall. intros x Hx. apply in_rev in Hx.
  eapply Forall_forall in H; eauto. Qed.
Lemma be_bytes_isbytes : forall k n, isbytes (be_bytes k n).
Proof. intros. apply isbytes_rev, le_bytes_isbytes. Qed.

Lemma le_val_le_bytes : forall k n,
  le_val (le_bytes k n) = (n mod (256 ^ N.of_nat k))%N.
Proof.
  induction k; intros.
  - simpl. symmetry. apply N.mod_1_r.
  - cbn [le_bytes le_val]. rewrite IHk, w8_mod, N.shiftr_div_pow2.
    replace (N.of_nat (S k)) with (1 + N.of_nat k)%N by lia.
    rewrite N.pow_add_r, N.pow_1_r.
    change (2 ^ 8)%N with 256%N.
    rewrite (N.mod_mul_r n 256) by (try apply N.pow_nonzero; discriminate).
    reflexivity.
Qed.
Lemma be_val_be_bytes : forall k n,
  be_val (be_bytes k n) = (n mod (256 ^ N.of_nat k))%N.
Proof. intros. unfold be_val, be_bytes. rewrite rev_involutive. apply le_val_le_bytes. Qed.

Lemma le_bytes_le_val : forall l, isbytes l -> le_bytes (length l) (le_val l) = l.
Proof.
  induction l as [|a l IH]; intros H; auto.
  inversion H as [|? ? Hb Ht]; subst. cbn [le_bytes le_val length].
  rewrite w8_mod, N.shiftr_div_pow2. change (2^8)%N with 256%N.
  replace (a + 256 * le_val l)%N with (a + le_val l * 256)%N by lia.
  rewrite N.mod_add, N.div_add by discriminate.
  unfold isbyte in Hb.
  rewrite N.mod_small, N.div_small by assumption.
  rewrite N.add_0_l, IH; auto.
Qed.
Lemma be_bytes_be_val : forall l, isbytes l -> be_bytes (length l) (be_val l) = l.
Proof.
  intros. unfold be_bytes, be_val.
  rewrite <- (rev_length l). rewrite le_bytes_le_val.
  - apply rev_involutive.
  - apply isbytes_rev; auto.
Qed.

Lemma le_bytes_mod : forall k n,
  le_bytes k (n mod (256 ^ N.of_nat k)) = le_bytes k n.
Proof.
  intros. rewrite <- le_val_le_bytes.
  rewrite <- (le_bytes_length k n) at 1.
  apply le_bytes_le_val, le_bytes_isbytes.
Qed.
Lemma le_bytes8_w64 : forall n, le_bytes 8 (w64 n) = le_bytes 8 n.
Proof. intros. rewrite w64_mod. apply (le_bytes_mod 8). Qed.
Lemma be_bytes8_w64 : forall n, be_bytes 8 (w64 n) = be_bytes 8 n.
Proof. intros. unfold be_bytes. now rewrite le_bytes8_w64. Qed.
Lemma le_bytes4_w32 : forall n, le_bytes 4 (w32 n) = le_bytes 4 n.
Proof. intros. rewrite w32_mod. apply (le_bytes_mod 4). Qed.
Lemma be_bytes4_w32 : forall n, be_bytes 4 (w32 n) = be_bytes 4 n.
Proof. intros. unfold be_bytes. now rewrite le_bytes4_w32. Qed.

Lemma le_bytes_app : forall j k n,
  le_bytes (j + k) n = le_bytes j n ++ le_bytes k (N.shiftr n (8 * N.of_nat j)).
Proof.
  induction j; intros.
  - change (8 * N.of_nat 0)%N with 0%N. now rewrite N.shiftr_0_r.
  - cbn [plus le_bytes app]. rewrite IHj. f_equal. f_equal. f_equal.
    rewrite N.shiftr_shiftr. f_equal. lia.
Qed.
Lemma be_bytes_app : forall j k n,
  be_bytes (k + j) n = be_bytes k (N.shiftr n (8 * N.of_nat j)) ++ be_bytes j n.
Proof.
  intros. unfold be_bytes. rewrite Nat.add_comm, le_bytes_app, rev_app_distr. reflexivity.
Qed.

Lemma le_bytes_inj : forall k a b,
  (a < 256 ^ N.of_nat k)%N -> (b < 256 ^ N.of_nat k)%N ->
  le_bytes k a = le_bytes k b -> a = b.
Proof.
  intros k a b Ha Hb E.
  apply (f_equal le_val) in E. rewrite !le_val_le_bytes in E.
  now rewrite !N.mod_small in E by assumption.
Qed.
Lemma be_bytes_inj : forall k a b,
  (a < 256 ^ N.of_nat k)%N -> (b < 256 ^ N.of_nat k)%N ->
  be_bytes k a = be_bytes k b -> a = b.
Proof.
  intros k a b Ha Hb E. unfold be_bytes in E.
  apply (f_equal (@rev N)) in E. rewrite !rev_involutive in E.
  eapply le_bytes_inj; eauto.
Qed.

(** ** Lists as Go arrays and slices *)

Definition zeros (n : nat) : list N := repeat 0%N n.

(** Go [copy(dst[off:], src)]; number of bytes copied = min(len(dst)-off, len(src)). *)
Definition copy_at {A} (dst : list A) (off : nat) (src : list A) : list A :=
  firstn off dst ++ firstn (length dst - off) src
    ++ skipn (off + Nat.min (length dst - off) (length src)) dst.

(** Go [l[i] = v]. Out of range indices leave the list unchanged (Go would panic;
    the invariants proved about each package keep every index in range). *)
Fixpoint upd {A} (l : list A) (i : nat) (v : A) : list A :=
  match l, i with
  | [], _ => []
  | _ :: t, O => v :: t
  | h :: t, S i' => h :: upd t i' v
  end.

(** Go [l[i]] on [N] elements. *)
Definition at_ (l : list N) (i : nat) : N := nth i l 0%N.

(** Go slice expression l[i:j]. *)
Definition slice {A} (l : list A) (i j : nat) : list A := firstn (j - i) (skipn i l).

(** The list obtained by cutting [l] in consecutive pieces of [n] elements; an
    incomplete last piece is dropped. *)
Definition chunks {A} (n : nat) (l : list A) : list (list A) :=
  map (fun i => firstn n (skipn (i * n) l)) (seq 0 (length l / n)).

(** The elements that do not fill a whole piece. *)
Definition rest {A} (n : nat) (l : list A) : list A := skipn (length l / n * n) l.

Lemma upd_length : forall A (l : list A) i v, length (upd l i v) = length l.
Proof. induction l; destruct i; simpl; auto. Qed.
Lemma upd_app_at : forall A (a : list A) x b v,
  upd (a ++ x :: b) (length a) v = a ++ v :: b.
Proof. induction a; simpl; intros; auto. now rewrite IHa. Qed.
Lemma nth_upd_same : forall A (l : list A) i v d, i < length l -> nth i (upd l i v) d = v.
Proof. induction l; destruct i; simpl; intros; try lia; auto. apply IHl. lia. Qed.
Lemma nth_upd_other : forall A (l : list A) i j v d, i <> j -> nth j (upd l i v) d = nth j l d.
Proof. induction l; destruct i, j; simpl; intros; try lia; auto. Qed.
Lemma firstn_upd : forall A (l : list A) n v, firstn n (upd l n v) = firstn n l.
Proof. induction l; destruct n; simpl; intros; auto. now rewrite IHl. Qed.
Lemma upd_split : forall A (l : list A) i v, i < length l ->
  upd l i v = firstn i l ++ v :: skipn (S i) l.
Proof.
  induction l; destruct i; simpl; intros; try lia; auto.
  rewrite IHl by lia. reflexivity.
Qed.

Lemma zeros_length : forall n, length (zeros n) = n.
Proof. intros. apply repeat_length. Qed.
Lemma firstn_zeros : forall n m, firstn n (zeros m) = zeros (Nat.min n m).
Proof. unfold zeros. induction n; destruct m; simpl; auto. now rewrite IHn. Qed.
Lemma skipn_zeros : forall n m, skipn n (zeros m) = zeros (m - n).
Proof. unfold zeros. induction n; destruct m; simpl; auto. Qed.
Lemma zeros_app : forall a b, zeros a ++ zeros b = zeros (a + b).
Proof. intros. unfold zeros. symmetry. apply repeat_app. Qed.
Lemma zeros_isbytes : forall n, isbytes (zeros n).
Proof. intros. apply Forall_forall. intros x H. apply repeat_spec in H. subst. reflexivity. Qed.

Lemma copy_at_length : forall A (d : list A) off s,
  off <= length d -> length (copy_at d off s) = length d.
Proof.
  intros. unfold copy_at. rewrite !app_length, !firstn_length, skipn_length. lia.
Qed.

Lemma copy_at_firstn : forall A (d : list A) off s,
  off <= length d -> length s <= length d - off ->
  firstn (off + length s) (copy_at d off s) = firstn off d ++ s.
Proof.
  intros A d off s H1 H2. unfold copy_at.
  rewrite (firstn_all2 s) by lia. rewrite app_assoc.
  rewrite firstn_app.
  assert (L : length (firstn off d ++ s) = off + length s)
    by (rewrite app_length, firstn_length; lia).
  rewrite L, Nat.sub_diag, firstn_O, app_nil_r.
  apply firstn_all2. lia.
Qed.

Lemma copy_at_full : forall A (d : list A) off s,
  off <= length d -> length d - off <= length s ->
  copy_at d off s = firstn off d ++ firstn (length d - off) s.
Proof.
  intros. unfold copy_at.
  replace (off + Nat.min (length d - off) (length s)) with (length d) by lia.
  rewrite skipn_all, app_nil_r. reflexivity.
Qed.

Lemma copy_at_nil : forall A (d : list A) off, off <= length d -> copy_at d off [] = d.
Proof.
  intros. unfold copy_at. rewrite firstn_nil. simpl length. rewrite Nat.min_0_r, Nat.add_0_r.
  simpl. apply firstn_skipn.
Qed.

Lemma firstn_copy_at_pre : forall A (d : list A) off s n,
  off <= length d -> n <= off -> firstn n (copy_at d off s) = firstn n d.
Proof.
  intros. unfold copy_at. rewrite firstn_app, firstn_firstn.
  rewrite firstn_length. replace (n - Nat.min off (length d)) with 0 by lia.
  rewrite firstn_O, app_nil_r. f_equal. lia.
Qed.

Lemma skipn_skipn : forall A (l : list A) a b, skipn a (skipn b l) = skipn (b + a) l.
Proof.
  induction l; intros.
  - now rewrite !skipn_nil.
  - destruct b; simpl; auto.
Qed.

Lemma chunks_short : forall A n (l : list A), length l < n -> chunks n l = [].
Proof. intros. unfold chunks. rewrite Nat.div_small by assumption. reflexivity. Qed.

Lemma rest_short : forall A n (l : list A), length l < n -> rest n l = l.
Proof. intros. unfold rest. rewrite Nat.div_small by assumption. reflexivity. Qed.

Lemma chunks_cons : forall A n (l : list A), 0 < n -> n <= length l ->
  chunks n l = firstn n l :: chunks n (skipn n l).
Proof.
  intros A n l Hn Hl. unfold chunks.
  rewrite skipn_length.
  replace (length l / n) with (S ((length l - n) / n)).
  - simpl. f_equal. rewrite <- seq_shift, map_map. apply map_ext.
    intros a. rewrite skipn_skipn. reflexivity.
  - replace (length l) with (1 * n + (length l - n)) at 2 by lia.
    rewrite Nat.div_add_l by lia. lia.
Qed.

Lemma rest_cons : forall A n (l : list A), 0 < n -> n <= length l ->
  rest n l = rest n (skipn n l).
Proof.
  intros A n l Hn Hl. unfold rest. rewrite skipn_length, skipn_skipn. f_equal.
  replace (length l) with (1 * n + (length l - n)) at 1 by lia.
  rewrite Nat.div_add_l by lia. lia.
Qed.

Lemma rest_length : forall A n (l : list A), n <> 0 -> length (rest n l) = length l mod n.
Proof.
  intros. unfold rest. rewrite skipn_length. rewrite Nat.mod_eq by assumption.
  rewrite (Nat.mul_comm n). reflexivity.
Qed.

Lemma rest_length_lt : forall A n (l : list A), 0 < n -> length (rest n l) < n.
Proof. intros. rewrite rest_length by lia. apply Nat.mod_upper_bound. lia. Qed.

(** Strong induction on the number of pieces. *)
Lemma chunk_ind : forall A (n : nat) (P : list A -> Prop), 0 < n ->
  (forall l, length l < n -> P l) ->
  (forall l, n <= length l -> P (skipn n l) -> P l) ->
  forall l, P l.
Proof.
  intros A n P Hn Hs Hc l.
  remember (length l) as k eqn:Hk. revert l Hk.
  induction k as [k IH] using lt_wf_ind. intros l Hk.
  destruct (Nat.lt_ge_cases (length l) n).
  - auto.
  - apply Hc; auto. apply (IH (length (skipn n l))); auto.
    rewrite skipn_length. lia.
Qed.

Lemma chunks_app : forall A n (a b : list A), 0 < n ->
  chunks n (a ++ b) = chunks n a ++ chunks n (rest n a ++ b).
Proof.
  intros A n a b Hn. pattern a. apply (chunk_ind A n); auto.
  - intros l Hl. now rewrite (chunks_short _ _ l), rest_short.
  - intros l Hl IH.
    rewrite (chunks_cons _ n (l ++ b)) by (try rewrite app_length; lia).
    rewrite (chunks_cons _ n l), (rest_cons _ n l) by lia.
    simpl. rewrite firstn_app, skipn_app.
    replace (n - length l) with 0 by lia. rewrite firstn_O, app_nil_r. simpl.
    now rewrite IH.
Qed.

Lemma rest_app : forall A n (a b : list A), 0 < n ->
  rest n (a ++ b) = rest n (rest n a ++ b).
Proof.
  intros A n a b Hn. pattern a. apply (chunk_ind A n); auto.
  - intros l Hl. now rewrite (rest_short _ _ l).
  - intros l Hl IH.
    rewrite (rest_cons _ n (l ++ b)) by (try rewrite app_length; lia).
    rewrite (rest_cons _ n l) by lia.
    rewrite skipn_app. replace (n - length l) with 0 by lia. simpl. apply IH.
Qed.

Lemma chunks_one : forall A n (l : list A), 0 < n -> length l = n -> chunks n l = [l].
Proof.
  intros. rewrite chunks_cons by lia. rewrite firstn_all2 by lia.
  rewrite chunks_short; auto. rewrite skipn_length. lia.
Qed.
Lemma rest_one : forall A n (l : list A), 0 < n -> length l = n -> rest n l = [].
Proof.
  intros. rewrite rest_cons by lia. rewrite rest_short by (rewrite skipn_length; lia).
  apply skipn_all2. lia.
Qed.

Lemma chunks_concat : forall A n (l : list A), 0 < n ->
  concat (chunks n l) ++ rest n l = l.
Proof.
  intros A n l Hn. pattern l. apply (chunk_ind A n); auto.
  - intros k Hk. now rewrite chunks_short, rest_short.
  - intros k Hk IH. rewrite chunks_cons, rest_cons by lia. simpl.
    rewrite <- app_assoc, IH. apply firstn_skipn.
Qed.

Lemma chunks_all_length : forall A n (l : list A), 0 < n ->
  Forall (fun c => length c = n) (chunks n l).
Proof.
  intros A n l Hn. pattern l. apply (chunk_ind A n); auto.
  - intros k Hk. rewrite chunks_short; auto.
  - intros k Hk IH. rewrite chunks_cons by lia. constructor; auto.
    rewrite firstn_length. lia.
Qed.

Lemma chunks_length : forall A n (l : list A), length (chunks n l) = length l / n.
Proof. intros. unfold chunks. now rewrite map_length, seq_length. Qed.

Lemma isbytes_app : forall a b, isbytes (a ++ b) <-> isbytes a /\ isbytes b.
Proof. intros. apply Forall_app. Qed.
Lemma isbytes_firstn : forall n l, isbytes l -> isbytes (firstn n l).
Proof. intros. rewrite <- (firstn_skipn n l) in H. now apply isbytes_app in H. Qed.
Lemma isbytes_skipn : forall n l, isbytes l -> isbytes (skipn n l).
Proof. intros. rewrite <- (firstn_skipn n l) in H. now apply isbytes_app in H. Qed.

(** Bytes of an ASCII string, used for literal keys and magic values. *)
From Coq Require Import String Ascii.
Fixpoint bytes_of_string (s : string) : list N :=
  match s with
  | EmptyString => []
  | String c t => N_of_ascii c :: bytes_of_string t
  end.

(** Parse a hex string (test vectors). *)
Definition hexdigit (c : ascii) : N :=
  let n := N_of_ascii c in
  if (n <? 58)%N then (n - 48)%N else if (n <? 71)%N then (n - 55)%N else (n - 87)%N.
Fixpoint hex (s : string) : list N :=
  match s with
  | String a (String b t) => (16 * hexdigit a + hexdigit b)%N :: hex t
  | _ => []
  end.
Close Scope string_scope.
