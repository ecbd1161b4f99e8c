(** FluentMem.v -- the byte slices of package hash: which backing array the bytes of a Hash value are in.  Fluent.v
    treats slices as values; here they are windows of arrays in memory, as in Go.  The hash objects are left out: the
    digest a call yields is a parameter (C137 says which one it is). *)
From Coq Require Import List NArith Arith Lia Bool.
From Verif Require Import Base.
Import ListNotations.

(** Memory: the contents of the arrays.  A slice: array, offset, length, capacity. *)
Definition mem : Type := list (list N).
Record slice : Type := mksl { s_arr : nat; s_off : nat; s_len : nat; s_cap : nat }.
Definition nil_slice : slice := mksl 0 0 0 0.
(** the bytes a slice shows *)
Definition sbytes (m : mem) (s : slice) : list N := firstn (s_len s) (skipn (s_off s) (nth (s_arr s) m [])).

Section Mem.
(** the spare capacity append leaves in a new array: not fixed by the language *)
Variable slack : nat -> nat -> nat.
(** The append of Go, and append(in, hash[:]...) at the end of the Sum methods (sm3/digest.go, blake256/digest.go:88,
    cubehash/digest.go:96, ...) *)
Definition go_append (m : mem) (s : slice) (d : list N) : mem * slice :=
  let n := s_len s + length d in
  if n <=? s_cap s then
    (upd m (s_arr s) (copy_at (nth (s_arr s) m []) (s_off s + s_len s) d), mksl (s_arr s) (s_off s) n (s_cap s))
  else let k := slack (s_cap s) n in
    (m ++ [sbytes m s ++ d ++ zeros k], mksl (length m) 0 n (n + k)).

(** What a client does.  [MMake a]: it makes an array with contents [a]; [MStore k i b]: it sets byte [i] of array [k].
    The others make a new Hash value: FromBytes(s); X() on value [v], with X(p) = [H p]; Sum(s) on a value whose object
    yields the digest [d]. *)
Inductive mev : Type :=
| MMake (a : list N)
| MStore (k i : nat) (b : N)
| MFrom (s : slice)
| MOne (v : nat) (H : list N -> list N)
| MSum (s : slice) (d : list N).
(** The state: memory, and the field [data] of the values made so far. *)
Definition mstep (st : mem * list slice) (e : mev) : mem * list slice :=
  let '(m, vs) := st in
  match e with
  | MMake a => (m ++ [a], vs)
  | MStore k i b => (upd m k (upd (nth k m []) i b), vs)
  (* hash/hash_from.go:9-13: this.data = data *)
  | MFrom s => (m, vs ++ [s])
  (* hash/md2.go:8-15 and the like: this.data = h.Sum(nil) *)
  | MOne v H => let '(m', s) := go_append m nil_slice (H (sbytes m (nth v vs nil_slice))) in (m', vs ++ [s])
  (* hash/hash_sum.go:40-44: this.data = this.hash.Sum(in) *)
  | MSum s d => let '(m', s') := go_append m s d in (m', vs ++ [s'])
  end.
(** hash/hash_to.go:14-16 ToBytes: the bytes of value [i] *)
Definition to_bytes (st : mem * list slice) (i : nat) : list N := sbytes (fst st) (nth i (snd st) nil_slice).

(** A slice of memory. *)
Definition sok (m : mem) (s : slice) : Prop :=
  s_len s <= s_cap s /\ (s_cap s = 0 \/ s_arr s < length m /\ s_off s + s_cap s <= length (nth (s_arr s) m [])).
(** Byte [i] of array [k] is one of those the slice shows. *)
Definition shows (s : slice) (k i : nat) : Prop := s_arr s = k /\ s_off s <= i < s_off s + s_len s.

Lemma nth_fst : forall (l : list N) n i, i < n -> nth i (firstn n l) 0%N = nth i l 0%N.
Proof. induction l; intros [|n] [|i] H; cbn; auto; try lia. apply IHl. lia. Qed.
Lemma nth_skp : forall (l : list N) n i, nth i (skipn n l) 0%N = nth (n + i) l 0%N.
Proof. induction l; intros [|n] i; cbn; auto; destruct i; auto. Qed.
Lemma sbytes_ext : forall m m' s, (forall i, shows s (s_arr s) i -> nth i (nth (s_arr s) m' []) 0%N = nth i (nth (s_arr s) m []) 0%N) ->
  length (nth (s_arr s) m' []) = length (nth (s_arr s) m []) -> sbytes m' s = sbytes m s.
Proof.
  intros m m' s H L. unfold sbytes. apply (nth_ext _ _ 0%N 0%N).
  - rewrite !firstn_length, !skipn_length. lia.
  - intros i Hi. rewrite firstn_length in Hi. rewrite !nth_fst by lia. rewrite !nth_skp. apply H. split; [reflexivity|lia].
Qed.
Lemma sbytes_len : forall m s, sok m s -> length (sbytes m s) = s_len s.
Proof. intros m s (L & [Z|(A & B)]); unfold sbytes; rewrite firstn_length, skipn_length; lia. Qed.
Lemma sbytes_same : forall m m' s, nth (s_arr s) m' [] = nth (s_arr s) m [] -> sbytes m' s = sbytes m s.
Proof. intros m m' s H. unfold sbytes. now rewrite H. Qed.
Lemma sok_upd : forall m s k a, sok m s -> length a = length (nth k m []) -> sok (upd m k a) s.
Proof.
  intros m s k a (L & H) E. split; auto. destruct H as [H|(A & B)]; [now left|right]. rewrite upd_length. split; auto.
  destruct (Nat.eq_dec k (s_arr s)) as [->|N]; [rewrite nth_upd_same by lia; lia|now rewrite nth_upd_other].
Qed.
Lemma sok_ext : forall m a s, sok m s -> sok (m ++ [a]) s.
Proof. intros m a s (L & H). split; auto. destruct H as [H|(A & B)]; [now left|right]. rewrite app_length, app_nth1 by lia. cbn [length]. lia. Qed.
Lemma sbytes_grow : forall m a s, sok m s -> sbytes (m ++ [a]) s = sbytes m s.
Proof.
  intros m a s (L & [Z|(A & B)]); [|apply sbytes_same; now rewrite app_nth1 by lia].
  unfold sbytes. now replace (s_len s) with 0 by lia.
Qed.
Lemma sok_nil : forall m, sok m nil_slice.
Proof. intros m. split; [apply le_n|now left]. Qed.

(** append yields the bytes of [s] followed by [d], in or out of place *)
Lemma go_append_ok : forall m s d, sok m s -> let '(m', s') := go_append m s d in sok m' s' /\ sbytes m' s' = sbytes m s ++ d.
Proof.
  intros m s d K. pose proof K as (L & H). unfold go_append. destruct (s_len s + length d <=? s_cap s) eqn:E.
  - apply Nat.leb_le in E. destruct H as [Z|(A & B)].
    + assert (D : d = []) by (destruct d; auto; cbn in E; lia). subst d. unfold sok, sbytes. cbn [s_len s_cap s_arr s_off length].
      split; [split; [lia|now left]|]. replace (s_len s) with 0 by lia. reflexivity.
    + set (a := nth (s_arr s) m []) in *. assert (LC : length (copy_at a (s_off s + s_len s) d) = length a) by (apply copy_at_length; lia).
      split.
      * split; cbn [s_len s_cap s_arr s_off]; [lia|]. right. rewrite upd_length, nth_upd_same by lia. lia.
      * unfold sbytes. cbn [s_len s_cap s_arr s_off]. rewrite nth_upd_same by lia. fold a.
        rewrite firstn_skipn_comm. rewrite Nat.add_assoc. rewrite copy_at_firstn by lia. rewrite skipn_app, firstn_length, Nat.min_l by lia.
        replace (s_off s - (s_off s + s_len s)) with 0 by lia. cbn [skipn]. f_equal. now rewrite firstn_skipn_comm.
  - split.
    + split; cbn [s_len s_cap s_arr s_off]; [lia|]. right. rewrite app_length, nth_middle. cbn [length]. split; [lia|].
      rewrite !app_length, (sbytes_len _ _ K). unfold zeros. rewrite repeat_length. lia.
    + unfold sbytes at 1. cbn [s_len s_cap s_arr s_off]. rewrite nth_middle. cbn [skipn]. rewrite <- (sbytes_len _ _ K).
      rewrite app_assoc, <- app_length, firstn_app, firstn_all, Nat.sub_diag, firstn_O, app_nil_r. reflexivity.
Qed.
(** append in place: what the other slices show *)
Lemma go_append_other : forall m s d t, sok m s -> sok m t ->
  (s_len s + length d <= s_cap s -> forall i, s_off s + s_len s <= i < s_off s + s_len s + length d -> ~ shows t (s_arr s) i) ->
  let '(m', s') := go_append m s d in sok m' t /\ sbytes m' t = sbytes m t.
Proof.
  intros m s d t (L & H) T N. unfold go_append. destruct (s_len s + length d <=? s_cap s) eqn:E; [|split; [now apply sok_ext|now apply sbytes_grow]].
  apply Nat.leb_le in E. specialize (N E). set (a := nth (s_arr s) m []) in *.
  destruct H as [Z|(A & B)].
  { assert (D : d = []) by (destruct d; auto; cbn in E; lia). subst d.
    destruct (le_lt_dec (s_off s + s_len s) (length a)) as [Q|Q].
    - rewrite copy_at_nil by exact Q. split; [apply sok_upd; auto|]. apply sbytes_same.
      destruct (Nat.eq_dec (s_arr s) (s_arr t)) as [X|X]; [|now rewrite nth_upd_other].
      destruct (le_lt_dec (length m) (s_arr s)) as [Y|Y]; [rewrite <- X, !nth_overflow by (rewrite ?upd_length; lia); reflexivity|].
      rewrite <- X, nth_upd_same by lia. reflexivity.
    - assert (CC : copy_at a (s_off s + s_len s) [] = a).
      { unfold copy_at. rewrite firstn_nil, Nat.min_0_r, firstn_all2, skipn_all2 by (cbn; lia). now rewrite app_nil_r. }
      rewrite CC. split; [apply sok_upd; auto|]. apply sbytes_same.
      destruct (Nat.eq_dec (s_arr s) (s_arr t)) as [X|X]; [|now rewrite nth_upd_other].
      destruct (le_lt_dec (length m) (s_arr s)) as [Y|Y]; [rewrite <- X, !nth_overflow by (rewrite ?upd_length; lia); reflexivity|].
      rewrite <- X, nth_upd_same by lia. reflexivity. }
  assert (LC : length (copy_at a (s_off s + s_len s) d) = length a) by (apply copy_at_length; lia).
  split; [apply sok_upd; auto|].
  destruct (Nat.eq_dec (s_arr s) (s_arr t)) as [X|X]; [|apply sbytes_same; now rewrite nth_upd_other].
  apply sbytes_ext; rewrite <- X, nth_upd_same by lia; [|exact LC]. fold a. intros i (_ & I).
  assert (O : i < s_off s + s_len s \/ s_off s + s_len s + length d <= i).
  { destruct (le_lt_dec (s_off s + s_len s) i); [|lia]. destruct (le_lt_dec (s_off s + s_len s + length d) i); [lia|].
    exfalso. apply (N i); [lia|]. split; auto. }
  unfold copy_at. rewrite (@firstn_all2 _ (length a - (s_off s + s_len s)) d) by lia. rewrite Nat.min_r by lia.
  destruct O as [O|O].
  - rewrite app_nth1 by (rewrite firstn_length; lia). now apply nth_fst.
  - rewrite app_nth2; rewrite firstn_length, Nat.min_l by lia; [|lia]. rewrite app_nth2 by lia. rewrite nth_skp. f_equal. lia.
Qed.
Lemma store_other : forall m k i b t, sok m t -> ~ shows t k i -> sok (upd m k (upd (nth k m []) i b)) t /\ sbytes (upd m k (upd (nth k m []) i b)) t = sbytes m t.
Proof.
  intros m k i b t T N. split; [apply sok_upd; auto; apply upd_length|].
  destruct (Nat.eq_dec k (s_arr t)) as [X|X]; [|apply sbytes_same; now rewrite nth_upd_other].
  destruct (le_lt_dec (length m) k) as [Y|Y].
  { apply sbytes_same. rewrite <- X, !nth_overflow by (rewrite ?upd_length; lia). reflexivity. }
  apply sbytes_ext; rewrite <- X, nth_upd_same by lia; [|apply upd_length]. intros j J. apply nth_upd_other. intros ->. now apply N.
Qed.
End Mem.
