(** JhP3.v -- F_8, bits and bytes: the code against SpecJh.v (no model definitions here). *)
From Coq Require Import List NArith Arith Lia Bool.
From Verif Require Import Base Words HashAPI Buf MD Refine EschP Kupyna Ascon SpecJh Jh Jh2 JhP JhP2.
Import ListNotations.
Opaque jh_C jh_rc jh2_C rho_tab jh_E8 jh_e8 jh2_e8.

(** ** Bits of bytes *)
Lemma bits_length : forall l, length (bits_of_bytes l) = 8 * length l.
Proof. induction l as [|a l IH]; [reflexivity|]. unfold bits_of_bytes in *. cbn [flat_map]. rewrite app_length, map_length, seq_length, IH. cbn [length]. lia. Qed.
Lemma bits_at : forall l t, t < 8 * length l -> bit_at (bits_of_bytes l) t = N.testbit (at_ l (t / 8)) (N.of_nat (7 - t mod 8)).
Proof.
  induction l as [|a l IH]; intros t H; [cbn [length] in H; lia|]. cbn [length] in H. unfold bit_at, bits_of_bytes. cbn [flat_map].
  destruct (Nat.lt_ge_cases t 8) as [G|G].
  - rewrite app_nth1 by (rewrite map_length, seq_length; exact G). rewrite (Nat.div_small t 8), (Nat.mod_small t 8) by exact G.
    apply (bit_map_seq (fun j => N.testbit a (N.of_nat (7 - j))) 8 t G).
  - rewrite app_nth2 by (rewrite map_length, seq_length; exact G). rewrite map_length, seq_length. fold (bits_of_bytes l). fold (bit_at (bits_of_bytes l) (t - 8)). rewrite IH by lia.
    replace t with (t - 8 + 1 * 8) at 3 4 by lia. rewrite Nat.div_add, Nat.mod_add by lia. rewrite Nat.add_1_r. reflexivity.
Qed.
Lemma at_concat : forall (f : N -> list N) w h j, (forall x, length (f x) = w) -> 0 < w -> j < w * length h -> at_ (concat (map f h)) j = at_ (f (at_ h (j / w))) (j mod w).
Proof.
  intros f w h j Hf Hw. revert j. induction h as [|a h IH]; intros j H; [cbn [length] in H; lia|]. cbn [map concat length] in *. unfold at_. destruct (Nat.lt_ge_cases j w) as [G|G].
  - rewrite app_nth1 by (now rewrite Hf). rewrite (Nat.div_small j w), (Nat.mod_small j w) by exact G. reflexivity.
  - rewrite app_nth2 by (now rewrite Hf). rewrite Hf. fold (at_ (concat (map f h)) (j - w)). rewrite IH by lia.
    replace j with (j - w + 1 * w) at 3 4 by lia. rewrite Nat.div_add, Nat.mod_add by lia. rewrite Nat.add_1_r. reflexivity.
Qed.
Lemma w8_b : forall x c, (c < 8)%N -> N.testbit (w8 x) c = N.testbit x c.
Proof. intros x c H. unfold w8. rewrite N.land_spec. change 255%N with (N.ones 8). rewrite N.ones_spec_low by exact H. apply andb_true_r. Qed.
Lemma at_be_bytes : forall k w i, i < k -> at_ (be_bytes k w) i = at_ (le_bytes k w) (k - 1 - i).
Proof. intros k w i H. unfold be_bytes, at_. rewrite rev_nth by (rewrite le_bytes_length; exact H). rewrite le_bytes_length. f_equal. lia. Qed.
Lemma div64 : forall t, t / 8 / 8 = t / 64 /\ t / 8 mod 8 = t mod 64 / 8 /\ t mod 8 = (t mod 64) mod 8.
Proof.
  intros t. pose proof (Nat.mod_upper_bound t 8 ltac:(lia)) as B. assert (E : t mod 64 = t mod 8 + (t / 8) mod 8 * 8) by (change 64 with (8 * 8); rewrite (Nat.mod_mul_r t 8 8) by lia; lia).
  split; [rewrite Nat.div_div by lia; reflexivity|]. rewrite E. rewrite Nat.div_add, Nat.mod_add by lia. rewrite (Nat.div_small (t mod 8)) by exact B. rewrite Nat.mod_mod by lia. split; [lia|reflexivity].
Qed.
(** The bit string of a list of words, little and big endian. *)
Lemma words_le_bit : forall h t, t < 64 * length h -> bit_at (bits_of_bytes (concat (map (le_bytes 8) h))) t = N.testbit (at_ h (t / 64)) (posLE (t mod 64)).
Proof.
  intros h t H. rewrite bits_at by (rewrite concat_le_length; lia). rewrite (at_concat (le_bytes 8) 8) by (try (intros; apply le_bytes_length); try lia; apply Nat.div_lt_upper_bound; lia).
  destruct (div64 t) as (D & M & M2).
  rewrite D, M, M2. set (u := t mod 64). assert (Hu : u < 64) by (apply Nat.mod_upper_bound; lia). clearbody u. assert (U8 : u / 8 < 8) by (apply Nat.div_lt_upper_bound; lia).
  rewrite at_le_bytes by exact U8. pose proof (Nat.mod_upper_bound u 8 ltac:(lia)) as Um. rewrite w8_b by lia. rewrite N.shiftr_spec'. unfold posLE. f_equal. lia.
Qed.
Lemma words_be_bit : forall h t, t < 64 * length h -> bit_at (bits_of_bytes (concat (map (be_bytes 8) h))) t = N.testbit (at_ h (t / 64)) (posBE (t mod 64)).
Proof.
  intros h t H. rewrite bits_at by (rewrite concat_be_length; lia). rewrite (at_concat (be_bytes 8) 8) by (try (intros; apply be_bytes_length); try lia; apply Nat.div_lt_upper_bound; lia).
  destruct (div64 t) as (D & M & M2).
  rewrite D, M, M2. set (u := t mod 64). assert (Hu : u < 64) by (apply Nat.mod_upper_bound; lia). clearbody u. assert (U8 : u / 8 < 8) by (apply Nat.div_lt_upper_bound; lia).
  rewrite at_be_bytes by exact U8. rewrite at_le_bytes by lia. pose proof (Nat.mod_upper_bound u 8 ltac:(lia)) as Um. rewrite w8_b by lia. rewrite N.shiftr_spec'. unfold posBE. f_equal.
  pose proof (Nat.div_mod u 8 ltac:(lia)). lia.
Qed.
Lemma bits_ext : forall n (a b : list bool), length a = n -> length b = n -> (forall t, t < n -> bit_at a t = bit_at b t) -> a = b.
Proof. intros n a b La Lb H. apply (nth_ext a b false false); [congruence|]. intros t Ht. apply H. lia. Qed.
Lemma state_length : forall pos h, length (state_of pos h) = 1024.
Proof. intros. unfold state_of. now rewrite map_length, seq_length. Qed.
Lemma state_le : forall h, length h = 16 -> state_of posLE h = bits_of_bytes (concat (map (le_bytes 8) h)).
Proof.
  intros h L. apply (bits_ext 1024); [apply state_length|rewrite bits_length, concat_le_length, L; reflexivity|]. intros t Ht. unfold state_of. rewrite bit_map_seq by exact Ht. rewrite words_le_bit by lia. reflexivity.
Qed.
Lemma state_be : forall h, length h = 16 -> state_of posBE h = bits_of_bytes (concat (map (be_bytes 8) h)).
Proof.
  intros h L. apply (bits_ext 1024); [apply state_length|rewrite bits_length, concat_be_length, L; reflexivity|]. intros t Ht. unfold state_of. rewrite bit_map_seq by exact Ht. rewrite words_be_bit by lia. reflexivity.
Qed.
(** bytes_of_bits inverts bits_of_bytes. *)
Lemma byte_bits : forall b, isbyte b -> byte_of_bits (map (fun j => N.testbit b (N.of_nat (7 - j))) (seq 0 8)) = b.
Proof.
  intros b Hb. assert (K : forallb (fun n => (byte_of_bits (map (fun j => N.testbit (N.of_nat n) (N.of_nat (7 - j))) (seq 0 8)) =? N.of_nat n)%N) (seq 0 256) = true) by (vm_compute; reflexivity).
  unfold isbyte in Hb. rewrite forallb_forall in K. specialize (K (N.to_nat b) ltac:(apply in_seq; lia)). rewrite N2Nat.id in K. now apply N.eqb_eq in K.
Qed.
Lemma chunks_cons8 : forall (a b : list bool), length a = 8 -> chunks 8 (a ++ b) = a :: chunks 8 b.
Proof. intros a b L. rewrite chunks_app by lia. rewrite (rest_one _ 8 a) by (lia || exact L). rewrite (chunks_one _ 8 a) by (lia || exact L). reflexivity. Qed.
Lemma bytes_bits : forall l, isbytes l -> bytes_of_bits (bits_of_bytes l) = l.
Proof.
  induction 1 as [|b l Hb Hl IH]; [reflexivity|]. unfold bytes_of_bits, bits_of_bytes in *. cbn [flat_map]. rewrite chunks_cons8 by (now rewrite map_length, seq_length). cbn [map]. rewrite IH. f_equal. now apply byte_bits.
Qed.

(** ** F_8 *)
Definition xorlo (w : nat -> N) (x : list N) : list N := fold_left (fun x i => upd x i (N.lxor (at_ x i) (w i))) (seq 0 8) x.
Definition xorhi (w : nat -> N) (x : list N) : list N := fold_left (fun x i => upd x (8 + i) (N.lxor (at_ x (8 + i)) (w i))) (seq 0 8) x.
Lemma xorlo_at : forall w x j, length x = 16 -> j < 16 -> at_ (xorlo w x) j = if j <? 8 then N.lxor (at_ x j) (w j) else at_ x j.
Proof. intros w x j L H. des16 x L. do 16 (destruct j as [|j]; [reflexivity|]). lia. Qed.
Lemma xorhi_at : forall w x j, length x = 16 -> j < 16 -> at_ (xorhi w x) j = if j <? 8 then at_ x j else N.lxor (at_ x j) (w (j - 8)).
Proof. intros w x j L H. des16 x L. do 16 (destruct j as [|j]; [reflexivity|]). lia. Qed.
Lemma xorlo_len : forall w x, length (xorlo w x) = length x.
Proof. intros. unfold xorlo. cbn [fold_left seq]. now rewrite !upd_length. Qed.
Lemma xorhi_len : forall w x, length (xorhi w x) = length x.
Proof. intros. unfold xorhi. cbn [fold_left seq]. now rewrite !upd_length. Qed.
Lemma F8_gen : forall pos w x e M, length x = 16 -> (forall t, t < 512 -> bit_at M t = N.testbit (w (t / 64)) (pos (t mod 64))) ->
  (length (e (xorlo w x)) = 16) -> jh_E8 (state_of pos (xorlo w x)) = state_of pos (e (xorlo w x)) ->
  jh_F8 (state_of pos x) M = state_of pos (xorhi w (e (xorlo w x))).
Proof.
  intros pos w x e M L HM Le HE. unfold jh_F8. cbv zeta.
  assert (EA : map (fun t => xorb (bit_at (state_of pos x) t) ((t <? 512) && bit_at M t)) (seq 0 1024) = state_of pos (xorlo w x)).
  { unfold state_of at 2. apply map_ext_in. intros t Ht. apply in_seq in Ht. unfold state_of. rewrite bit_map_seq by lia.
    assert (D : t / 64 < 16) by (apply Nat.div_lt_upper_bound; lia). rewrite xorlo_at by assumption. destruct (Nat.ltb_spec t 512) as [G|G].
    - assert (t / 64 < 8) by (apply Nat.div_lt_upper_bound; lia). destruct (Nat.ltb_spec (t / 64) 8); [|lia]. rewrite HM, N.lxor_spec by exact G. reflexivity.
    - assert (8 <= t / 64) by (apply Nat.div_le_lower_bound; lia). destruct (Nat.ltb_spec (t / 64) 8); [lia|]. cbn [andb]. apply xorb_false_r. }
  rewrite EA, HE. set (y := e (xorlo w x)) in *. clearbody y. unfold state_of at 2. apply map_ext_in. intros t Ht. apply in_seq in Ht. unfold state_of. rewrite bit_map_seq by lia.
  assert (D : t / 64 < 16) by (apply Nat.div_lt_upper_bound; lia). rewrite xorhi_at by assumption. destruct (Nat.ltb_spec t 512) as [G|G]; cbn [negb andb].
  - assert (t / 64 < 8) by (apply Nat.div_lt_upper_bound; lia). destruct (Nat.ltb_spec (t / 64) 8); [|lia]. apply xorb_false_r.
  - assert (8 <= t / 64) by (apply Nat.div_le_lower_bound; lia). destruct (Nat.ltb_spec (t / 64) 8); [lia|]. rewrite HM, N.lxor_spec by lia. f_equal.
    assert (E : t = t - 512 + 8 * 64) by lia. assert (E1 : t / 64 - 8 = (t - 512) / 64) by (rewrite E at 1; rewrite Nat.div_add by lia; lia). assert (E2 : t mod 64 = (t - 512) mod 64) by (rewrite E at 1; now rewrite Nat.mod_add by lia).
    now rewrite E1, E2.
Qed.
Lemma chunk_words : forall s : list N, length s = 64 -> s = concat (map (fun i => slice s (8 * i) (8 * i + 8)) (seq 0 8)).
Proof.
  intros s L. do 64 (destruct s as [|? s]; [discriminate L|]). destruct s; [reflexivity|discriminate L].
Qed.
Lemma slice_bytes : forall (s : list N) a b, isbytes s -> isbytes (slice s a b).
Proof. intros s a b H. unfold slice. now apply isbytes_firstn, isbytes_skipn. Qed.
Lemma slice_len8 : forall (s : list N) i, length s = 64 -> i < 8 -> length (slice s (8 * i) (8 * i + 8)) = 8.
Proof. intros s i L H. unfold slice. rewrite firstn_length, skipn_length. lia. Qed.
Lemma msg_le : forall s, length s = 64 -> isbytes s -> s = concat (map (le_bytes 8) (map (fun i => le_val (slice s (8 * i) (8 * i + 8))) (seq 0 8))).
Proof.
  intros s L H. rewrite (chunk_words s L) at 1. f_equal. rewrite map_map. apply map_ext_in. intros i Hi. apply in_seq in Hi.
  pose proof (le_bytes_le_val (slice s (8 * i) (8 * i + 8)) (slice_bytes s _ _ H)) as K. rewrite slice_len8 in K by (lia || exact L). now symmetry.
Qed.
Lemma msg_be : forall s, length s = 64 -> isbytes s -> s = concat (map (be_bytes 8) (map (fun i => be_val (slice s (8 * i) (8 * i + 8))) (seq 0 8))).
Proof.
  intros s L H. rewrite (chunk_words s L) at 1. f_equal. rewrite map_map. apply map_ext_in. intros i Hi. apply in_seq in Hi.
  pose proof (be_bytes_be_val (slice s (8 * i) (8 * i + 8)) (slice_bytes s _ _ H)) as K. rewrite slice_len8 in K by (lia || exact L). now symmetry.
Qed.
Theorem jh_f8_ok : forall x s, length x = 16 -> Forall hi0 x -> length s = 64 -> isbytes s ->
  jh_F8 (state_of posLE x) (bits_of_bytes s) = state_of posLE (jh_f8 x s) /\ length (jh_f8 x s) = 16 /\ Forall hi0 (jh_f8 x s).
Proof.
  intros x s L H0 Ls Hs. set (w := fun i => le_val (slice s (8 * i) (8 * i + 8))). change (jh_f8 x s) with (xorhi w (jh_e8 (xorlo w x))).
  assert (Hw : forall i, i < 8 -> hi0 (w i)).
  { intros i Hi. apply hi0_lt. unfold w. pose proof (le_val_lt (slice s (8 * i) (8 * i + 8)) (slice_bytes s _ _ Hs)) as K. rewrite slice_len8 in K by assumption. exact K. }
  assert (H1 : Forall hi0 (xorlo w x)).
  { unfold xorlo. cbn [fold_left seq]. repeat (apply hi0_upd; [|apply hi0_lxor; [apply hi0_at|apply Hw; lia]]); try exact H0; repeat (apply hi0_upd; [|apply hi0_lxor; [apply hi0_at|apply Hw; lia]]); exact H0. }
  destruct (jh_e8_ok (xorlo w x) ltac:(now rewrite xorlo_len) H1) as (A & B & C).
  split; [|split; [now rewrite xorhi_len|]].
  - apply F8_gen; auto. intros t Ht. rewrite (msg_le s Ls Hs). fold w. rewrite words_le_bit by (rewrite map_length, seq_length; lia).
    rewrite (at_map_seq0 w 8) by (apply Nat.div_lt_upper_bound; lia). reflexivity.
  - set (y := jh_e8 (xorlo w x)) in *. clearbody y. 
    assert (G : forall l y, Forall (fun i => i < 8) l -> Forall hi0 y -> Forall hi0 (fold_left (fun x i => upd x (8 + i) (N.lxor (at_ x (8 + i)) (w i))) l y)).
    { induction l as [|a l IH]; intros z Hl Hz; [exact Hz|]. inversion Hl; subst. cbn [fold_left]. apply IH; auto. apply hi0_upd; [exact Hz|]. apply hi0_lxor; [now apply hi0_at|now apply Hw]. }
    apply G; [|exact C]. apply Forall_forall. intros i Hi. apply in_seq in Hi. lia.
Qed.
Theorem jh2_f8_ok : forall x s, length x = 16 -> length s = 64 -> isbytes s ->
  jh_F8 (state_of posBE x) (bits_of_bytes s) = state_of posBE (jh2_block x s) /\ length (jh2_block x s) = 16.
Proof.
  intros x s L Ls Hs. set (w := at_ (map (fun i => be_val (slice s (8 * i) (8 * i + 8))) (seq 0 8))). change (jh2_block x s) with (xorhi w (jh2_e8 (xorlo w x))).
  destruct (jh2_e8_ok (xorlo w x) ltac:(now rewrite xorlo_len)) as (A & B).
  split; [|now rewrite xorhi_len]. apply F8_gen; auto. intros t Ht. rewrite (msg_be s Ls Hs) at 1. rewrite words_be_bit by (rewrite map_length, seq_length; lia). reflexivity.
Qed.
