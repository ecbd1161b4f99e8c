(** Kupyna.v -- model of /repo/kupyna (kupyna.go, kupyna256.go, kupyna384.go, kupyna512.go,
    kmac*.go, kbox.go, utils.go; tables in KupynaTab.v) and its refinement proof.

    kupyna256.go and kupyna512.go are the same text up to the number of columns n (8/16), the
    number of rounds t (10/14) and the source column of the last table (i-7 / i-11); the model is
    written once with these three parameters.  tools/kup.py checks that every one of the 72
    unrolled assignments of G, G1, G2 in the two files has exactly the shape used here. *)
From Coq Require Import List NArith Arith Lia Bool.
From Verif Require Import Base Words HashAPI Buf MD Refine Stream KupynaTab SpecKupyna.
Import ListNotations.

Section Code.
Variables n t s7 : nat.

(** byte(w >> k) *)
Definition kbyte (w : N) (k : N) : nat := N.to_nat (w8 (N.shiftr w k)).
(** kupyna256.go:101-110 / kupyna512.go:101-118 G: column i. *)
Definition kG1col (x : list N) (i : nat) : N :=
  N.lxor (N.lxor (N.lxor (N.lxor (N.lxor (N.lxor (N.lxor
    (at_ kup_T0 (kbyte (at_ x i) 0))
    (at_ kup_T1 (kbyte (at_ x ((i + n - 1) mod n)) 8)))
    (at_ kup_T2 (kbyte (at_ x ((i + n - 2) mod n)) 16)))
    (at_ kup_T3 (kbyte (at_ x ((i + n - 3) mod n)) 24)))
    (at_ kup_T4 (kbyte (at_ x ((i + n - 4) mod n)) 32)))
    (at_ kup_T5 (kbyte (at_ x ((i + n - 5) mod n)) 40)))
    (at_ kup_T6 (kbyte (at_ x ((i + n - 6) mod n)) 48)))
    (at_ kup_T7 (kbyte (at_ x ((i + n - s7) mod n)) 56)).
Definition kG (x : list N) : list N := map (kG1col x) (seq 0 n).
(** the round constants: (i << 4) ^ round,  r ^ ((((n-1-i) * 0x10) ^ round) << 56) *)
Definition kcx (i : nat) (round : N) (w : N) : N := N.lxor (N.lxor w (N.shiftl (N.of_nat i) 4)) round.
Definition kcp (i : nat) (round : N) : N :=
  N.lxor 0x00F0F0F0F0F0F0F3 (shl64 (N.lxor (N.of_nat (n - 1 - i) * 0x10) round) 56).
(** kupyna256.go:112-121 / 512: 120-137 G1 *)
Definition kG1 (x : list N) (round : N) : list N := map (fun i => kcx i round (kG1col x i)) (seq 0 n).
(** kupyna256.go:123-134 / 512: 139-158 G2 *)
Definition kG2 (x : list N) (round : N) : list N := map (fun i => add64 (kG1col x i) (kcp i round)) (seq 0 n).
(** P: x[idx] ^= (idx << 4) ^ round; G1(x, y, round+1); G(y, x). Result: the new x. *)
Definition kP (x : list N) (round : N) : list N :=
  let x1 := map (fun i => N.lxor (at_ x i) (N.lxor (N.shiftl (N.of_nat i) 4) round)) (seq 0 n) in
  kG (kG1 x1 (round + 1)).
(** Q *)
Definition kQ (x : list N) (round : N) : list N :=
  let x1 := map (fun i => add64 (at_ x i) (kcp i round)) (seq 0 n) in
  kG (kG2 x1 (round + 1)).
(** for r = 0; r < t; r += 2 *)
Definition krs : list N := map (fun i => 2 * N.of_nat i)%N (seq 0 (t / 2)).
Definition kxor (a b : list N) : list N := map (fun i => N.lxor (at_ a i) (at_ b i)) (seq 0 n).
(** outputTransform *)
Definition kout (s : list N) : list N := kxor s (fold_left kP krs s).
(** utils.go:15-25 bytesToUint64s: block is called with the whole rest of the input; only the
    first n words are read, so the model passes one block. *)
Definition kwords (b : list N) : list N := map (fun i => le_val (slice b (8 * i) (8 * i + 8))) (seq 0 (length b / 8)).
(** transform / block *)
Definition ktransform (s b : list N) : list N :=
  let '(ap, aq) := fold_left (fun '(ap, aq) r => (kP ap r, kQ aq r)) krs (kxor s b, b) in
  kxor s (kxor ap aq).
Definition kblock (s b : list N) : list N := ktransform s (kwords b).
(** utils.go:27-37 uint64sToBytes *)
Definition kbytes (w : list N) : list N := concat (map (le_bytes 8) w).

(** Reset / New: s zero except s[0] = 64 / 128. *)
Definition knew : dig (list N) := mkdig (N.of_nat (8 * n) :: zeros (n - 1)) (zeros (8 * n)) 0 0.
Definition kreset (d : dig (list N)) : dig (list N) := knew.
(** Write *)
Definition kwrite : dig (list N) -> list N -> dig (list N) * nat := write_std (8 * n) kblock.
(** checkSum (on the struct copy): the length goes to offset 8n-12 (52 / 116). *)
Definition kcheckSum (d : dig (list N)) : list N :=
  let x1 := upd (dx d) (dnx d) 0x80%N in
  let nx1 := dnx d + 1 in
  let '(s2, x2, nx2) :=
    if 8 * n - 12 <? nx1
    then let x' := copy_at x1 nx1 (zeros (8 * n)) in (kblock (ds d) x', x', 0)
    else (ds d, x1, nx1) in
  let x3 := copy_at x2 nx2 (zeros (8 * n)) in
  let s3 := kblock s2 (copy_at x3 (8 * n - 12) (le_bytes 8 (mul64 (dlen d) 8))) in
  skipn (4 * n) (kbytes (kout s3)).
Definition ksum (d : dig (list N)) (inp : list N) : dig (list N) * list N := (d, inp ++ kcheckSum d).
Definition kimpl : impl (dig (list N)) := mkimpl kwrite ksum kreset.
End Code.

(** kupyna256.go, kupyna512.go *)
Definition kup256_new := knew 8. Definition kup256_impl := kimpl 8 10 7.
Definition kup512_new := knew 16. Definition kup512_impl := kimpl 16 14 11.
(** kupyna384.go: Sum drops the first 16 bytes of the 512-bit result. *)
Definition kup384_sum (d : dig (list N)) (inp : list N) : dig (list N) * list N :=
  let '(d', h) := ksum 16 14 11 d [] in (d', inp ++ skipn 16 h).
Definition kup384_impl : impl (dig (list N)) := mkimpl (kwrite 16 14 11) kup384_sum (kreset 16).
(** kupyna.go: Sum256 / Sum384 / Sum512 (copy into a zeroed array of the result size). *)
Definition oneshot {D} (I : impl D) (new : D) (size : nat) (data : list N) : list N :=
  copy_at (zeros size) 0 (snd (i_sum I (fst (i_write I new data)) [])).
Definition kup_Sum256 := oneshot kup256_impl kup256_new 32.
Definition kup_Sum384 := oneshot kup384_impl kup512_new 48.
Definition kup_Sum512 := oneshot kup512_impl kup512_new 64.

(** kmac256.go / kmac384.go / kmac512.go.  The struct holds the hash as an interface value, i.e.
    a pointer, so the struct copy in Sum shares it with the receiver. *)
Record kmac : Type := mkkmac { km_h : dig (list N); km_ik : list N; km_len : N }.
Section Kmac.
Variable I : impl (dig (list N)).
Variable h0 : dig (list N).
Variable bs : nat.
Variables (kl : nat) (kpad : list N).
(** kbox.go dpad *)
Definition kdpad : list N := 0x80%N :: zeros 127.
Definition kmac_init (key : list N) : kmac :=
  let h := fst (i_write I h0 key) in
  let h := fst (i_write I h kpad) in
  mkkmac h (map (fun b => N.lxor b 255) key) 0.
(** NewKmacN: KeySizeError unless the key has the right length. *)
Definition NewKmacN (key : list N) : option kmac := if length key =? kl then Some (kmac_init key) else None.
Definition kmac_write (d : kmac) (p : list N) : kmac * nat :=
  let '(h, c) := i_write I (km_h d) p in
  (mkkmac h (km_ik d) (add64 (km_len d) (N.of_nat (length p))), c).
Definition kmac_reset (d : kmac) : kmac := mkkmac (i_reset I (km_h d)) (km_ik d) (km_len d).
(** checkSum returns the hash object it leaves behind and the tag. *)
Definition kmac_pad_size (len : N) : nat :=
  let lim := N.of_nat (bs - 12) in
  N.to_nat (if (len <? lim)%N then lim - 1 - len else N.of_nat (bs - 1) - (len - lim) mod N.of_nat bs)%N.
Definition kmac_checkSum (d : kmac) : dig (list N) * list N :=
  let h := fst (i_write I (km_h d) (firstn (kmac_pad_size (km_len d) + 1) kdpad)) in
  let h := fst (i_write I h (le_bytes 8 (mul64 (km_len d) 8))) in
  let h := fst (i_write I h (slice kdpad 16 20)) in
  let h := fst (i_write I h (km_ik d)) in
  i_sum I h [].
(** Sum: d0 := *d copies the struct but d0.h is d.h. *)
Definition kmac_sum (d : kmac) (inp : list N) : kmac * list N :=
  let '(h, tag) := kmac_checkSum d in
  (mkkmac h (km_ik d) (km_len d), inp ++ tag).
Definition kmac_impl : impl kmac := mkimpl kmac_write kmac_sum kmac_reset.
End Kmac.
(** kbox.go kpad32, kpad48, kpad64 *)
Definition kpad32 : list N := upd (0x80%N :: zeros 31) 21 0x01%N.
Definition kpad48 : list N := upd (upd (0x80%N :: zeros 79) 68 0x80%N) 69 0x01%N.
Definition kpad64 : list N := upd (0x80%N :: zeros 63) 53 0x02%N.
Definition NewKmac256 := NewKmacN kup256_impl kup256_new 32 kpad32.
Definition kmac256_impl := kmac_impl kup256_impl 64.
Definition NewKmac384 := NewKmacN kup384_impl kup512_new 48 kpad48.
Definition kmac384_impl := kmac_impl kup384_impl 128.
Definition NewKmac512 := NewKmacN kup512_impl kup512_new 64 kpad64.
Definition kmac512_impl := kmac_impl kup512_impl 128.
(** kmac.go NewKmac: dispatch on the key length. *)
Inductive kmac_kind : Type := KM256 | KM384 | KM512.
Definition NewKmac (key : list N) : option (kmac_kind * kmac) :=
  match length key with
  | 32 => option_map (pair KM256) (NewKmac256 key)
  | 48 => option_map (pair KM384) (NewKmac384 key)
  | 64 => option_map (pair KM512) (NewKmac512 key)
  | _ => None
  end.

(** ** Proofs: words against byte columns *)
Definition wcols (ws : list N) : list (list N) := map (le_bytes 8) ws.

Lemma le_bytes_map : forall k w, le_bytes k w = map (fun i => w8 (N.shiftr w (8 * N.of_nat i))) (seq 0 k).
Proof.
  induction k as [|k IH]; intros w; [reflexivity|]. cbn [le_bytes seq map].
  apply (f_equal2 cons); [reflexivity|].
  rewrite IH, <- seq_shift, map_map. apply map_ext. intros i. f_equal.
  rewrite N.shiftr_shiftr. f_equal. lia.
Qed.
Lemma at_map_seq : forall (f : nat -> N) n i, i < n -> at_ (map f (seq 0 n)) i = f i.
Proof.
  intros. unfold at_. rewrite (nth_indep _ 0%N (f 0)) by (now rewrite map_length, seq_length).
  rewrite map_nth, seq_nth by assumption. reflexivity.
Qed.
Lemma at_le_bytes : forall k w i, i < k -> at_ (le_bytes k w) i = w8 (N.shiftr w (8 * N.of_nat i)).
Proof. intros. rewrite le_bytes_map. now apply at_map_seq. Qed.
Lemma nth_wcols : forall ws j, j < length ws -> nth j (wcols ws) [] = le_bytes 8 (at_ ws j).
Proof.
  intros. unfold wcols, at_. rewrite (nth_indep _ [] (le_bytes 8 0)) by (now rewrite map_length). apply map_nth.
Qed.
Lemma w8_shiftr_lxor : forall a b k, w8 (N.shiftr (N.lxor a b) k) = N.lxor (w8 (N.shiftr a k)) (w8 (N.shiftr b k)).
Proof.
  intros. rewrite N.shiftr_lxor. unfold w8. apply N.bits_inj. intros i.
  rewrite !N.lxor_spec, !N.land_spec, N.lxor_spec. destruct (N.testbit _ i), (N.testbit _ i), (N.testbit _ i); reflexivity.
Qed.

Definition kup_tab (r : nat) : list N := nth r [kup_T0; kup_T1; kup_T2; kup_T3; kup_T4; kup_T5; kup_T6; kup_T7] [].
Lemma kup_tab_check_ok :
  forallb (fun r => forallb (fun i => forallb (fun b =>
    N.eqb (w8 (N.shiftr (at_ (kup_tab r) b) (8 * N.of_nat i)))
          (kup_gmul (at_ kup_v ((8 + r - i) mod 8)) (at_ (kup_pi r) b))) (seq 0 256)) (seq 0 8)) (seq 0 8) = true.
Proof. vm_compute. reflexivity. Qed.
Lemma kup_tab_ok : forall r i b, r < 8 -> i < 8 -> b < 256 ->
  w8 (N.shiftr (at_ (kup_tab r) b) (8 * N.of_nat i)) = kup_gmul (at_ kup_v ((8 + r - i) mod 8)) (at_ (kup_pi r) b).
Proof.
  intros r i b Hr Hi Hb.
  pose proof kup_tab_check_ok as C.
  rewrite forallb_forall in C. specialize (C r ltac:(apply in_seq; lia)).
  rewrite forallb_forall in C. specialize (C i ltac:(apply in_seq; lia)).
  rewrite forallb_forall in C. specialize (C b ltac:(apply in_seq; lia)). now apply N.eqb_eq.
Qed.
Definition kup_tab64 : bool := forallb (fun r => forallb (fun b => N.ltb (at_ (kup_tab r) b) (2 ^ 64)) (seq 0 256)) (seq 0 8).
Lemma kup_tab_is64 : forall r b, r < 8 -> b < 256 -> is64 (at_ (kup_tab r) b).
Proof.
  intros r b Hr Hb. assert (C : kup_tab64 = true) by (vm_cast_no_check (eq_refl true)).
  unfold kup_tab64 in C. rewrite forallb_forall in C. specialize (C r ltac:(apply in_seq; lia)).
  rewrite forallb_forall in C. specialize (C b ltac:(apply in_seq; lia)). now apply N.ltb_lt.
Qed.
Lemma kbyte_lt : forall w k, kbyte w k < 256.
Proof. intros. unfold kbyte. pose proof (w8_lt (N.shiftr w k)). lia. Qed.

Opaque kup_T0 kup_T1 kup_T2 kup_T3 kup_T4 kup_T5 kup_T6 kup_T7 kup_pi kup_gmul.
Lemma wcols_map : forall (f : nat -> N) l, wcols (map f l) = map (fun i => le_bytes 8 (f i)) l.
Proof. intros. apply map_map. Qed.
Section Rounds.
Variable p : kup_par.
Notation n := (k_n p). Notation t := (k_t p). Notation s7 := (k_s7 p).
Hypothesis Hn : 8 <= n. Hypothesis Hn16 : n <= 16. Hypothesis Hs7 : s7 <= n.

Lemma kG_ok : forall x, length x = n -> kup_mix (kup_shift p (kup_sub (wcols x))) = wcols (kG n s7 x).
Proof.
  intros x Lx. unfold kup_mix, kup_shift, kG. rewrite wcols_map, map_map. apply map_ext_in. intros c Hc.
  apply in_seq in Hc. rewrite le_bytes_map. apply map_ext_in. intros i Hi. apply in_seq in Hi.
  rewrite (map_ext_in _ (fun r => w8 (N.shiftr (at_ (kup_tab r) (kbyte (at_ x ((c + n - kup_row_shift p r) mod n)) (8 * N.of_nat r))) (8 * N.of_nat i)))).
  2:{ intros r Hr. apply in_seq in Hr. rewrite at_map_seq by lia.
      set (j := (c + n - kup_row_shift p r) mod n). assert (Hj : j < n) by (apply Nat.mod_upper_bound; lia).
      rewrite kup_tab_ok by (try apply kbyte_lt; lia). f_equal. unfold kup_sub.
      rewrite (nth_indep _ [] ((fun col => map (fun r => at_ (kup_pi r) (N.to_nat (at_ col r))) (seq 0 8)) []))
        by (unfold wcols; rewrite !map_length; lia).
      rewrite (map_nth (fun col => map (fun r => at_ (kup_pi r) (N.to_nat (at_ col r))) (seq 0 8))).
      rewrite at_map_seq by lia. rewrite nth_wcols by lia. rewrite at_le_bytes by lia. reflexivity. }
  cbn [seq map fold_left]. rewrite N.lxor_0_l. unfold kG1col. rewrite !w8_shiftr_lxor.
  change (kup_row_shift p 0) with 0. change (kup_row_shift p 1) with 1. change (kup_row_shift p 2) with 2.
  change (kup_row_shift p 3) with 3. change (kup_row_shift p 4) with 4. change (kup_row_shift p 5) with 5.
  change (kup_row_shift p 6) with 6. change (kup_row_shift p 7) with s7.
  replace ((c + n - 0) mod n) with c by (rewrite Nat.sub_0_r; symmetry; replace (c + n) with (c + 1 * n) by lia; rewrite Nat.mod_add by lia; apply Nat.mod_small; lia).
  reflexivity.
Qed.
Lemma kG1col_is64 : forall x i, is64 (kG1col n s7 x i).
Proof.
  intros. unfold kG1col. repeat apply lxor_is64.
  exact (kup_tab_is64 0 _ ltac:(lia) (kbyte_lt _ _)). exact (kup_tab_is64 1 _ ltac:(lia) (kbyte_lt _ _)).
  exact (kup_tab_is64 2 _ ltac:(lia) (kbyte_lt _ _)). exact (kup_tab_is64 3 _ ltac:(lia) (kbyte_lt _ _)).
  exact (kup_tab_is64 4 _ ltac:(lia) (kbyte_lt _ _)). exact (kup_tab_is64 5 _ ltac:(lia) (kbyte_lt _ _)).
  exact (kup_tab_is64 6 _ ltac:(lia) (kbyte_lt _ _)). exact (kup_tab_is64 7 _ ltac:(lia) (kbyte_lt _ _)).
Qed.

Lemma addx_ok : forall x v, length x = n -> v < 16 ->
  kup_addx p v (wcols x) = wcols (map (fun i => N.lxor (at_ x i) (N.lxor (16 * N.of_nat i) (N.of_nat v))) (seq 0 n)).
Proof.
  intros x v Lx Hv. unfold kup_addx. rewrite wcols_map. apply map_ext_in. intros j Hj. apply in_seq in Hj.
  rewrite nth_wcols by lia. cbv zeta. set (w := at_ x j). set (k := N.lxor (16 * _) _).
  assert (Hk : (k < 256)%N). { unfold k. apply (lxor_lt 8); change (2 ^ 8)%N with 256%N; lia. }
  clearbody w k. cbn [le_bytes at_ nth skipn]. unfold at_. cbn [nth].
  assert (E0 : N.lxor (w8 w) k = w8 (N.lxor w k)).
  { pose proof (w8_shiftr_lxor w k 0) as E. rewrite !N.shiftr_0_r in E. rewrite E, (w8_small k) by assumption. reflexivity. }
  rewrite E0. replace (N.shiftr (N.lxor w k) 8) with (N.shiftr w 8); [reflexivity|].
  rewrite N.shiftr_lxor. replace (N.shiftr k 8) with 0%N; [now rewrite N.lxor_0_r|].
  symmetry. rewrite N.shiftr_div_pow2. apply N.div_small. exact Hk.
Qed.

Definition fc (n i v : nat) : N := le_val [0xF3; 0xF0; 0xF0; 0xF0; 0xF0; 0xF0; 0xF0; N.lxor (16 * N.of_nat (n - 1 - i)) (N.of_nat v)]%N.
Lemma addp_ok : forall x v, length x = n -> Forall is64 x ->
  kup_addp p v (wcols x) = wcols (map (fun i => add64 (at_ x i) (fc n i v)) (seq 0 n)).
Proof.
  intros x v Lx H64. unfold kup_addp. rewrite wcols_map. apply map_ext_in. intros j Hj. apply in_seq in Hj.
  rewrite nth_wcols by lia. unfold add64. rewrite le_bytes8_w64. f_equal. fold (fc n j v). f_equal.
  rewrite le_val_le_bytes. apply N.mod_small. change (256 ^ N.of_nat 8)%N with (2 ^ 64)%N.
  unfold at_. rewrite Forall_nth in H64. apply H64. lia.
Qed.
Lemma kcp_fc : forall i v, v < 16 -> kcp n i (N.of_nat v) = fc n i v.
Proof.
  intros i v Hv. unfold kcp, fc. set (k := N.lxor (16 * _) _). replace (N.lxor (N.of_nat (n - 1 - i) * 16) (N.of_nat v)) with k by (unfold k; f_equal; lia).
  assert (Hk : (k < 256)%N). { unfold k. apply (lxor_lt 8); change (2 ^ 8)%N with 256%N; lia. }
  clearbody k. unfold shl64. rewrite w64_small.
  - change [243; 240; 240; 240; 240; 240; 240; k]%N with ([243; 240; 240; 240; 240; 240; 240]%N ++ [k]).
    rewrite le_val_app_lxor. 2:{ repeat constructor. }
    rewrite le_val_1. reflexivity.
  - rewrite N.shiftl_mul_pow2. change 18446744073709551616%N with (256 * 2 ^ 56)%N. apply N.mul_lt_mono_pos_r; [reflexivity|assumption].
Qed.
Lemma kG_st : forall x, length (kG n s7 x) = n /\ Forall is64 (kG n s7 x).
Proof.
  intros. unfold kG. split; [now rewrite map_length, seq_length|]. apply Forall_map, Forall_forall. intros i _. apply kG1col_is64.
Qed.

Lemma kP_ok : forall x v, length x = n -> S v < 16 ->
  kup_round p (kup_addx p) (kup_round p (kup_addx p) (wcols x) v) (S v) = wcols (kP n s7 x (N.of_nat v)).
Proof.
  intros x v Lx Hv. unfold kup_round, kP. cbv zeta. rewrite addx_ok by lia.
  change (map (fun i => N.lxor (at_ x i) (N.lxor (N.shiftl (N.of_nat i) 4) (N.of_nat v))) (seq 0 n)) with (map (fun i => N.lxor (at_ x i) (N.lxor (16 * N.of_nat i) (N.of_nat v))) (seq 0 n)).
  set (x1 := map _ (seq 0 n)). assert (L1 : length x1 = n) by (unfold x1; now rewrite map_length, seq_length). clearbody x1.
  rewrite kG_ok by assumption. rewrite addx_ok by (try apply kG_st; lia). rewrite kG_ok by (now rewrite map_length, seq_length).
  unfold kG1. f_equal. f_equal. apply map_ext_in. intros i Hi. apply in_seq in Hi. unfold kG at 1. rewrite at_map_seq by lia.
  unfold kcx. rewrite N.lxor_assoc. replace (N.of_nat v + 1)%N with (N.of_nat (S v)) by lia. reflexivity.
Qed.
Lemma kQ_ok : forall x v, length x = n -> Forall is64 x -> S v < 16 ->
  kup_round p (kup_addp p) (kup_round p (kup_addp p) (wcols x) v) (S v) = wcols (kQ n s7 x (N.of_nat v)).
Proof.
  intros x v Lx H64 Hv. unfold kup_round, kQ. cbv zeta. rewrite addp_ok by (auto; lia).
  rewrite (map_ext (fun i => add64 (at_ x i) (kcp n i (N.of_nat v))) (fun i => add64 (at_ x i) (fc n i v))) by (intros i; rewrite kcp_fc by lia; reflexivity).
  set (x1 := map _ (seq 0 n)). assert (L1 : length x1 = n) by (unfold x1; now rewrite map_length, seq_length). clearbody x1.
  rewrite kG_ok by assumption. rewrite addp_ok by (try apply kG_st; lia). rewrite kG_ok by (now rewrite map_length, seq_length).
  unfold kG2. f_equal. f_equal. apply map_ext_in. intros i Hi. apply in_seq in Hi. unfold kG at 1. rewrite at_map_seq by lia.
  replace (N.of_nat v + 1)%N with (N.of_nat (S v)) by lia. rewrite kcp_fc by lia. reflexivity.
Qed.
Lemma kP_st : forall x v, length (kP n s7 x v) = n /\ Forall is64 (kP n s7 x v).
Proof. intros. apply kG_st. Qed.
Lemma kQ_st : forall x v, length (kQ n s7 x v) = n /\ Forall is64 (kQ n s7 x v).
Proof. intros. apply kG_st. Qed.

Definition kst (x : list N) : Prop := length x = n /\ Forall is64 x.
Lemma rounds2 : forall (R : list (list N) -> nat -> list (list N)) (f : list N -> N -> list N),
  (forall x v, kst x -> S v < 16 -> R (R (wcols x) v) (S v) = wcols (f x (N.of_nat v))) ->
  (forall x v, kst (f x v)) ->
  forall k i x, kst x -> 2 * (i + k) <= 16 ->
  fold_left R (seq (2 * i) (2 * k)) (wcols x) = wcols (fold_left f (map (fun j => 2 * N.of_nat j)%N (seq i k)) x)
  /\ kst (fold_left f (map (fun j => 2 * N.of_nat j)%N (seq i k)) x).
Proof.
  intros R f HR Hf. induction k as [|k IH]; intros i x Hx Hk.
  - change (2 * 0) with 0. cbn [seq map fold_left]. auto.
  - replace (2 * S k) with (S (S (2 * k))) by lia. rewrite !seq_cons. cbn [map]. rewrite !fold_left_cons.
    rewrite HR by (auto; lia). replace (S (S (2 * i))) with (2 * S i) by lia.
    replace (2 * N.of_nat i)%N with (N.of_nat (2 * i)) by lia. apply IH; [apply Hf|lia].
Qed.
Hypothesis Ht : Nat.Even t. Hypothesis Ht16 : t <= 16.
Lemma t_even : t = 2 * (t / 2).
Proof. destruct Ht as [m ->]. rewrite (Nat.mul_comm 2 m), Nat.div_mul by lia. lia. Qed.
Lemma Tx_ok : forall x, kst x -> kup_Tx p (wcols x) = wcols (fold_left (kP n s7) (krs t) x) /\ kst (fold_left (kP n s7) (krs t) x).
Proof.
  intros x Hx. unfold kup_Tx, krs.
  pose proof (rounds2 (kup_round p (kup_addx p)) (kP n s7)) as K. pose proof t_even as Et.
  destruct (K (fun x v H Hv => kP_ok x v (proj1 H) Hv) (fun x v => kP_st x v) (t / 2) 0 x Hx ltac:(lia)) as [E S].
  rewrite Nat.mul_0_r in E. rewrite <- Et in E. auto.
Qed.
Lemma Tp_ok : forall x, kst x -> kup_Tp p (wcols x) = wcols (fold_left (kQ n s7) (krs t) x) /\ kst (fold_left (kQ n s7) (krs t) x).
Proof.
  intros x Hx. unfold kup_Tp, krs.
  pose proof (rounds2 (kup_round p (kup_addp p)) (kQ n s7)) as K. pose proof t_even as Et.
  destruct (K (fun x v H Hv => kQ_ok x v (proj1 H) (proj2 H) Hv) (fun x v => kQ_st x v) (t / 2) 0 x Hx ltac:(lia)) as [E S].
  rewrite Nat.mul_0_r in E. rewrite <- Et in E. auto.
Qed.
Lemma kxor_ok : forall a b, length a = n -> length b = n -> kup_xor p (wcols a) (wcols b) = wcols (kxor n a b).
Proof.
  intros a b La Lb. unfold kup_xor, kxor. rewrite wcols_map. apply map_ext_in. intros j Hj. apply in_seq in Hj.
  rewrite (le_bytes_map 8 (N.lxor _ _)). apply map_ext_in. intros r Hr. apply in_seq in Hr.
  rewrite !nth_wcols, !at_le_bytes, w8_shiftr_lxor by lia. reflexivity.
Qed.
Lemma kxor_st : forall a b, kst a -> kst b -> kst (kxor n a b).
Proof.
  intros a b [La Ha] [Lb Hb]. split; [unfold kxor; now rewrite map_length, seq_length|].
  unfold kxor. apply Forall_map, Forall_forall. intros i Hi. apply in_seq in Hi.
  apply lxor_is64; unfold at_; [rewrite Forall_nth in Ha; apply Ha; lia | rewrite Forall_nth in Hb; apply Hb; lia].
Qed.
Lemma kwords_map : forall b, kwords b = map le_val (chunks 8 b).
Proof.
  intros. unfold kwords, chunks. rewrite map_map. apply map_ext. intros i. unfold slice. replace (8 * i + 8 - 8 * i) with 8 by lia. now rewrite (Nat.mul_comm i 8).
Qed.
Lemma kwords_ok : forall b, length b = 8 * n -> isbytes b -> wcols (kwords b) = chunks 8 b /\ kst (kwords b).
Proof.
  intros b Lb Hb. rewrite kwords_map.
  assert (Lc : length (chunks 8 b) = n) by (rewrite chunks_length, Lb, Nat.mul_comm; apply Nat.div_mul; lia).
  assert (A : forall c, In c (chunks 8 b) -> length c = 8 /\ isbytes c).
  { intros c Hc. split. - pose proof (chunks_all_length _ 8 b ltac:(lia)) as F. rewrite Forall_forall in F. now apply F.
    - unfold chunks in Hc. apply in_map_iff in Hc. destruct Hc as (i & <- & _). now apply isbytes_firstn, isbytes_skipn. }
  split.
  - unfold wcols. rewrite map_map. rewrite <- (map_id (chunks 8 b)) at 2. apply map_ext_in. intros c Hc. destruct (A c Hc) as [L B].
    rewrite <- L. now apply le_bytes_le_val.
  - split; [now rewrite map_length|]. apply Forall_map, Forall_forall. intros c Hc. destruct (A c Hc) as [L B].
    pose proof (le_val_lt c B) as K. rewrite L in K. exact K.
Qed.
Lemma fold_pair : forall (l : list N) a b,
  fold_left (fun '(ap, aq) r => (kP n s7 ap r, kQ n s7 aq r)) l (a, b) = (fold_left (kP n s7) l a, fold_left (kQ n s7) l b).
Proof. induction l as [|r l IH]; intros; [reflexivity|]. rewrite !fold_left_cons. apply IH. Qed.

Lemma kblock_ok : forall s b, kst s -> length b = 8 * n -> isbytes b ->
  kup_compress p (wcols s) b = wcols (kblock n t s7 s b) /\ kst (kblock n t s7 s b).
Proof.
  intros s b Hs Lb Hb. unfold kup_compress, kblock, ktransform. cbv zeta.
  destruct (kwords_ok b Lb Hb) as [Ew Hw]. rewrite <- Ew. set (w := kwords b) in *. clearbody w.
  rewrite fold_pair. rewrite kxor_ok by (apply Hs || apply Hw).
  destruct (Tx_ok (kxor n s w) (kxor_st s w Hs Hw)) as [Ex Sx]. destruct (Tp_ok w Hw) as [Ep Sp].
  rewrite Ex, Ep. set (a := fold_left (kP n s7) _ _) in *. set (q := fold_left (kQ n s7) _ _) in *. clearbody a q.
  rewrite !kxor_ok by (first [apply kxor_st; assumption | apply Sx | apply Sp | apply Hs]).
  split; [|now apply kxor_st; [|apply kxor_st]]. f_equal. unfold kxor. apply map_ext_in. intros i Hi. apply in_seq in Hi.
  rewrite !at_map_seq by lia. apply N.lxor_comm.
Qed.
Lemma kout_ok : forall s, kst s -> concat (kup_xor p (kup_Tx p (wcols s)) (wcols s)) = kbytes (kout n t s7 s).
Proof.
  intros s Hs. destruct (Tx_ok s Hs) as [E S]. rewrite E, kxor_ok by (apply S || apply Hs). unfold kbytes, kout. fold (wcols (kxor n s (fold_left (kP n s7) (krs t) s))).
  f_equal. f_equal. unfold kxor. apply map_ext. intros. apply N.lxor_comm.
Qed.
End Rounds.
