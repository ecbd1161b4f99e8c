(** MakwaP.v -- independent specification of the text codec of makwa and the proofs about Makwa.v. *)
From Coq Require Import String Ascii List NArith ZArith Arith Lia Bool.
From Verif Require Import Base Words Refine Makwa.
Import ListNotations.
Local Ltac Zify.zify_post_hook ::= Z.to_euclidean_division_equations.

(** ** Specification: RFC 4648 base64 without padding characters *)
Definition rfc_alphabet : list N := map N_of_ascii (list_ascii_of_string "ABCDEFGHIJKLMNOPQRSTUVWXYZabcdefghijklmnopqrstuvwxyz0123456789+/").
(** a group of up to three bytes, filled up with zero bytes, is a 24-bit number, written with four digits to
    base 64 of which the first (length + 1) are kept *)
Definition rfc_group (g : list N) : list N :=
  let v := be_val (g ++ repeat 0%N (3 - Datatypes.length g)) in
  firstn (Datatypes.length g + 1) [v / 64 ^ 3; v / 64 ^ 2 mod 64; v / 64 mod 64; v mod 64]%N.
(** consecutive groups of n elements, the last one possibly shorter *)
Definition groups (n : nat) (b : list N) : list (list N) := chunks n b ++ match rest n b with [] => [] | g => [g] end.
Definition rfc_digits (b : list N) : list N := concat (map rfc_group (groups 3 b)).
Definition rfc_base64 (b : list N) : list N := map (fun d => nth (N.to_nat d) rfc_alphabet 0%N) (rfc_digits b).
(** the bytes of a group of two to four digits *)
Definition rfc_ungroup (g : list N) : list N :=
  let v := fold_left (fun acc d => 64 * acc + d)%N (g ++ repeat 0%N (4 - Datatypes.length g)) 0%N in
  firstn (Datatypes.length g - 1) (be_bytes 3 v).
Definition rfc_unbase64 (ds : list N) : list N := concat (map rfc_ungroup (groups 4 ds)).
Definition digit_char (c d : N) : Prop := (d < 64)%N /\ nth (N.to_nat d) rfc_alphabet 0%N = c.

(** ** Proofs *)
Lemma Forall_firstn' : forall (P : N -> Prop) n l, Forall P l -> Forall P (firstn n l).
Proof. intros P n l HF. rewrite <- (firstn_skipn n l) in HF. now apply Forall_app in HF. Qed.
Lemma w8_lor_shl : forall x y n, (8 <= n)%N -> w8 (N.lor x (w32 (N.shiftl y n))) = w8 x.
Proof.
  intros x y n Hn. unfold w8, w32. apply N.bits_inj. intros i. rewrite !N.land_spec, N.lor_spec, N.land_spec.
  change 255%N with (N.ones 8). destruct (N.lt_ge_cases i 8) as [Hi|Hi].
  - rewrite (N.shiftl_spec_low y n i) by lia. cbn [andb]. now rewrite orb_false_r.
  - rewrite N.ones_spec_high by lia. now rewrite !andb_false_r.
Qed.
Lemma nat_lt_ind : forall (P : nat -> bool) n, forallb P (seq 0 n) = true -> forall i, i < n -> P i = true.
Proof. intros P n HF i Hi. rewrite forallb_forall in HF. apply HF. apply in_seq. lia. Qed.
Lemma digit_tab : forallb (fun i => match b64_digit (nth i rfc_alphabet 0%N) with Some d => (d =? N.of_nat i)%N | None => false end) (seq 0 64) = true.
Proof. vm_compute. reflexivity. Qed.
Lemma digit_al : forall d, (d < 64)%N -> b64_digit (al d) = Some d.
Proof.
  intros d Hd. pose proof (nat_lt_ind _ _ digit_tab (N.to_nat d) ltac:(lia)) as K. cbv beta in K. unfold al, at_. change b64_alphabet with rfc_alphabet.
  revert K. destruct (b64_digit (nth (N.to_nat d) rfc_alphabet 0%N)); [|discriminate]. intros K. apply N.eqb_eq in K. rewrite K. f_equal. lia.
Qed.
Lemma digit_inv_tab : forallb (fun i => match b64_digit (N.of_nat i) with Some d => (d <? 64)%N && (nth (N.to_nat d) rfc_alphabet 0%N =? N.of_nat i)%N | None => true end) (seq 0 256) = true.
Proof. vm_compute. reflexivity. Qed.
Lemma b64_digit_iff : forall c d, b64_digit c = Some d <-> digit_char c d.
Proof.
  intros c d. split.
  - intros E. destruct (N.lt_ge_cases c 256) as [Hc|Hc].
    + pose proof (nat_lt_ind _ _ digit_inv_tab (N.to_nat c) ltac:(lia)) as K. cbv beta in K. rewrite N2Nat.id, E in K.
      apply andb_true_iff in K. destruct K as [K1 K2]. apply N.ltb_lt in K1. apply N.eqb_eq in K2. split; assumption.
    + exfalso. revert E. unfold b64_digit.
      replace (c <=? 90)%N with false by (symmetry; apply N.leb_gt; lia). replace (c <=? 122)%N with false by (symmetry; apply N.leb_gt; lia).
      replace (c <=? 57)%N with false by (symmetry; apply N.leb_gt; lia). rewrite !andb_false_r.
      replace (c =? 43)%N with false by (symmetry; apply N.eqb_neq; lia). replace (c =? 47)%N with false by (symmetry; apply N.eqb_neq; lia). discriminate.
  - intros [Hd E]. rewrite <- E. exact (digit_al d Hd).
Qed.

Lemma groups_cons : forall n g l, 0 < n -> Datatypes.length g = n -> groups n (g ++ l) = g :: groups n l.
Proof.
  intros n g l Hn L. unfold groups. rewrite chunks_cons, rest_cons by (rewrite ?app_length; lia).
  rewrite firstn_app, skipn_app, L, Nat.sub_diag, firstn_all2, skipn_all2 by lia. cbn [firstn skipn app]. rewrite app_nil_r. reflexivity.
Qed.
Lemma land63 : forall x, N.land x 63 = (x mod 64)%N.
Proof. intros. change 63%N with (N.ones 6). rewrite N.land_ones. reflexivity. Qed.
Lemma list3_ind : forall (P : list N -> Prop), P [] -> (forall a, P [a]) -> (forall a b, P [a; b]) ->
  (forall a b c l, P l -> P (a :: b :: c :: l)) -> forall l, P l.
Proof.
  intros P H0 H1 H2 H3. fix F 1. intros [|a [|b [|c l]]]; [exact H0|apply H1|apply H2|apply H3, F].
Qed.
Lemma list4_ind : forall (P : list N -> Prop), P [] -> (forall a, P [a]) -> (forall a b, P [a; b]) -> (forall a b c, P [a; b; c]) ->
  (forall a b c d l, P l -> P (a :: b :: c :: d :: l)) -> forall l, P l.
Proof.
  intros P H0 H1 H2 H3 H4. fix F 1. intros [|a [|b [|c [|d l]]]]; [exact H0|apply H1|apply H2|apply H3|apply H4, F].
Qed.
Lemma b64Encode_ok : forall b, isbytes b -> b64Encode b = rfc_base64 b.
Proof.
  unfold rfc_base64, rfc_digits. change rfc_alphabet with b64_alphabet.
  assert (E8 : forall x, (x < 256)%N -> N.land x 255 = x) by (intros; now apply (w8_small x)).
  assert (G : forall g d, map (fun d => nth (N.to_nat d) b64_alphabet 0%N) (g ++ d) = map al g ++ map al d) by (intros; rewrite map_app; reflexivity).
  induction b as [|a|a b|a b c l IH] using list3_ind; intros HF.
  - reflexivity.
  - change (groups 3 [a]) with [[a]]. pose proof (Forall_inv HF) as Ha. cbn [map concat app]. rewrite app_nil_r. cbn [b64Encode]. cbv zeta. rewrite E8 by exact Ha.
    unfold rfc_group. cbn [Datatypes.length repeat Nat.sub Nat.add app firstn map]. cbv zeta. change (be_val [a; 0; 0])%N with (0 + 256 * (0 + 256 * (a + 256 * 0)))%N.
    rewrite land63, N.shiftr_div_pow2, N.shiftl_mul_pow2. unfold al, at_. change (2 ^ 2)%N with 4%N. change (2 ^ 4)%N with 16%N. change (64 ^ 3)%N with 262144%N. change (64 ^ 2)%N with 4096%N.
    unfold isbyte in *. repeat (apply f_equal2; [do 2 f_equal; lia|]). reflexivity.
  - change (groups 3 [a; b]) with [[a; b]]. pose proof (Forall_inv HF) as Ha. pose proof (Forall_inv (Forall_inv_tail HF)) as Hb. cbn [map concat app]. rewrite app_nil_r. cbn [b64Encode]. cbv zeta. rewrite !E8 by assumption.
    unfold rfc_group. cbn [Datatypes.length repeat Nat.sub Nat.add app firstn map]. cbv zeta. change (be_val [a; b; 0])%N with (0 + 256 * (b + 256 * (a + 256 * 0)))%N.
    rewrite !land63, !N.shiftr_div_pow2, !N.shiftl_mul_pow2. unfold al, at_. change (2 ^ 2)%N with 4%N. change (2 ^ 4)%N with 16%N. change (2 ^ 10)%N with 1024%N. change (2 ^ 8)%N with 256%N. change (64 ^ 3)%N with 262144%N. change (64 ^ 2)%N with 4096%N.
    unfold isbyte in *. repeat (apply f_equal2; [do 2 f_equal; lia|]). reflexivity.
  - assert (EC : groups 3 (a :: b :: c :: l) = [a; b; c] :: groups 3 l) by (exact (groups_cons 3 [a; b; c] l ltac:(lia) eq_refl)).
    rewrite EC. cbn [map concat]. pose proof (Forall_inv HF) as Ha. pose proof (Forall_inv (Forall_inv_tail HF)) as Hb. pose proof (Forall_inv (Forall_inv_tail (Forall_inv_tail HF))) as Hc.
    rewrite map_app, <- IH by (now do 3 apply Forall_inv_tail in HF).
    unfold rfc_group. cbn [Datatypes.length repeat Nat.sub Nat.add app firstn map]. cbv zeta. cbn [b64Encode]. cbv zeta. rewrite !E8 by assumption.
    change (be_val [a; b; c])%N with (c + 256 * (b + 256 * (a + 256 * 0)))%N.
    rewrite !land63, !N.shiftr_div_pow2, !N.shiftl_mul_pow2. unfold al, at_. change (2 ^ 18)%N with 262144%N. change (2 ^ 12)%N with 4096%N. change (2 ^ 6)%N with 64%N. change (2 ^ 8)%N with 256%N. change (64 ^ 3)%N with 262144%N. change (64 ^ 2)%N with 4096%N.
    unfold isbyte in *. replace ((a * 256 + b) * 256 + c)%N with (c + 256 * (b + 256 * (a + 256 * 0)))%N by lia. reflexivity.
Qed.

(** Decoding *)
Definition b64v (g : list N) : N := fold_left (fun acc d => 64 * acc + d)%N g 0%N.
Lemma be3 : forall v, be_bytes 3 v = [(v / 65536) mod 256; (v / 256) mod 256; v mod 256]%N.
Proof.
  intros v. unfold be_bytes. cbn [le_bytes rev app]. rewrite !w8_mod, !N.shiftr_div_pow2, N.div_div by discriminate. reflexivity.
Qed.
Lemma acc_step : forall acc d, (acc < 262144)%N -> (d < 64)%N -> w32 (w32 (N.shiftl acc 6) + d) = (64 * acc + d)%N.
Proof.
  intros acc d Ha Hd. rewrite N.shiftl_mul_pow2. change (2 ^ 6)%N with 64%N. rewrite (w32_small (acc * 64)) by lia. rewrite w32_small by lia. lia.
Qed.
Lemma dec_byte : forall acc n m, (8 <= m)%N -> w8 (N.lor (N.shiftr acc n) (w32 (N.shiftl acc m))) = ((acc / 2 ^ n) mod 256)%N.
Proof. intros. rewrite w8_lor_shl by assumption. now rewrite w8_mod, N.shiftr_div_pow2. Qed.
Lemma b64_dec_loop_ok : forall s ds out, Forall2 digit_char s ds ->
  b64_dec_loop s 0 0 out = if Datatypes.length s mod 4 =? 1 then None else Some (out ++ rfc_unbase64 ds).
Proof.
  assert (E : forall c d, digit_char c d -> b64_digit c = Some d /\ (d < 64)%N) by (intros c d Hc; split; [now apply b64_digit_iff|apply Hc]).
  induction s as [|a|a b|a b c|a b c d l IH] using list4_ind; intros ds out HF.
  - inversion HF. cbn. now rewrite app_nil_r.
  - inversion HF as [|? x ? t Ha Ht]. destruct (E _ _ Ha) as [Ea _]. cbn [b64_dec_loop]. rewrite Ea. reflexivity.
  - inversion HF as [|? x ? t Ha Ht]. inversion Ht as [|? y ? u Hb Hu]. inversion Hu. destruct (E _ _ Ha) as [Ea La]. destruct (E _ _ Hb) as [Eb Lb].
    cbn [b64_dec_loop]. rewrite Ea, Eb. cbv zeta. cbn [Nat.eqb]. change (Datatypes.length [a; b] mod 4 =? 1) with false. cbv iota.
    rewrite (acc_step 0 x) by lia. rewrite acc_step by lia. rewrite dec_byte by lia. unfold rfc_unbase64. change (groups 4 [x; y]) with [[x; y]].
    cbn [map concat]. rewrite app_nil_r. unfold rfc_ungroup. cbn [Datatypes.length Nat.sub repeat app fold_left]. cbv zeta. rewrite be3. cbn [firstn].
    change (2 ^ 4)%N with 16%N. f_equal. f_equal. f_equal. lia.
  - inversion HF as [|? x ? t Ha Ht]. inversion Ht as [|? y ? u Hb Hu]. inversion Hu as [|? z ? v Hc Hv]. inversion Hv.
    destruct (E _ _ Ha) as [Ea La]. destruct (E _ _ Hb) as [Eb Lb]. destruct (E _ _ Hc) as [Ec Lc].
    cbn [b64_dec_loop]. rewrite Ea, Eb, Ec. cbv zeta. cbn [Nat.eqb]. change (Datatypes.length [a; b; c] mod 4 =? 1) with false. cbv iota.
    rewrite (acc_step 0 x) by lia. rewrite (acc_step _ y), acc_step by lia. rewrite !dec_byte by lia. unfold rfc_unbase64. change (groups 4 [x; y; z]) with [[x; y; z]].
    cbn [map concat]. rewrite app_nil_r. unfold rfc_ungroup. cbn [Datatypes.length Nat.sub repeat app fold_left]. cbv zeta. rewrite be3. cbn [firstn].
    change (2 ^ 10)%N with 1024%N. change (2 ^ 2)%N with 4%N. f_equal. f_equal. f_equal; [|f_equal]; lia.
  - inversion HF as [|? x ? t Ha Ht]. inversion Ht as [|? y ? u Hb Hu]. inversion Hu as [|? z ? v Hc Hv]. inversion Hv as [|? w ? ds' Hd Hds]. 
    destruct (E _ _ Ha) as [Ea La]. destruct (E _ _ Hb) as [Eb Lb]. destruct (E _ _ Hc) as [Ec Lc]. destruct (E _ _ Hd) as [Ed Ld].
    cbn [b64_dec_loop]. rewrite Ea, Eb, Ec, Ed. cbv zeta. cbn [Nat.eqb].
    rewrite (acc_step 0 x) by lia. rewrite (acc_step _ y) by lia. rewrite (acc_step _ z) by lia. rewrite (acc_step _ w) by lia. rewrite !dec_byte by lia.
    rewrite (IH ds') by assumption. change (Datatypes.length (a :: b :: c :: d :: l)) with (4 + Datatypes.length l).
    replace ((4 + Datatypes.length l) mod 4) with (Datatypes.length l mod 4) by (rewrite Nat.add_mod, Nat.mod_same by lia; rewrite Nat.add_0_l, Nat.mod_mod by lia; reflexivity).
    destruct (_ =? 1); [reflexivity|]. f_equal. unfold rfc_unbase64. change (x :: y :: z :: w :: ds') with ([x; y; z; w] ++ ds'). rewrite (groups_cons 4) by (reflexivity || lia).
    cbn [map concat]. rewrite app_assoc. f_equal. unfold rfc_ungroup. cbn [Datatypes.length Nat.sub repeat app fold_left]. cbv zeta. rewrite be3. cbn [firstn].
    change (2 ^ 16)%N with 65536%N. change (2 ^ 8)%N with 256%N. rewrite w8_mod. f_equal.
Qed.
Lemma b64_dec_loop_none : forall s acc k out, (exists c, In c s /\ forall d, ~ digit_char c d) -> b64_dec_loop s acc k out = None.
Proof.
  induction s as [|c s IH]; intros acc k out [x [Hx Hn]]; [destruct Hx|]. cbn [b64_dec_loop].
  destruct (b64_digit c) as [d|] eqn:E; [|reflexivity]. apply b64_digit_iff in E.
  destruct Hx as [->|Hx]; [exfalso; exact (Hn d E)|]. cbv zeta. destruct (S k =? 4); apply IH; eauto.
Qed.
Lemma digits_dec : forall s, (exists ds, Forall2 digit_char s ds) \/ (exists c, In c s /\ forall d, ~ digit_char c d).
Proof.
  induction s as [|c s [[ds IH]|[x [Hx Hn]]]]; [left; exists []; constructor| |right; exists x; split; [now right|exact Hn]].
  destruct (b64_digit c) as [d|] eqn:E.
  - left. exists (d :: ds). constructor; [now apply b64_digit_iff|exact IH].
  - right. exists c. split; [now left|]. intros d Hd. apply b64_digit_iff in Hd. congruence.
Qed.
Lemma digit_char_fun : forall s ds ds', Forall2 digit_char s ds -> Forall2 digit_char s ds' -> ds = ds'.
Proof.
  induction s as [|c s IH]; intros ds ds' H1 H2; inversion H1; inversion H2; [reflexivity|]. f_equal; [|now apply IH].
  assert (b64_digit c = Some y) by now apply b64_digit_iff. assert (b64_digit c = Some y0) by now apply b64_digit_iff. congruence.
Qed.
(** every digit of the encoding is a base-64 digit, and decoding the digits restores the bytes *)
Lemma rfc_group_lt : forall g, isbytes g -> Datatypes.length g <= 3 -> Forall (fun d => d < 64)%N (rfc_group g).
Proof.
  intros g Hg Lg. unfold rfc_group. set (v := be_val _). cbv zeta.
  assert (Hv : (v < 16777216)%N).
  { unfold v, be_val. pose proof (le_val_lt (rev (g ++ repeat 0%N (3 - Datatypes.length g)))) as K.
    rewrite rev_length, app_length, repeat_length in K. replace (Datatypes.length g + (3 - Datatypes.length g)) with 3 in K by lia.
    apply K. apply Forall_rev. apply Forall_app. split; [exact Hg|]. apply zeros_isbytes. }
  apply Forall_firstn'. change (64 ^ 3)%N with 262144%N. change (64 ^ 2)%N with 4096%N. repeat constructor; lia.
Qed.
Lemma isbytes_groups : forall l, isbytes l -> Forall (fun d => d < 64)%N (rfc_digits l).
Proof.
  unfold rfc_digits. induction l as [|a|a b|a b c l IH] using list3_ind; intros HF.
  - constructor.
  - change (groups 3 [a]) with [[a]]. cbn [map concat]. rewrite app_nil_r. apply rfc_group_lt; [exact HF|cbn; lia].
  - change (groups 3 [a; b]) with [[a; b]]. cbn [map concat]. rewrite app_nil_r. apply rfc_group_lt; [exact HF|cbn; lia].
  - rewrite (groups_cons 3 [a; b; c] l ltac:(lia) eq_refl : groups 3 (a :: b :: c :: l) = _). cbn [map concat]. apply (Forall_app _ [a; b; c] l) in HF. destruct HF as [H1 H2].
    apply Forall_app. split; [apply rfc_group_lt; [exact H1|cbn; lia]|now apply IH].
Qed.
Lemma rfc_roundtrip : forall b, isbytes b -> rfc_unbase64 (rfc_digits b) = b /\ Datatypes.length (rfc_digits b) mod 4 <> 1.
Proof.
  unfold rfc_digits. induction b as [|a|a b|a b c l IH] using list3_ind; intros HF.
  - split; [reflexivity|discriminate].
  - change (groups 3 [a]) with [[a]]. pose proof (Forall_inv HF) as Ha. unfold isbyte in Ha. cbn [map concat]. rewrite app_nil_r. unfold rfc_group, rfc_unbase64.
    cbn [Datatypes.length repeat Nat.sub Nat.add app firstn]. cbv zeta. change (be_val [a; 0; 0])%N with (0 + 256 * (0 + 256 * (a + 256 * 0)))%N.
    change (64 ^ 3)%N with 262144%N. change (64 ^ 2)%N with 4096%N. split; [|discriminate]. set (x := (_ / 262144)%N). set (y := (_ mod 64)%N).
    change (groups 4 [x; y]) with [[x; y]]. cbn [map concat]. rewrite app_nil_r. unfold rfc_ungroup. cbn [Datatypes.length Nat.sub repeat app fold_left]. cbv zeta. rewrite be3. cbn [firstn].
    f_equal. unfold x, y. lia.
  - change (groups 3 [a; b]) with [[a; b]]. pose proof (Forall_inv HF) as Ha. pose proof (Forall_inv (Forall_inv_tail HF)) as Hb. unfold isbyte in *. cbn [map concat]. rewrite app_nil_r. unfold rfc_group, rfc_unbase64.
    cbn [Datatypes.length repeat Nat.sub Nat.add app firstn]. cbv zeta. change (be_val [a; b; 0])%N with (0 + 256 * (b + 256 * (a + 256 * 0)))%N.
    change (64 ^ 3)%N with 262144%N. change (64 ^ 2)%N with 4096%N. split; [|discriminate]. set (x := (_ / 262144)%N). set (y := (_ / 4096 mod 64)%N). set (z := (_ mod 64)%N).
    change (groups 4 [x; y; z]) with [[x; y; z]]. cbn [map concat]. rewrite app_nil_r. unfold rfc_ungroup. cbn [Datatypes.length Nat.sub repeat app fold_left]. cbv zeta. rewrite be3. cbn [firstn].
    f_equal; [|f_equal]; unfold x, y, z; lia.
  - rewrite (groups_cons 3 [a; b; c] l ltac:(lia) eq_refl : groups 3 (a :: b :: c :: l) = _). cbn [map concat]. apply (Forall_app _ [a; b; c] l) in HF. destruct HF as [H1 H2].
    destruct (IH H2) as [I1 I2]. pose proof (Forall_inv H1) as Ha. pose proof (Forall_inv (Forall_inv_tail H1)) as Hb. pose proof (Forall_inv (Forall_inv_tail (Forall_inv_tail H1))) as Hc. unfold isbyte in *.
    assert (LG : Datatypes.length (rfc_group [a; b; c]) = 4) by reflexivity. split.
    + unfold rfc_unbase64 in *. rewrite (groups_cons 4) by (assumption || lia). cbn [map concat]. rewrite I1. unfold rfc_group.
      cbn [Datatypes.length repeat Nat.sub Nat.add app firstn]. cbv zeta. change (be_val [a; b; c])%N with (c + 256 * (b + 256 * (a + 256 * 0)))%N.
      change (64 ^ 3)%N with 262144%N. change (64 ^ 2)%N with 4096%N.
      set (v := (c + 256 * (b + 256 * (a + 256 * 0)))%N).
      unfold rfc_ungroup. cbn [Datatypes.length Nat.sub repeat app fold_left]. cbv zeta. rewrite be3. cbn [firstn app].
      replace (64 * (64 * (64 * (64 * 0 + v / 262144) + v / 4096 mod 64) + v / 64 mod 64) + v mod 64)%N with v by lia.
      f_equal; [|f_equal; [|f_equal]]; unfold v; lia.
    + rewrite app_length, LG. rewrite Nat.add_mod, Nat.mod_same, Nat.add_0_l, Nat.mod_mod by lia. exact I2.
Qed.
Lemma b64_roundtrip : forall b, isbytes b -> b64Decode (b64Encode b) = Some b.
Proof.
  intros b HF. rewrite b64Encode_ok by exact HF. unfold rfc_base64, b64Decode. destruct (rfc_roundtrip b HF) as [R1 R2].
  rewrite (b64_dec_loop_ok _ (rfc_digits b)).
  - rewrite map_length. apply Nat.eqb_neq in R2. rewrite R2, R1. reflexivity.
  - pose proof (isbytes_groups b HF) as HD. clear R1 R2. induction (rfc_digits b) as [|d l IH]; constructor; [split; [exact (Forall_inv HD)|reflexivity]|apply IH; exact (Forall_inv_tail HD)].
Qed.
(** the encoding contains no underscore *)
Lemma al_not_us : forall d, (d < 64)%N -> al d <> underscore.
Proof.
  intros d Hd E. pose proof (digit_al d Hd) as K. rewrite E in K. discriminate K.
Qed.
Lemma b64_no_us : forall b, isbytes b -> ~ In underscore (b64Encode b).
Proof.
  intros b HF. rewrite b64Encode_ok by exact HF. unfold rfc_base64. intros K. apply in_map_iff in K. destruct K as [d [E Hd]].
  apply (al_not_us d); [|exact E]. pose proof (isbytes_groups b HF) as HD. rewrite Forall_forall in HD. now apply HD.
Qed.
(** bytes.Split *)
Lemma split_nosep : forall sep s cur, ~ In sep s -> split_at sep cur s = [cur ++ s].
Proof.
  intros sep. induction s as [|c s IH]; intros cur Hn; cbn [split_at]; [now rewrite app_nil_r|].
  destruct (N.eqb_spec c sep) as [->|_]; [exfalso; apply Hn; now left|]. rewrite IH by (intros K; apply Hn; now right). now rewrite <- app_assoc.
Qed.
Lemma split_sep : forall sep s t cur, ~ In sep s -> split_at sep cur (s ++ sep :: t) = (cur ++ s) :: split_at sep [] t.
Proof.
  intros sep. induction s as [|c s IH]; intros t cur Hn; cbn [split_at app]; [now rewrite N.eqb_refl, app_nil_r|].
  destruct (N.eqb_spec c sep) as [->|_]; [exfalso; apply Hn; now left|]. rewrite IH by (intros K; apply Hn; now right). now rewrite <- app_assoc.
Qed.
(** wfMant *)
Lemma wf_loop_ok : forall fuel wf j w' j', (wf < 4294967296)%N -> (wf < 2 ^ N.of_nat fuel)%N -> (j + N.of_nat fuel < 4294967296)%N ->
  wf_loop fuel wf j = (w', j') -> exists k, j' = (j + k)%N /\ wf = (w' * 2 ^ k)%N /\ ((w' <= 3)%N \/ (w' mod 2 = 1)%N).
Proof.
  induction fuel as [|fuel IH]; intros wf j w' j' Hw Hf Hj E; cbn [wf_loop] in E.
  - injection E as <- <-. exists 0%N. rewrite N.pow_0_r. change (2 ^ N.of_nat 0)%N with 1%N in Hf. split; [lia|]. split; [lia|]. left. lia.
  - assert (EL : (N.land wf 1 = wf mod 2)%N) by (change 1%N with (N.ones 1); rewrite N.land_ones; reflexivity). rewrite EL in E.
    destruct (N.ltb_spec 3 wf) as [H3|H3]; cbn [andb] in E; [|injection E as <- <-; exists 0%N; rewrite N.pow_0_r; split; [lia|]; split; [lia|left; lia]].
    destruct (N.eqb_spec (wf mod 2) 0) as [H0|H0]; [|injection E as <- <-; exists 0%N; rewrite N.pow_0_r; split; [lia|]; split; [lia|right; lia]].
    assert (Es : N.lor (N.shiftr wf 1) (w32 (N.shiftl wf 31)) = (wf / 2)%N).
    { rewrite N.shiftr_div_pow2, N.shiftl_mul_pow2, w32_mod. change (2 ^ 31)%N with 2147483648%N. change (2 ^ 1)%N with 2%N.
      replace ((wf * 2147483648) mod 4294967296)%N with 0%N by lia. apply N.lor_0_r. }
    rewrite Es in E. assert (Ej : w32 (j + 1) = (j + 1)%N) by (apply w32_small; lia). rewrite Ej in E.
    assert (Hp : (2 ^ N.of_nat (S fuel) = 2 * 2 ^ N.of_nat fuel)%N) by (rewrite Nat2N.inj_succ, N.pow_succ_r'; reflexivity).
    apply IH in E; [|lia|lia|lia]. destruct E as [k [E1 [E2 E3]]]. exists (k + 1)%N. split; [lia|]. split; [|exact E3].
    rewrite N.pow_add_r. change (2 ^ 1)%N with 2%N. rewrite N.mul_assoc, <- E2. lia.
Qed.
Definition wf_pick (c : N * N) : option (N * N) := let '(wf, j) := c in if (wf =? 2)%N || (wf =? 3)%N then Some (wf, j) else None.
Lemma wf_pick_sound : forall fuel wf m j, (wf < 4294967296)%N -> (wf < 2 ^ N.of_nat fuel)%N -> (N.of_nat fuel < 4294967296)%N ->
  wf_pick (wf_loop fuel wf 0) = Some (m, j) -> (m = 2 \/ m = 3)%N /\ wf = (m * 2 ^ j)%N.
Proof.
  intros fuel wf m j Hw Hf Hb E. destruct (wf_loop fuel wf 0) as [w' j'] eqn:EL. unfold wf_pick in E.
  apply wf_loop_ok in EL; [|exact Hw|exact Hf|exact Hb]. destruct EL as [k [E1 [E2 _]]]. rewrite N.add_0_l in E1.
  destruct (N.eqb_spec w' 2) as [->|H2]; cbn [orb] in E.
  - injection E as <- <-. rewrite E1. split; [now left|exact E2].
  - destruct (N.eqb_spec w' 3) as [->|H3]; [|discriminate]. injection E as <- <-. rewrite E1. split; [now right|exact E2].
Qed.
Opaque wf_loop.
Lemma wfMant_sound : forall wf m j, (wf < 4294967296)%N -> wfMant wf = Some (m, j) -> (m = 2 \/ m = 3)%N /\ wf = (m * 2 ^ j)%N.
Proof. intros wf m j Hw E. apply (wf_pick_sound 32 wf m j Hw); [exact Hw|reflexivity|exact E]. Qed.
Transparent wf_loop.
Definition wf_cases : list (N * N) := flat_map (fun j => [(2, N.of_nat j); (3, N.of_nat j)]%N) (seq 0 31).
Lemma wfMant_tab : forallb (fun c => match wfMant (fst c * 2 ^ snd c) with Some (m, j) => (m =? fst c)%N && (j =? snd c)%N | None => false end) wf_cases = true.
Proof. vm_compute. reflexivity. Qed.
Lemma wf_case_in : forall m j, (m = 2 \/ m = 3)%N -> (m * 2 ^ j < 4294967296)%N -> In (m, j) wf_cases.
Proof.
  intros m j Hm Hj. assert (L : (j < 31)%N).
  { destruct (N.lt_ge_cases j 31) as [L|L]; [exact L|]. exfalso. assert (2 ^ 31 <= 2 ^ j)%N by (apply N.pow_le_mono_r; lia). change (2 ^ 31)%N with 2147483648%N in *. destruct Hm as [-> | ->]; lia. }
  unfold wf_cases. apply in_flat_map. exists (N.to_nat j). split; [apply in_seq; lia|]. rewrite N2Nat.id. destruct Hm as [-> | ->]; [left|right; left]; reflexivity.
Qed.
Lemma wfMant_complete : forall m j, (m = 2 \/ m = 3)%N -> (m * 2 ^ j < 4294967296)%N -> wfMant (m * 2 ^ j) = Some (m, j).
Proof.
  intros m j Hm Hj. pose proof wfMant_tab as T. rewrite forallb_forall in T. specialize (T _ (wf_case_in m j Hm Hj)). cbn [fst snd] in T.
  destruct (wfMant (m * 2 ^ j)) as [[a b]|]; [|discriminate]. apply andb_true_iff in T. destruct T as [T1 T2]. apply N.eqb_eq in T1, T2. now subst.
Qed.
Definition wf_text (m j : N) : list N := dec m ++ dec02 j.
Lemma wf_text_tab : forallb (fun c =>
  let t := wf_text (fst c) (snd c) in
  (2 <=? Datatypes.length t) && forallb (fun x => negb (x =? underscore)%N) t &&
  match atoi (firstn 1 t), atoi (skipn 1 t) with
  | Some m, Some j => (m =? Z.of_N (fst c))%Z && (j =? Z.of_N (snd c))%Z && (wf_power m j =? m ^ (j + 1))%Z
  | _, _ => false end) wf_cases = true.
Proof. vm_compute. reflexivity. Qed.
(** Decoding the text of a digest *)
Lemma unmarshal_marshal : forall d0 d m j, isbytes (dModulusID d) -> isbytes (dSalt d) -> isbytes (dHash d) ->
  (m = 2 \/ m = 3)%N -> (m * 2 ^ j < 4294967296)%N -> u32_of_int (dWorkFactor d) = (m * 2 ^ j)%N ->
  exists t, MarshalText d = Some t /\
  UnmarshalText d0 t = Ok (mkdigest (dModulusID d) (dHash d) (dSalt d) (Z.of_N m ^ (Z.of_N j + 1)) (dPreHash d)
    (if (0 <? dPostHashLen d)%Z then Z.of_nat (Datatypes.length (dHash d)) else 0%Z)).
Proof.
  intros d0 d m j Hi Hs Hh Hm Hj Hw. unfold MarshalText. rewrite Hw, (wfMant_complete m j Hm Hj). cbv zeta. eexists. split; [reflexivity|].
  pose proof wf_text_tab as T. rewrite forallb_forall in T. specialize (T _ (wf_case_in m j Hm Hj)). cbn [fst snd] in T. cbv zeta in T.
  set (kind := if dPreHash d then _ else _). rewrite !(app_assoc (dec m)). fold (wf_text m j). set (t := wf_text m j) in *. clearbody t.
  apply andb_true_iff in T. destruct T as [T T3]. apply andb_true_iff in T. destruct T as [T1 T2]. apply Nat.leb_le in T1.
  destruct (atoi (firstn 1 t)) as [zm|] eqn:Em; [|discriminate]. destruct (atoi (skipn 1 t)) as [zj|] eqn:Ej; [|discriminate].
  apply andb_true_iff in T3. destruct T3 as [T3 T5]. apply andb_true_iff in T3. destruct T3 as [T3 T4]. apply Z.eqb_eq in T3, T4, T5.
  assert (Hk : kind = 98%N \/ kind = 114%N \/ kind = 115%N \/ kind = 110%N) by (unfold kind; destruct (dPreHash d), (0 <? dPostHashLen d)%Z; auto).
  assert (Nt : ~ In underscore (kind :: t)).
  { intros [K|K]; [rewrite K in Hk; unfold underscore in Hk; lia|]. rewrite forallb_forall in T2. specialize (T2 _ K). rewrite N.eqb_refl in T2. discriminate T2. }
  assert (ES : split_at underscore [] (b64Encode (dModulusID d) ++ [underscore] ++ [kind] ++ t ++ [underscore] ++ b64Encode (dSalt d) ++ [underscore] ++ b64Encode (dHash d))
    = [b64Encode (dModulusID d); kind :: t; b64Encode (dSalt d); b64Encode (dHash d)]).
  { cbn [app]. rewrite split_sep by (now apply b64_no_us). cbn [app]. f_equal. change (kind :: t ++ underscore :: b64Encode (dSalt d) ++ underscore :: b64Encode (dHash d)) with ((kind :: t) ++ underscore :: b64Encode (dSalt d) ++ underscore :: b64Encode (dHash d)).
    rewrite split_sep by exact Nt. cbn [app]. f_equal. rewrite split_sep by (now apply b64_no_us). cbn [app]. f_equal. now apply split_nosep, b64_no_us. }
  unfold UnmarshalText. rewrite ES. cbv zeta. cbn [nth nth_error]. rewrite b64_roundtrip by exact Hi.
  replace (Datatypes.length (kind :: t) <? 2) with false by (symmetry; apply Nat.ltb_ge; cbn [Datatypes.length]; lia).
  change (slice (kind :: t) 1 2) with (firstn 1 t). rewrite Em. change (skipn 2 (kind :: t)) with (skipn 1 t). rewrite Ej.
  rewrite b64_roundtrip by exact Hs. rewrite b64_roundtrip by exact Hh. rewrite T5, T3, T4. change (at_ (kind :: t) 0) with kind.
  unfold kind. destruct (dPreHash d), (0 <? dPostHashLen d)%Z; reflexivity.
Qed.
