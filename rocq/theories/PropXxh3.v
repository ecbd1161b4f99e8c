(** PropXxh3.v -- C124..C128: package xxhash/xxh3 against SpecXxh3.v. *)
From Coq Require Import List NArith Arith Bool Lia.
Require Import Verif.Base Verif.HashAPI Verif.Bytes Verif.Refine Verif.Threefish Verif.SpecXxh3 Verif.Xxh3.
Import ListNotations.
Local Open Scope nat_scope.
Notation "'B64'" := 18446744073709551616%N.
Notation "'B32'" := 4294967296%N.
(** ** Words *)
Lemma p64 : (2 ^ 64 = B64)%N. Proof. reflexivity. Qed.
Lemma p32 : (2 ^ 32 = B32)%N. Proof. reflexivity. Qed.
Lemma shr32 : forall x, N.shiftr x 32 = (x / B32)%N. Proof. intro x. rewrite N.shiftr_div_pow2. reflexivity. Qed.
Lemma land32 : forall x, N.land x 0xFFFFFFFF = (x mod B32)%N. Proof. intro x. exact (w32_mod x). Qed.
Lemma w32_land : forall x, w32 (N.land x 0xFFFFFFFF) = (x mod B32)%N. Proof. intro x. rewrite land32, w32_mod. apply N.mod_mod. discriminate. Qed.
Lemma hi_lt : forall x, (x < B64 -> x / B32 < B32)%N. Proof. intros x H. apply N.div_lt_upper_bound; [discriminate|exact H]. Qed.
Lemma w32_hi : forall x, (x < B64)%N -> w32 (N.shiftr x 32) = (x / B32)%N.
Proof. intros x H. rewrite shr32, w32_mod. apply N.mod_small. apply hi_lt. exact H. Qed.
Lemma m32_lt : forall x, (x mod B32 < B32)%N. Proof. intro. apply N.mod_lt. discriminate. Qed.
Lemma prod32 : forall a b, (a < B32)%N -> (b < B32)%N -> (a * b <= 18446744065119617025)%N.
Proof. intros a b Ha Hb. change 18446744065119617025%N with (4294967295 * 4294967295)%N. apply N.mul_le_mono; lia. Qed.
Lemma mul32_ok : forall a b, (a < B32)%N -> (b < B32)%N -> mult32to64 a b = (a * b)%N.
Proof. intros a b Ha Hb. unfold mult32to64, mul64. apply w64_small. pose proof (prod32 a b Ha Hb). lia. Qed.
Lemma lor_low : forall a b, (b < B32)%N -> N.lor (a * B32) b = (a * B32 + b)%N.
Proof.
  intros a b H. rewrite <- N.lxor_lor, <- N.add_nocarry_lxor; [reflexivity| |];
  change B32 with (2 ^ 32)%N in *; rewrite <- N.shiftl_mul_pow2; apply N.bits_inj; intro i; rewrite N.land_spec, N.bits_0; destruct (N.ltb_spec i 32);
  try (rewrite N.shiftl_spec_low by assumption; reflexivity); rewrite (N.mod_small b (2 ^ 32)) || idtac; rewrite <- (N.mod_small b (2 ^ 32)) by exact H; rewrite N.mod_pow2_bits_high by assumption; apply andb_false_r.
Qed.
Lemma mult_ok : forall a b, (a < B64)%N -> (b < B64)%N -> mult64to128 a b = ((a * b) mod 2 ^ 64, (a * b) / 2 ^ 64)%N.
Proof.
  intros a b Ha Hb. unfold mult64to128. cbv zeta. rewrite !w32_land, !w32_hi by assumption. pose proof (m32_lt a) as A0. pose proof (m32_lt b) as B0. pose proof (hi_lt a Ha) as A1. pose proof (hi_lt b Hb) as B1.
  rewrite !mul32_ok by assumption. rewrite !shr32, !land32. set (a0 := (a mod B32)%N) in *. set (a1 := (a / B32)%N) in *. set (b0 := (b mod B32)%N) in *. set (b1 := (b / B32)%N) in *.
  assert (Ea : a = (a1 * B32 + a0)%N) by (unfold a1, a0; rewrite N.mul_comm; apply N.div_mod; discriminate). assert (Eb : b = (b1 * B32 + b0)%N) by (unfold b1, b0; rewrite N.mul_comm; apply N.div_mod; discriminate).
  pose proof (prod32 a0 b0 A0 B0) as H00. pose proof (prod32 a1 b0 A1 B0) as H10. pose proof (prod32 a0 b1 A0 B1) as H01. pose proof (prod32 a1 b1 A1 B1) as H11.
  assert (EP : (a * b = a1 * b1 * B64 + (a1 * b0 + a0 * b1) * B32 + a0 * b0)%N) by (rewrite Ea, Eb; ring).
  clearbody a0 a1 b0 b1. set (ll := (a0 * b0)%N) in *. set (hl := (a1 * b0)%N) in *. set (lh := (a0 * b1)%N) in *. set (hh := (a1 * b1)%N) in *. clearbody ll hl lh hh.
  pose proof (N.div_mod ll B32 ltac:(discriminate)) as Dll. pose proof (m32_lt ll) as Mll. pose proof (N.div_mod hl B32 ltac:(discriminate)) as Dhl. pose proof (m32_lt hl) as Mhl.
  set (cr := add64 (add64 (ll / B32) (hl mod B32)) lh). assert (Ec : cr = (ll / B32 + hl mod B32 + lh)%N).
  { unfold cr, add64. rewrite w64_add_l. apply w64_small. assert (ll / B32 <= 4294967294)%N by (apply N.lt_succ_r, N.div_lt_upper_bound; [discriminate|lia]). lia. }
  clearbody cr. pose proof (N.div_mod cr B32 ltac:(discriminate)) as Dc. pose proof (m32_lt cr) as Mc.
  assert (EL : N.lor (shl64 cr 32) (ll mod B32) = ((cr mod B32) * B32 + ll mod B32)%N).
  { unfold shl64. rewrite N.shiftl_mul_pow2, w64_mod. change (2 ^ 32)%N with B32. change B64 with (B32 * B32)%N. rewrite N.mul_mod_distr_r by discriminate. apply lor_low. exact Mll. }
  rewrite EL. assert (EU : (a * b = (hl / B32 + cr / B32 + hh) * B64 + ((cr mod B32) * B32 + ll mod B32))%N) by lia.
  assert (HL : ((cr mod B32) * B32 + ll mod B32 < B64)%N) by lia. change (2 ^ 64)%N with B64.
  assert (HU : (hl / B32 + cr / B32 + hh < B64)%N). { assert (a * b < B64 * B64)%N by (apply N.mul_lt_mono; assumption). nia. }
  f_equal.
  - rewrite EU. rewrite (N.add_comm (_ * B64)), N.mod_add by discriminate. symmetry. apply N.mod_small. exact HL.
  - unfold add64. rewrite w64_add_l, w64_small by exact HU. rewrite EU, N.div_add_l by discriminate. rewrite (N.div_small _ _ HL). lia.
Qed.
Lemma fold_ok : forall a b, (a < B64)%N -> (b < B64)%N -> mul128_fold64 a b = x3_fold a b.
Proof. intros a b Ha Hb. unfold mul128_fold64, x3_fold. rewrite mult_ok by assumption. reflexivity. Qed.
Lemma lxor_lt : forall a b, (a < B64 -> b < B64 -> N.lxor a b < B64)%N.
Proof.
  intros a b Ha Hb. destruct (N.eq_0_gt_0_cases (N.lxor a b)) as [E|E]; [rewrite E; reflexivity|]. change B64 with (2 ^ 64)%N in *. apply N.log2_lt_pow2; [exact E|].
  eapply N.le_lt_trans; [apply N.log2_lxor|]. destruct (N.eq_0_gt_0_cases a) as [Ea|Ea], (N.eq_0_gt_0_cases b) as [Eb|Eb]; subst; apply N.max_lub_lt; try (cbn; lia); apply N.log2_lt_pow2; assumption.
Qed.
Lemma add64_lt : forall a b, (add64 a b < B64)%N. Proof. intros. apply w64_lt. Qed.
Lemma sub64_lt : forall a b, (sub64 a b < B64)%N. Proof. intros. apply w64_lt. Qed.
Lemma mul64_lt : forall a b, (mul64 a b < B64)%N. Proof. intros. apply w64_lt. Qed.
Lemma rd8_lt : forall l o, isbytes l -> (x3_rd8 l o < B64)%N.
Proof.
  intros l o B. unfold x3_rd8, slice. replace (o + 8 - o) with 8 by lia. set (s := firstn 8 (skipn o l)). assert (BS : isbytes s) by (apply isbytes_firstn, isbytes_skipn; exact B).
  eapply N.lt_le_trans; [apply le_val_lt; exact BS|]. change B64 with (2 ^ 64)%N. apply N.pow_le_mono_r; [discriminate|]. assert (length s <= 8) by (unfold s; rewrite firstn_length; lia). lia.
Qed.
Lemma rd4_lt : forall l o, isbytes l -> (x3_rd4 l o < B32)%N.
Proof.
  intros l o B. unfold x3_rd4, slice. replace (o + 4 - o) with 4 by lia. set (s := firstn 4 (skipn o l)). assert (BS : isbytes s) by (apply isbytes_firstn, isbytes_skipn; exact B).
  eapply N.lt_le_trans; [apply le_val_lt; exact BS|]. change B32 with (2 ^ 32)%N. apply N.pow_le_mono_r; [discriminate|]. assert (length s <= 4) by (unfold s; rewrite firstn_length; lia). lia.
Qed.
Lemma rd8_skipn : forall l k o, getu64 (skipn k l) o = x3_rd8 l (k + o).
Proof. intros l k o. unfold getu64, x3_rd8, slice. rewrite Base.skipn_skipn. replace (o + 8 - o) with (k + o + 8 - (k + o)) by lia. do 2 f_equal; lia. Qed.
Lemma mix_ok : forall m i s j seed, isbytes m -> isbytes s -> mix16B (skipn i m) (skipn j s) seed = x3_mix m i s j seed.
Proof.
  intros m i s j seed Bm Bs. unfold mix16B, x3_mix. cbv zeta. rewrite !rd8_skipn, !Nat.add_0_r. apply fold_ok; apply lxor_lt; try (apply rd8_lt; assumption); [apply add64_lt|apply sub64_lt].
Qed.
(** ** Byte reversal *)
Definition by8x (k : N) (w : N) : N := w8 (N.shiftr w (8 * k)).
Lemma by8x_bit : forall k w i, N.testbit (by8x k w) i = (N.testbit w (i + 8 * k) && (i <? 8)%N)%bool.
Proof.
  intros. unfold by8x, w8. change 255%N with (N.ones 8). rewrite N.land_spec, N.shiftr_spec by apply N.le_0_l. f_equal.
  destruct (N.ltb_spec i 8); [apply N.ones_spec_low|apply N.ones_spec_high]; assumption.
Qed.
Lemma by8x_lor : forall k a b, by8x k (N.lor a b) = N.lor (by8x k a) (by8x k b).
Proof. intros. apply N.bits_inj. intro i. rewrite N.lor_spec, !by8x_bit, N.lor_spec. destruct (i <? 8)%N; now rewrite ?andb_true_r, ?andb_false_r. Qed.
Lemma by8x_land : forall k a b, by8x k (N.land a b) = N.land (by8x k a) (by8x k b).
Proof. intros. apply N.bits_inj. intro i. rewrite N.land_spec, !by8x_bit, N.land_spec. destruct (i <? 8)%N; now rewrite ?andb_true_r, ?andb_false_r. Qed.
Lemma by8x_255 : forall k w, N.land (by8x k w) 255 = by8x k w.
Proof. intros. unfold by8x, w8. rewrite <- N.land_assoc. reflexivity. Qed.
Lemma by8x_shl : forall n k s w, (s <= k)%N -> (8 * k + 8 <= n)%N -> by8x k (N.land (N.shiftl w (8 * s)) (N.ones n)) = by8x (k - s) w.
Proof.
  intros n k s w Hs Hn. apply N.bits_inj. intro i. rewrite !by8x_bit. destruct (N.ltb_spec i 8) as [H|H]; rewrite ?andb_false_r, ?andb_true_r; [|reflexivity].
  rewrite N.land_spec, N.ones_spec_low by lia. rewrite andb_true_r, N.shiftl_spec_high' by lia. f_equal. lia.
Qed.
Lemma by8x_shr : forall k s w, by8x k (N.shiftr w (8 * s)) = by8x (k + s) w.
Proof. intros. unfold by8x. rewrite N.shiftr_shiftr. do 2 f_equal. lia. Qed.
Lemma sh_l : forall n k s t w, (t = 8 * s)%N -> (s <= k)%N -> (8 * k + 8 <= n)%N -> by8x k (N.land (N.shiftl w t) (N.ones n)) = by8x (k - s) w.
Proof. intros n k s t w -> Hs Hn. apply by8x_shl; assumption. Qed.
Lemma sh_r : forall k s t w, (t = 8 * s)%N -> by8x k (N.shiftr w t) = by8x (k + s) w.
Proof. intros k s t w ->. apply by8x_shr. Qed.
Lemma le8x : forall w, le_bytes 8 w = [by8x 0 w; by8x 1 w; by8x 2 w; by8x 3 w; by8x 4 w; by8x 5 w; by8x 6 w; by8x 7 w].
Proof. intro w. unfold by8x. cbn [le_bytes]. rewrite !N.shiftr_shiftr. cbn [N.mul N.add Pos.add Pos.mul]. rewrite N.shiftr_0_r. reflexivity. Qed.
Lemma le4x : forall w, le_bytes 4 w = [by8x 0 w; by8x 1 w; by8x 2 w; by8x 3 w].
Proof. intro w. unfold by8x. cbn [le_bytes]. rewrite !N.shiftr_shiftr. cbn [N.mul N.add Pos.add Pos.mul]. rewrite N.shiftr_0_r. reflexivity. Qed.
Lemma le_inj : forall k a b, (a < 2 ^ N.of_nat (8 * k))%N -> (b < 2 ^ N.of_nat (8 * k))%N -> le_bytes k a = le_bytes k b -> a = b.
Proof.
  intros k a b Ha Hb E. apply (f_equal le_val) in E. rewrite !le_val_le_bytes in E. rewrite <- (N.mod_small a (2 ^ N.of_nat (8 * k))), <- (N.mod_small b (2 ^ N.of_nat (8 * k))) by assumption.
  replace (2 ^ N.of_nat (8 * k))%N with (256 ^ N.of_nat k)%N in *; [exact E|]. change 256%N with (2 ^ 8)%N. rewrite <- N.pow_mul_r. f_equal. lia.
Qed.
Lemma bswap_lt : forall k x, (x3_bswap k x < 2 ^ N.of_nat (8 * k))%N.
Proof.
  intros k x. unfold x3_bswap, be_val. pose proof (le_val_lt (rev (le_bytes k x)) ltac:(apply Forall_rev, le_bytes_isbytes)) as H. rewrite rev_length, le_bytes_length in H. exact H.
Qed.
Lemma bswap_bytes : forall k x, le_bytes k (x3_bswap k x) = rev (le_bytes k x).
Proof.
  intros k x. unfold x3_bswap, be_val. pose proof (le_bytes_le_val (rev (le_bytes k x)) ltac:(apply Forall_rev, le_bytes_isbytes)) as H. rewrite rev_length, le_bytes_length in H. exact H.
Qed.
Lemma lorlt : forall n a b, (a < 2 ^ n -> b < 2 ^ n -> N.lor a b < 2 ^ n)%N.
Proof.
  intros n a b Ha Hb. destruct (N.eq_0_gt_0_cases (N.lor a b)) as [E|E]; [rewrite E; apply N.neq_0_lt_0, N.pow_nonzero; discriminate|]. apply N.log2_lt_pow2; [exact E|]. rewrite N.log2_lor.
  destruct (N.eq_0_gt_0_cases n) as [->|Hn]; [cbn in Ha, Hb; assert (a = 0 /\ b = 0)%N as [-> ->] by lia; cbn in E; lia|].
  destruct (N.eq_0_gt_0_cases a) as [Ea|Ea], (N.eq_0_gt_0_cases b) as [Eb|Eb]; subst; apply N.max_lub_lt; try (cbn; lia); apply N.log2_lt_pow2; assumption.
Qed.
Lemma landlt : forall n a b, (b < 2 ^ n -> N.land a b < 2 ^ n)%N.
Proof.
  intros n a b H. eapply N.le_lt_trans; [|exact H]. rewrite N.land_comm. clear. 
  assert (E : b = (N.land b a + N.ldiff b a)%N).
  { rewrite N.add_nocarry_lxor; [|apply N.bits_inj; intro i; rewrite !N.land_spec, N.ldiff_spec, N.bits_0; destruct (N.testbit b i), (N.testbit a i); reflexivity].
    apply N.bits_inj. intro i. rewrite N.lxor_spec, N.land_spec, N.ldiff_spec. destruct (N.testbit b i), (N.testbit a i); reflexivity. }
  rewrite E at 2. apply N.le_add_r.
Qed.
Ltac bmask := match goal with |- context [by8x ?k ?c] => match c with N.pos _ => let v := eval vm_compute in (by8x k c) in change (by8x k c) with v end end.
Lemma shl_alt64 : forall x s, shl64 x s = N.land (N.shiftl x s) (N.ones 64). Proof. reflexivity. Qed.
Lemma shl_alt32 : forall x s, shl32 x s = N.land (N.shiftl x s) (N.ones 32). Proof. reflexivity. Qed.
Lemma swap64_ok : forall x, swap64 x = x3_bswap 8 x.
Proof.
  intro x. apply (le_inj 8); [|apply bswap_lt|].
  - change (2 ^ N.of_nat (8 * 8))%N with (2 ^ 64)%N. unfold swap64. repeat (apply lorlt || (apply landlt; reflexivity)).
  - rewrite bswap_bytes, !le8x. unfold swap64. rewrite !by8x_lor, !by8x_land. repeat bmask. rewrite !N.land_0_r, !N.lor_0_l, !N.lor_0_r, !by8x_255, !shl_alt64.
    rewrite (sh_l 64 7 7 56), (sh_l 64 6 5 40), (sh_l 64 5 3 24), (sh_l 64 4 1 8), (sh_r 3 1 8), (sh_r 2 3 24), (sh_r 1 5 40), (sh_r 0 7 56) by (reflexivity || discriminate).
    cbn [rev app]. reflexivity.
Qed.
Lemma swap32_ok : forall x, swap32 x = x3_bswap 4 x.
Proof.
  intro x. apply (le_inj 4); [|apply bswap_lt|].
  - change (2 ^ N.of_nat (8 * 4))%N with (2 ^ 32)%N. unfold swap32. repeat (apply lorlt || (apply landlt; reflexivity)).
  - rewrite bswap_bytes, !le4x. unfold swap32. rewrite !by8x_lor, !by8x_land. repeat bmask. rewrite !N.land_0_r, !N.lor_0_l, !N.lor_0_r, !by8x_255, !shl_alt32.
    rewrite (sh_l 32 3 3 24), (sh_l 32 2 1 8), (sh_r 1 1 8), (sh_r 0 3 24) by (reflexivity || discriminate). cbn [rev app]. reflexivity.
Qed.
(** ** Up to 16 bytes *)
Lemma av_ok : forall h, avalanche h = x3_av h. Proof. reflexivity. Qed.
Lemma by8x_low : forall n k s t w, (t = 8 * s)%N -> (k < s)%N -> by8x k (N.land (N.shiftl w t) (N.ones n)) = 0%N.
Proof.
  intros n k s t w -> H. apply N.bits_inj. intro i. rewrite by8x_bit, N.bits_0. destruct (N.ltb_spec i 8); rewrite ?andb_false_r, ?andb_true_r; [|reflexivity].
  rewrite N.land_spec, N.shiftl_spec_low by lia. reflexivity.
Qed.
Lemma by8x_small : forall k c, (c < 256)%N -> (1 <= k)%N -> by8x k c = 0%N.
Proof. intros k c H Hk. unfold by8x. rewrite N.shiftr_div_pow2, N.div_small; [reflexivity|]. eapply N.lt_le_trans; [exact H|]. change 256%N with (2 ^ 8)%N. apply N.pow_le_mono_r; [discriminate|lia]. Qed.
Lemma by8x_0 : forall c, (c < 256)%N -> by8x 0 c = c. Proof. intros c H. unfold by8x. rewrite N.mul_0_r, N.shiftr_0_r. apply w8_small. exact H. Qed.
Lemma at_byte : forall l i, isbytes l -> (at_ l i < 256)%N.
Proof. intros l i B. unfold at_. destruct (nth_in_or_default i l 0%N) as [X|X]; [unfold isbytes in B; rewrite Forall_forall in B; apply B, X|rewrite X; reflexivity]. Qed.
Lemma comb4 : forall a b c d, (a < 256 -> b < 256 -> c < 256 -> d < 256 ->
  N.lor (N.lor (N.lor (shl32 a 16) (shl32 b 24)) (shl32 c 0)) (shl32 d 8) = c + 2 ^ 8 * d + 2 ^ 16 * a + 2 ^ 24 * b)%N.
Proof.
  intros a b c d Ha Hb Hc Hd. assert (B : isbytes [c; d; a; b]) by (repeat (constructor; [assumption|]); constructor).
  transitivity (le_val [c; d; a; b]); [|cbn [le_val]; lia]. apply (le_inj 4).
  - change (2 ^ N.of_nat (8 * 4))%N with (2 ^ 32)%N. unfold shl32, w32. repeat (apply lorlt || (apply landlt; reflexivity)).
  - exact (le_val_lt _ B).
  - pose proof (le_bytes_le_val _ B) as E. cbn [length] in E. rewrite E, le4x, !by8x_lor, !shl_alt32.
    rewrite (by8x_low 32 0 2 16), (by8x_low 32 0 3 24), (sh_l 32 0 0 0), (by8x_low 32 0 1 8), (by8x_low 32 1 2 16), (by8x_low 32 1 3 24), (sh_l 32 1 0 0), (sh_l 32 1 1 8),
      (sh_l 32 2 2 16), (by8x_low 32 2 3 24), (sh_l 32 2 0 0), (sh_l 32 2 1 8), (sh_l 32 3 2 16), (sh_l 32 3 3 24), (sh_l 32 3 0 0), (sh_l 32 3 1 8) by (reflexivity || discriminate).
    cbn [N.sub Pos.sub_mask Pos.pred_double Pos.double_mask Pos.succ_double_mask Pos.pred_mask Pos.double_pred_mask]. rewrite !by8x_0 by assumption. rewrite !by8x_small by (assumption || discriminate). rewrite !N.lor_0_r, ?N.lor_0_l. reflexivity.
Qed.
Lemma comb_ok : forall m, isbytes m -> length m < 256 -> combined m = x3_comb m.
Proof.
  intros m B L. unfold combined, x3_comb. cbv zeta. rewrite w32_mod, (N.mod_small (N.of_nat (length m))) by lia. apply comb4; try (apply at_byte; exact B). lia.
Qed.
Lemma seed48_ok : forall seed, N.lxor seed (shl64 (swap32 (w32 seed)) 32) = x3_seed48 seed.
Proof.
  intro seed. unfold x3_seed48. f_equal. rewrite swap32_ok, w32_mod. change (2 ^ 32)%N with B32. pose proof (bswap_lt 4 (seed mod B32)) as H. change (2 ^ N.of_nat (8 * 4))%N with B32 in H.
  unfold shl64. rewrite N.shiftl_mul_pow2, N.mul_comm. change (2 ^ 32)%N with B32. apply w64_small. lia.
Qed.
Lemma in64_ok : forall a b, (a < B32)%N -> (b < B32)%N -> add64 a (shl64 b 32) = (a + 2 ^ 32 * b)%N.
Proof. intros a b Ha Hb. unfold add64, shl64. rewrite w64_add_r, N.shiftl_mul_pow2, (N.mul_comm b). change (2 ^ 32)%N with B32. apply w64_small. lia. Qed.
Lemma w64_len : forall n, n <= 256 -> w64 (N.of_nat n) = N.of_nat n. Proof. intros n H. apply w64_small. lia. Qed.
Lemma add64_3 : forall a b c, add64 (add64 a b) c = w64 (a + b + c). Proof. intros. unfold add64. apply w64_add_l. Qed.
Lemma add64_4 : forall a b c d, add64 (add64 (add64 a b) c) d = w64 (a + b + c + d). Proof. intros. rewrite add64_3. unfold add64. rewrite <- N.add_assoc, w64_add_l, N.add_assoc. reflexivity. Qed.
Lemma small64_ok : forall m s seed, isbytes m -> isbytes s -> length m <= 16 -> len_0to16_64b m s seed = x3_small64 x3_av s seed m.
Proof.
  intros m s seed Bm Bs L. unfold len_0to16_64b, x3_small64. cbv zeta. destruct (Nat.ltb_spec 8 (length m)) as [H8|H8].
  - destruct (Nat.eqb_spec (length m) 0); [lia|]. destruct (Nat.leb_spec (length m) 3); [lia|]. destruct (Nat.leb_spec (length m) 8); [lia|].
    unfold len_9to16_64b. cbv zeta. rewrite av_ok. f_equal. rewrite swap64_ok, w64_len by lia. unfold getu64. rewrite fold_ok; try (apply lxor_lt; [apply rd8_lt; assumption|apply add64_lt || apply sub64_lt]).
    apply add64_4.
  - destruct (Nat.leb_spec 4 (length m)) as [H4|H4].
    + destruct (Nat.eqb_spec (length m) 0); [lia|]. destruct (Nat.leb_spec (length m) 3); [lia|]. destruct (Nat.leb_spec (length m) 8); [|lia].
      unfold len_4to8_64b, rrmxmx. cbv zeta. rewrite seed48_ok. unfold getu32, getu64. rewrite in64_ok by (apply rd4_lt; exact Bm). rewrite w64_len by lia.
      set (h := mul64 (N.lxor _ (N.lxor _ _)) X3MX2). assert (Hh : (h < B64)%N) by apply mul64_lt. clearbody h.
      assert (E : add64 (N.shiftr h 35) (N.of_nat (length m)) = (N.shiftr h 35 + N.of_nat (length m))%N).
      { apply w64_small. rewrite N.shiftr_div_pow2. change (2 ^ 35)%N with 34359738368%N. pose proof (N.div_lt_upper_bound h 34359738368 536870912 ltac:(discriminate) Hh). lia. }
      rewrite E. reflexivity.
    + destruct (Nat.ltb_spec 0 (length m)) as [H0|H0].
      * destruct (Nat.eqb_spec (length m) 0); [lia|]. destruct (Nat.leb_spec (length m) 3); [|lia]. unfold len_1to3_64b. cbv zeta. rewrite comb_ok by (assumption || lia). reflexivity.
      * destruct (Nat.eqb_spec (length m) 0); [|lia]. reflexivity.
Qed.
Lemma w64_mod' : forall x, w64 x = (x mod 2 ^ 64)%N. Proof. exact w64_mod. Qed.
Lemma small128_ok : forall m s seed, isbytes m -> isbytes s -> length m <= 16 -> len_0to16_128b m s seed = x3_small128 x3_av s seed m.
Proof.
  intros m s seed Bm Bs L. unfold len_0to16_128b, x3_small128. cbv zeta. destruct (Nat.ltb_spec 8 (length m)) as [H8|H8].
  - destruct (Nat.eqb_spec (length m) 0); [lia|]. destruct (Nat.leb_spec (length m) 3); [lia|]. destruct (Nat.leb_spec (length m) 8); [lia|].
    unfold len_9to16_128b. cbv zeta. unfold getu64. set (k := N.lxor (N.lxor _ _) (sub64 _ _)). assert (Hk : (k < B64)%N) by (apply lxor_lt; [apply lxor_lt; apply rd8_lt; assumption|apply sub64_lt]). clearbody k.
    rewrite (mult_ok k X3P64_1 Hk eq_refl). cbn [fst snd]. set (vh := N.lxor (x3_rd8 m (length m - 8)) _). assert (Hv : (vh < B64)%N) by (apply lxor_lt; [apply rd8_lt; assumption|apply add64_lt]). clearbody vh.
    set (p := (k * X3P64_1)%N). assert (EL : add64 (p mod 2 ^ 64) (shl64 (w64 (N.of_nat (length m - 1))) 54) = w64 (p + 2 ^ 54 * N.of_nat (length m - 1))).
    { unfold add64, shl64. rewrite w64_add_r, <- w64_mod', w64_add_l, N.shiftl_mul_pow2, w64_len by lia. f_equal. lia. }
    assert (EH : add64 (p / 2 ^ 64) (add64 vh (mult32to64 (w32 vh) (X3P32_2 - 1))) = w64 (p / 2 ^ 64 + vh + vh mod 2 ^ 32 * (X3P32_2 - 1))).
    { unfold add64, mult32to64, mul64. rewrite !w64_add_r. rewrite w32_mod, N.add_assoc, w64_add_r. reflexivity. }
    rewrite EL, EH. clear EL EH. set (hi := w64 (p / 2 ^ 64 + vh + vh mod 2 ^ 32 * (X3P32_2 - 1))). assert (Hh : (hi < B64)%N) by apply w64_lt. clearbody hi.
    rewrite swap64_ok. set (lo := N.lxor (w64 _) (x3_bswap 8 hi)). assert (Hl : (lo < B64)%N) by (apply lxor_lt; [apply w64_lt|exact (bswap_lt 8 hi)]). clearbody lo.
    rewrite (mult_ok lo X3P64_2 Hl eq_refl). cbn [fst snd].
    assert (Q1 : (((lo + 2 ^ 64 * hi) * X3P64_2) mod 2 ^ 64 = (lo * X3P64_2) mod 2 ^ 64)%N).
    { replace ((lo + 2 ^ 64 * hi) * X3P64_2)%N with (lo * X3P64_2 + (hi * X3P64_2) * 2 ^ 64)%N by lia. apply N.mod_add. discriminate. }
    assert (Q2 : (((lo + 2 ^ 64 * hi) * X3P64_2) / 2 ^ 64 = (lo * X3P64_2) / 2 ^ 64 + hi * X3P64_2)%N).
    { replace ((lo + 2 ^ 64 * hi) * X3P64_2)%N with (lo * X3P64_2 + (hi * X3P64_2) * 2 ^ 64)%N by lia. apply N.div_add. discriminate. }
    rewrite Q1, Q2, <- (w64_mod' (_ + hi * X3P64_2)). unfold add64, mul64. rewrite w64_add_r. reflexivity.
  - destruct (Nat.leb_spec 4 (length m)) as [H4|H4].
    + destruct (Nat.eqb_spec (length m) 0); [lia|]. destruct (Nat.leb_spec (length m) 3); [lia|]. destruct (Nat.leb_spec (length m) 8); [|lia].
      unfold len_4to8_128b. cbv zeta. rewrite seed48_ok. unfold getu32, getu64. rewrite in64_ok by (apply rd4_lt; exact Bm).
      assert (EN : add64 X3P64_1 (w64 (N.shiftl (N.of_nat (length m)) 2)) = (X3P64_1 + 4 * N.of_nat (length m))%N).
      { unfold add64. rewrite w64_add_r, N.shiftl_mul_pow2. change (2 ^ 2)%N with 4%N. rewrite N.mul_comm. apply w64_small. unfold X3P64_1. lia. }
      rewrite EN. set (v := N.lxor (_ + _) (add64 _ _)). assert (Hv : (v < B64)%N).
      { apply lxor_lt; [|apply add64_lt]. change (2 ^ 32)%N with B32. pose proof (rd4_lt m 0 Bm). pose proof (rd4_lt m (length m - 4) Bm). lia. }
      clearbody v. rewrite mult_ok by (exact Hv || (unfold X3P64_1; lia)). cbn [fst snd].
      set (p := (v * (X3P64_1 + 4 * N.of_nat (length m)))%N). assert (EH : add64 (p / 2 ^ 64) (shl64 (p mod 2 ^ 64) 1) = w64 (p / 2 ^ 64 + 2 * (p mod 2 ^ 64))).
      { unfold add64, shl64. rewrite w64_add_r, N.shiftl_mul_pow2. change (2 ^ 1)%N with 2%N. f_equal. lia. }
      rewrite EH. reflexivity.
    + destruct (Nat.ltb_spec 0 (length m)) as [H0|H0].
      * destruct (Nat.eqb_spec (length m) 0); [lia|]. destruct (Nat.leb_spec (length m) 3); [|lia]. unfold len_1to3_128b. cbv zeta. rewrite comb_ok, swap32_ok by (assumption || lia). reflexivity.
      * destruct (Nat.eqb_spec (length m) 0); [|lia]. reflexivity.
Qed.
Lemma av_eq : avalanche = x3_av. Proof. reflexivity. Qed.
(** ** 17 to 240 bytes *)
Lemma sum_fold : forall (f : nat -> N) l a, (a < B64)%N -> fold_left (fun a i => add64 a (f i)) l a = w64 (a + x3_sum f l).
Proof.
  intros f l. induction l as [|i l IH]; intros a H; cbn [fold_left x3_sum fold_right]; [rewrite N.add_0_r; symmetry; apply w64_small; exact H|].
  rewrite IH by apply add64_lt. unfold add64. rewrite w64_add_l. fold (x3_sum f l). f_equal. lia.
Qed.
Lemma sum_ext : forall (f g : nat -> N) l, (forall i, In i l -> f i = g i) -> x3_sum f l = x3_sum g l.
Proof. intros f g l. induction l as [|i l IH]; intro H; [reflexivity|]. cbn [x3_sum fold_right]. fold (x3_sum f l) (x3_sum g l). rewrite (H i), IH; [reflexivity| |left; reflexivity]. intros j Hj. apply H. right. exact Hj. Qed.
Lemma mul_len : forall n c, n <= 256 -> mul64 (w64 (N.of_nat n)) c = w64 (N.of_nat n * c). Proof. intros n c H. rewrite w64_len by exact H. reflexivity. Qed.
Ltac fl := unfold add64; repeat (rewrite w64_add_l || rewrite w64_add_r); repeat (rewrite <- N.add_assoc; rewrite w64_add_l; rewrite N.add_assoc).
Lemma w64_acc : forall a b c, w64 (w64 a + b + c) = w64 (a + b + c). Proof. intros. rewrite <- N.add_assoc, w64_add_l, N.add_assoc. reflexivity. Qed.
Lemma add2 : forall a x y, add64 (add64 (w64 a) x) y = w64 (a + (x + y)). Proof. intros. rewrite add64_3, w64_acc. f_equal. lia. Qed.
Lemma mid64_ok : forall m s seed, isbytes m -> isbytes s -> 17 <= length m <= 128 -> len_17to128_64b m s seed = x3_mid64 s seed m.
Proof.
  intros m s seed Bm Bs L. unfold len_17to128_64b, x3_mid64. cbv zeta. rewrite !mix_ok by assumption. rewrite mul_len by lia. rewrite av_ok. f_equal.
  assert (D : (length m - 1) / 32 = (if 96 <? length m then 3 else if 64 <? length m then 2 else if 32 <? length m then 1 else 0)).
  { destruct (Nat.ltb_spec 96 (length m)); [symmetry; apply (Nat.div_unique _ 32 3 (length m - 97)); lia|]. destruct (Nat.ltb_spec 64 (length m)); [symmetry; apply (Nat.div_unique _ 32 2 (length m - 65)); lia|].
    destruct (Nat.ltb_spec 32 (length m)); [symmetry; apply (Nat.div_unique _ 32 1 (length m - 33)); lia|]. apply Nat.div_small. lia. }
  rewrite D. clear D. set (n := length m) in *. clearbody n. destruct (Nat.ltb_spec 96 n); [|destruct (Nat.ltb_spec 64 n); [|destruct (Nat.ltb_spec 32 n)]];
  repeat match goal with |- context [?a <? n] => first [(destruct (Nat.ltb_spec a n); [|lia]) | (destruct (Nat.ltb_spec a n); [lia|])] end;
  rewrite !add2; cbn [x3_sum fold_right seq Nat.add Nat.mul]; f_equal; lia.
Qed.
Lemma mix32_ok : forall m s seed a i j k, isbytes m -> isbytes s -> mix32B a (skipn i m) (skipn j m) (skipn k s) seed = x3_mix2 m s seed a (i, j, k).
Proof.
  intros m s seed a i j k Bm Bs. unfold mix32B, x3_mix2. cbv zeta. rewrite !Base.skipn_skipn. rewrite !mix_ok by assumption. rewrite !rd8_skipn, !Nat.add_0_r. cbn [Nat.add]. reflexivity.
Qed.
Lemma acc3w : forall a b c : N, w64 (w64 (w64 a + w64 b) + w64 c) = w64 (a + b + c).
Proof. intros. rewrite (w64_add_l a), (w64_add_r a b), (w64_add_l (a + b)), (w64_add_r (a + b) c). reflexivity. Qed.
Lemma end_ok : forall n seed a, n <= 256 -> end128 n seed a = x3_end128 n seed a.
Proof.
  intros n seed a H. unfold end128, x3_end128. cbv zeta. rewrite w64_len by exact H. unfold add64 at 2 3, mul64. rewrite (acc3w _ _ _), !av_ok. reflexivity.
Qed.
Lemma mid128_ok : forall m s seed, isbytes m -> isbytes s -> 17 <= length m <= 128 -> len_17to128_128b m s seed = x3_mid128 s seed m.
Proof.
  intros m s seed Bm Bs L. unfold len_17to128_128b, x3_mid128. cbv zeta. change (mix32B ?a m ?b s seed) with (mix32B a (skipn 0 m) b (skipn 0 s) seed). rewrite !mix32_ok by assumption. rewrite end_ok by lia. rewrite w64_len by lia. f_equal.
  assert (D : (length m - 1) / 32 = (if 96 <? length m then 3 else if 64 <? length m then 2 else if 32 <? length m then 1 else 0)).
  { destruct (Nat.ltb_spec 96 (length m)); [symmetry; apply (Nat.div_unique _ 32 3 (length m - 97)); lia|]. destruct (Nat.ltb_spec 64 (length m)); [symmetry; apply (Nat.div_unique _ 32 2 (length m - 65)); lia|].
    destruct (Nat.ltb_spec 32 (length m)); [symmetry; apply (Nat.div_unique _ 32 1 (length m - 33)); lia|]. apply Nat.div_small. lia. }
  rewrite D. clear D. set (n := length m) in *. clearbody n. destruct (Nat.ltb_spec 96 n); [|destruct (Nat.ltb_spec 64 n); [|destruct (Nat.ltb_spec 32 n)]];
  repeat match goal with |- context [?a <? n] => first [(destruct (Nat.ltb_spec a n); [|lia]) | (destruct (Nat.ltb_spec a n); [lia|])] end;
  cbn [map fold_left seq rev app Nat.add Nat.mul]; reflexivity.
Qed.
Lemma large64_ok : forall m s seed, isbytes m -> isbytes s -> 129 <= length m <= 240 -> len_129to240_64b m s seed = x3_large64 s seed m.
Proof.
  intros m s seed Bm Bs L. unfold len_129to240_64b, x3_large64. cbv zeta. rewrite mul_len by lia. rewrite !sum_fold; [|rewrite mix_ok by assumption|apply w64_lt].
  - rewrite w64_add_l, av_eq, mix_ok by assumption. change (136 - 17) with 119. f_equal. unfold add64. rewrite w64_add_r. f_equal.
    rewrite (sum_ext (fun i => mix16B (skipn (16 * i) m) (skipn (16 * i) s) seed) (fun i => x3_mix m (16 * i) s (16 * i) seed)) by (intros; apply mix_ok; assumption).
    rewrite (sum_ext (fun i => mix16B (skipn (16 * i) m) (skipn (16 * (i - 8) + 3) s) seed) (fun i => x3_mix m (16 * i) s (16 * i - 125) seed)).
    + lia.
    + intros i Hi. apply in_seq in Hi. rewrite mix_ok by assumption. f_equal. lia.
  - unfold x3_mix, x3_fold. apply lxor_lt; [apply N.mod_lt; discriminate|]. apply N.div_lt_upper_bound; [discriminate|]. apply N.mul_lt_mono; (apply lxor_lt; [apply rd8_lt; assumption|apply add64_lt || apply sub64_lt]).
Qed.
Lemma fold_in : forall A (f g : A -> nat -> A) l a, (forall a i, In i l -> f a i = g a i) -> fold_left f l a = fold_left g l a.
Proof. intros A f g l. induction l as [|i l IH]; intros a H; [reflexivity|]. cbn [fold_left]. rewrite H by (left; reflexivity). apply IH. intros b j Hj. apply H. right. exact Hj. Qed.
Lemma fold_left_map_ : forall A B C (f : A -> B -> A) (g : C -> B) l a, fold_left f (map g l) a = fold_left (fun a x => f a (g x)) l a.
Proof. intros A B C f g l. induction l as [|x l IH]; intro a; [reflexivity|]. cbn [map fold_left]. apply IH. Qed.
Lemma large128_ok : forall m s seed, isbytes m -> isbytes s -> 129 <= length m <= 240 -> len_129to240_128b m s seed = x3_large128 s seed m.
Proof.
  intros m s seed Bm Bs L. unfold len_129to240_128b, x3_large128. cbv zeta. rewrite w64_len by lia. rewrite mix32_ok by assumption. rewrite end_ok by lia. change (136 - 17 - 16) with 103. f_equal. f_equal.
  rewrite <- (seq_shift 4 0), <- (seq_shift (length m / 32 - 4) 4). rewrite !fold_left_map_.
  rewrite (fold_in _ _ (fun a x => x3_mix2 m s seed a (32 * x, 32 * x + 16, 32 * x)) (seq 0 4)).
  2:{ intros a i Hi. rewrite mix32_ok by assumption. f_equal. f_equal; [f_equal|]; lia. }
  set (a := fold_left _ (seq 0 4) _). clearbody a. rewrite av_eq. apply fold_in. intros b i Hi. apply in_seq in Hi. rewrite mix32_ok by assumption. f_equal. f_equal; [f_equal|]; lia.
Qed.
(** ** Stripes *)
Lemma lane_e : forall k a d, (k < B64)%N -> add64 (add64 (mult32to64 (w32 k) (w32 (N.shiftr k 32))) a) d = w64 (a + d + (k mod 2 ^ 32) * (k / 2 ^ 32)).
Proof. intros k a d H. rewrite w32_hi by exact H. rewrite w32_mod. unfold mult32to64, mul64. rewrite add64_3, w64_acc. f_equal. change (2 ^ 32)%N with B32. lia. Qed.
Lemma lane_o : forall k a d, (k < B64)%N -> add64 (mult32to64 (w32 k) (w32 (N.shiftr k 32))) (add64 a d) = w64 (a + d + (k mod 2 ^ 32) * (k / 2 ^ 32)).
Proof. intros k a d H. rewrite w32_hi by exact H. rewrite w32_mod. unfold mult32to64, mul64, add64. rewrite w64_add_r, w64_add_l. f_equal. change (2 ^ 32)%N with B32. lia. Qed.
Lemma key_lt : forall a b i j, isbytes a -> isbytes b -> (N.lxor (x3_rd8 a i) (x3_rd8 b j) < B64)%N.
Proof. intros. apply lxor_lt; apply rd8_lt; assumption. Qed.
Lemma rd8_firstn : forall l k o, o + 8 <= k -> x3_rd8 (firstn k l) o = x3_rd8 l o.
Proof. intros l k o H. unfold x3_rd8, slice. f_equal. rewrite skipn_firstn_comm, firstn_firstn. f_equal. lia. Qed.
Lemma accum_first : forall s o acc l, x3_accum s o acc (firstn 64 l) = x3_accum s o acc l.
Proof. intros. unfold x3_accum. cbn [seq map Nat.even Nat.mul Nat.add Nat.sub]. cbv zeta. rewrite !rd8_firstn by (apply Nat.leb_le; reflexivity). reflexivity. Qed.
Definition rnd (D K : nat -> N) (P : N -> N) (acc : list N) (lane : nat) : list N :=
  let acc := upd acc (Nat.lxor lane 1) (add64 (at_ acc (Nat.lxor lane 1)) (D lane)) in upd acc lane (add64 (P (N.lxor (D lane) (K lane))) (at_ acc lane)).
Lemma rnd_all : forall D K P a0 a1 a2 a3 a4 a5 a6 a7, fold_left (rnd D K P) (seq 0 8) [a0; a1; a2; a3; a4; a5; a6; a7] =
  let k i := P (N.lxor (D i) (K i)) in [add64 (add64 (k 0) a0) (D 1); add64 (k 1) (add64 a1 (D 0)); add64 (add64 (k 2) a2) (D 3); add64 (k 3) (add64 a3 (D 2));
    add64 (add64 (k 4) a4) (D 5); add64 (k 5) (add64 a5 (D 4)); add64 (add64 (k 6) a6) (D 7); add64 (k 7) (add64 a7 (D 6))].
Proof. intros. lazy -[add64 N.lxor]. reflexivity. Qed.
Lemma accum_ok : forall acc l s o, length acc = 8 -> isbytes l -> isbytes s -> accumulate_512 acc l (skipn o s) = x3_accum s o acc l.
Proof.
  intros acc l s o L Bl Bs. destr_list acc L 8. unfold accumulate_512.
  transitivity (fold_left (rnd (fun i => x3_rd8 l (8 * i)) (fun i => x3_rd8 s (o + 8 * i)) (fun k => mult32to64 (w32 k) (w32 (N.shiftr k 32)))) (seq 0 8) [n; n0; n1; n2; n3; n4; n5; n6]).
  { apply fold_in. intros a i _. unfold scalarRound, rnd. cbv zeta. rewrite rd8_skipn, (Nat.mul_comm i 8). reflexivity. }
  rewrite rnd_all. cbv beta zeta. rewrite !lane_e, !lane_o by (apply key_lt; assumption). unfold x3_accum. cbn [seq map Nat.even at_ nth Nat.sub Nat.add]. cbv zeta. reflexivity.
Qed.
Lemma accum_length : forall s o acc l, length (x3_accum s o acc l) = 8. Proof. reflexivity. Qed.
Lemma scr_all : forall (f : nat -> N) (g : N -> N -> N) a0 a1 a2 a3 a4 a5 a6 a7, fold_left (fun acc i => upd acc i (g (at_ acc i) (f i))) (seq 0 8) [a0; a1; a2; a3; a4; a5; a6; a7] =
  map (fun i => g (at_ [a0; a1; a2; a3; a4; a5; a6; a7] i) (f i)) (seq 0 8).
Proof. intros. lazy. reflexivity. Qed.
Lemma scramble_ok : forall acc s, length acc = 8 -> scrambleAcc acc (skipn (length s - 64) s) = x3_scramble s acc.
Proof.
  intros acc s L. destr_list acc L 8. unfold scrambleAcc, x3_scramble.
  transitivity (fold_left (fun acc i => upd acc i (mul64 (N.lxor (x3_shx (at_ acc i) 47) (x3_rd8 s (length s - 64 + 8 * i))) X3P32_1)) (seq 0 8) [n; n0; n1; n2; n3; n4; n5; n6]).
  { apply fold_in. intros a i _. unfold scalarScrambleRound. cbv zeta. rewrite rd8_skipn, (Nat.mul_comm i 8). reflexivity. }
  set (q := length s - 64). clearbody q. exact (scr_all (fun i => x3_rd8 s (q + 8 * i)) (fun a k => mul64 (N.lxor (x3_shx a 47) k) X3P32_1) _ _ _ _ _ _ _ _).
Qed.
Lemma scramble_length : forall s acc, length (x3_scramble s acc) = 8. Proof. reflexivity. Qed.
(** lanes are 64-bit words *)
Definition lanes (acc : list N) : Prop := length acc = 8 /\ Forall (fun x => x < B64)%N acc.
Lemma lanes_at : forall acc i, lanes acc -> (at_ acc i < B64)%N.
Proof. intros acc i [_ H]. unfold at_. destruct (Nat.lt_ge_cases i (length acc)); [rewrite Forall_forall in H; apply H, nth_In; assumption|rewrite nth_overflow by assumption; reflexivity]. Qed.
Lemma accum_lanes : forall s o acc l, lanes (x3_accum s o acc l).
Proof. intros. split; [reflexivity|]. unfold x3_accum. apply Forall_forall. intros x Hx. apply in_map_iff in Hx. destruct Hx as (i & <- & _). cbv zeta. apply w64_lt. Qed.
Lemma scramble_lanes : forall s acc, lanes (x3_scramble s acc).
Proof. intros. split; [reflexivity|]. unfold x3_scramble. apply Forall_forall. intros x Hx. apply in_map_iff in Hx. destruct Hx as (i & <- & _). apply w64_lt. Qed.
Lemma init_lanes : lanes x3_init. Proof. split; [reflexivity|]. unfold x3_init. repeat constructor. Qed.
Lemma stripe_lanes : forall s st x, lanes (fst (x3_stripe s st x)).
Proof. intros. unfold x3_stripe. cbv zeta. destruct (_ =? _); [apply scramble_lanes|apply accum_lanes]. Qed.
Lemma fold_lanes : forall s L st, lanes (fst st) -> lanes (fst (fold_left (x3_stripe s) L st)).
Proof. intros s L. induction L as [|x L IH]; intros st H; [exact H|]. cbn [fold_left]. apply IH, stripe_lanes. Qed.
Lemma merge_ok : forall acc s o init, lanes acc -> isbytes s -> (init < B64)%N -> mergeAccs acc (skipn o s) init = x3_merge s o init acc.
Proof.
  intros acc s o init La Bs Hi. unfold mergeAccs, x3_merge. rewrite sum_fold by exact Hi. rewrite av_eq. do 2 f_equal. f_equal. apply sum_ext. intros i _. unfold mix2Accs.
  assert (At : forall k, at_ (skipn (2 * i) acc) k = at_ acc (2 * i + k)).
  { intro k. unfold at_. rewrite <- (firstn_skipn (2 * i) acc) at 2. destruct (Nat.le_gt_cases (length acc) (2 * i)) as [G|G]; [rewrite skipn_all2 by exact G; rewrite !nth_overflow; [reflexivity|rewrite app_length, firstn_length; cbn [length]; lia|cbn [length]; lia]|].
    rewrite app_nth2; [f_equal|]; rewrite firstn_length; lia. }
  rewrite !At, !Base.skipn_skipn, !rd8_skipn, !Nat.add_0_r. apply fold_ok; apply lxor_lt; first [apply lanes_at; exact La|apply rd8_lt; exact Bs].
Qed.
(** ** Blocks *)
Lemma accumulate_S : forall acc l s n, accumulate acc l s (S n) = accumulate (accumulate_512 acc l s) (skipn 64 l) (skipn 8 s) n.
Proof.
  intros. unfold accumulate. cbn [seq fold_left]. rewrite <- seq_shift, fold_left_map_. change (0 * 64) with 0. change (0 * 8) with 0. rewrite !skipn_O. apply fold_in. intros a i _. rewrite !Base.skipn_skipn. f_equal; f_equal; lia.
Qed.
Lemma first_S : forall A (l : list A) n, 64 * S n <= length l -> chunks 64 (firstn (64 * S n) l) = firstn 64 l :: chunks 64 (firstn (64 * n) (skipn 64 l)).
Proof.
  intros A l n H. rewrite chunks_cons; [|lia|rewrite firstn_length; lia]. rewrite firstn_firstn, (Nat.min_l 64) by lia. f_equal. f_equal. rewrite skipn_firstn_comm. f_equal. lia.
Qed.
Lemma firstn_add_split : forall (l : list N) a b, firstn a l ++ firstn b (skipn a l) = firstn (a + b) l.
Proof. intros l a. revert l. induction a as [|a IH]; intros l b; [reflexivity|]. destruct l as [|x l]; [rewrite skipn_nil, !firstn_nil; reflexivity|]. cbn [firstn skipn Nat.add app]. f_equal. apply IH. Qed.
Lemma chunks_trim : forall (l : list N) k, k <= length l -> chunks 64 (firstn k l) = chunks 64 (firstn (64 * (k / 64)) l).
Proof.
  intros l k H. pose proof (Nat.div_mod k 64 ltac:(lia)) as D. pose proof (Nat.mod_upper_bound k 64 ltac:(lia)) as M. set (q := k / 64) in *.
  assert (E : firstn k l = firstn (64 * q) l ++ firstn (k mod 64) (skipn (64 * q) l)) by (rewrite D at 1; symmetry; apply firstn_add_split).
  rewrite E, chunks_app by lia. rewrite (chunks_short _ 64 (rest 64 _ ++ _)); [apply app_nil_r|]. rewrite app_length, rest_length, !firstn_length, skipn_length by lia.
  rewrite Nat.min_l by lia. rewrite Nat.mul_comm, Nat.mod_mul by lia. lia.
Qed.
Lemma first_split : forall A (l : list A) a b, 64 * (a + b) <= length l -> chunks 64 (firstn (64 * (a + b)) l) = chunks 64 (firstn (64 * a) l) ++ chunks 64 (firstn (64 * b) (skipn (64 * a) l)).
Proof.
  intros A l a. revert l. induction a as [|a IH]; intros l b H; [reflexivity|]. cbn [Nat.add]. rewrite !first_S by lia. rewrite IH by (rewrite skipn_length; lia). cbn [app]. do 4 f_equal. rewrite Base.skipn_skipn. f_equal. lia.
Qed.
Section Secret.
Variable s : list N.
Hypothesis Bs : isbytes s.
Hypothesis Ls : 136 <= length s.
Let per := (length s - 64) / 8.
Lemma per9 : 9 <= per. Proof. unfold per. apply Nat.div_le_lower_bound; lia. Qed.
Lemma stripe_in : forall acc so x, so + 1 < per -> x3_stripe s (acc, so) x = (x3_accum s (8 * so) acc x, S so).
Proof. intros acc so x H. unfold x3_stripe. cbv zeta. cbn [fst snd]. fold per. destruct (Nat.eqb_spec (S so) per); [lia|reflexivity]. Qed.
Lemma stripe_end : forall acc so x, S so = per -> x3_stripe s (acc, so) x = (x3_scramble s (x3_accum s (8 * so) acc x), 0).
Proof. intros acc so x H. unfold x3_stripe. cbv zeta. cbn [fst snd]. fold per. rewrite H, Nat.eqb_refl. reflexivity. Qed.
Lemma acc_in : forall n acc so l, length acc = 8 -> isbytes l -> so + n < per -> 64 * n <= length l ->
  fold_left (x3_stripe s) (chunks 64 (firstn (64 * n) l)) (acc, so) = (accumulate acc l (skipn (so * 8) s) n, so + n).
Proof.
  induction n as [|n IH]; intros acc so l La Bl H Hl; [cbn; f_equal; lia|].
  rewrite first_S, accumulate_S by exact Hl. cbn [fold_left]. rewrite stripe_in by lia. rewrite accum_ok, accum_first by assumption. rewrite (Nat.mul_comm 8 so), Base.skipn_skipn.
  replace (so * 8 + 8) with (S so * 8) by lia. rewrite IH; [f_equal; lia|reflexivity|apply isbytes_skipn; exact Bl|lia|rewrite skipn_length; lia].
Qed.
Lemma acc_end : forall n acc so l, length acc = 8 -> isbytes l -> 0 < n -> so + n = per -> 64 * n <= length l ->
  fold_left (x3_stripe s) (chunks 64 (firstn (64 * n) l)) (acc, so) = (x3_scramble s (accumulate acc l (skipn (so * 8) s) n), 0) /\ length (accumulate acc l (skipn (so * 8) s) n) = 8.
Proof.
  induction n as [|n IH]; intros acc so l La Bl Hn H Hl; [lia|].
  rewrite first_S, accumulate_S by exact Hl. cbn [fold_left]. rewrite accum_ok by assumption. destruct n as [|n].
  - rewrite stripe_end by lia. rewrite accum_first, (Nat.mul_comm 8 so). split; reflexivity.
  - rewrite stripe_in by lia. rewrite accum_first, (Nat.mul_comm 8 so), Base.skipn_skipn.
    replace (so * 8 + 8) with (S so * 8) by lia. apply IH; [reflexivity|apply isbytes_skipn; exact Bl|lia|lia|rewrite skipn_length; lia].
Qed.
Lemma consume_ok : forall acc so p n, length acc = 8 -> isbytes p -> so < per -> n <= per -> 64 * n <= length p ->
  consumeStripes acc so per p n s (length s - 64) = fold_left (x3_stripe s) (chunks 64 (firstn (64 * n) p)) (acc, so).
Proof.
  intros acc so p n La Bp Hso Hn Hp. unfold consumeStripes. destruct (Nat.leb_spec (per - so) n) as [G|G].
  - cbv zeta. set (t := per - so) in *. replace n with (t + (n - t)) at 3 by lia. rewrite first_split by lia. rewrite fold_left_app.
    destruct (acc_end t acc so p La Bp ltac:(lia) ltac:(lia) ltac:(lia)) as [E1 E2]. rewrite E1. rewrite scramble_ok by exact E2. rewrite (Nat.mul_comm t 64).
    rewrite (acc_in (n - t)); [reflexivity|reflexivity|apply isbytes_skipn; exact Bp|lia|rewrite skipn_length; lia].
  - symmetry. apply acc_in; auto; lia.
Qed.
Lemma so_lt : forall L st, snd st < per -> snd (fold_left (x3_stripe s) L st) < per.
Proof.
  intros L. induction L as [|x L IH]; intros st H; [exact H|]. cbn [fold_left]. apply IH. unfold x3_stripe. cbv zeta. fold per. destruct (Nat.eqb_spec (S (snd st)) per); cbn [snd]; lia.
Qed.
(** the blocks of hashLong_internal_loop *)
Lemma blocks_ok : forall nb acc l, length acc = 8 -> isbytes l -> 64 * (per * nb) <= length l ->
  fold_left (x3_stripe s) (chunks 64 (firstn (64 * (per * nb)) l)) (acc, 0) =
  (fold_left (fun acc n => scrambleAcc (accumulate acc (skipn (n * (64 * per)) l) s per) (skipn (length s - 64) s)) (seq 0 nb) acc, 0).
Proof.
  pose proof per9 as P9. induction nb as [|nb IH]; intros acc l La Bl H; [rewrite Nat.mul_0_r; reflexivity|].
  replace (per * S nb) with (per + per * nb) in * by lia. rewrite first_split by exact H. rewrite fold_left_app.
  destruct (acc_end per acc 0 l La Bl ltac:(lia) eq_refl ltac:(lia)) as [E1 E2]. rewrite E1. change (0 * 8) with 0 in *. rewrite skipn_O in *. rewrite IH; [|reflexivity|apply isbytes_skipn; exact Bl|rewrite skipn_length; lia].
  cbn [seq fold_left]. change (0 * (64 * per)) with 0. rewrite skipn_O. rewrite scramble_ok by exact E2. f_equal. rewrite <- (seq_shift nb 0), fold_left_map_. apply fold_in. intros a i _. rewrite Base.skipn_skipn. do 3 f_equal. 
Qed.
Lemma loop_ok : forall acc l, length acc = 8 -> isbytes l -> 0 < length l ->
  hashLong_internal_loop acc l s = (let a := fst (fold_left (x3_stripe s) (chunks 64 (firstn (length l - 1) l)) (acc, 0)) in
    if length l mod 64 =? 0 then a else x3_accum s (length s - 71) a (skipn (length l - 64) l)).
Proof.
  intros acc l La Bl H. pose proof per9 as P9. unfold hashLong_internal_loop. fold per. cbv zeta. set (n := length l) in *. set (bl := 64 * per). set (nb := (n - 1) / bl). set (ns := (n - 1 - bl * nb) / 64).
  assert (D : n - 1 = bl * nb + (n - 1) mod bl) by (apply Nat.div_mod; lia). assert (M : (n - 1) mod bl < bl) by (apply Nat.mod_upper_bound; lia).
  assert (Q : (n - 1) / 64 = per * nb + ns). { unfold ns. rewrite D at 1. replace (n - 1 - bl * nb) with ((n - 1) mod bl) by lia. unfold bl at 1. rewrite <- Nat.mul_assoc, (Nat.mul_comm 64 (per * nb)), Nat.div_add_l by lia. reflexivity. }
  assert (NS : ns < per). { unfold ns. apply Nat.div_lt_upper_bound; [lia|]. fold bl. lia. }
  assert (T : 64 * (per * nb + ns) <= n). { rewrite <- Q. pose proof (Nat.mul_div_le (n - 1) 64 ltac:(lia)). lia. }
  rewrite chunks_trim by lia. rewrite Q, first_split, fold_left_app by exact T. rewrite blocks_ok by (auto; lia).
  set (a1 := fold_left _ (seq 0 nb) acc). assert (La1 : length a1 = 8).
  { assert (E : a1 = fst (fold_left (x3_stripe s) (chunks 64 (firstn (64 * (per * nb)) l)) (acc, 0))) by (rewrite blocks_ok by (auto; lia); reflexivity). rewrite E.
    clear - La. generalize (chunks 64 (firstn (64 * (per * nb)) l)). intro L. destruct L as [|x L] using rev_ind; [exact La|]. rewrite fold_left_app. cbn [fold_left]. apply stripe_lanes. }
  clearbody a1. replace (nb * bl) with (64 * (per * nb)) by (unfold bl; lia). rewrite (acc_in ns a1 0) by (auto; try (apply isbytes_skipn; exact Bl); try (rewrite skipn_length; lia)). cbn [fst]. change (0 * 8) with 0. rewrite skipn_O.
  replace (Nat.land n 63) with (n mod 64) by (symmetry; exact (Nat.land_ones n 6)). destruct (n mod 64 =? 0); [reflexivity|]. cbn [negb].
  assert (La2 : length (accumulate a1 (skipn (64 * (per * nb)) l) s ns) = 8).
  { destruct ns as [|k]; [exact La1|]. pose proof (acc_in (S k) a1 0 (skipn (64 * (per * nb)) l) La1 ltac:(apply isbytes_skipn; exact Bl) ltac:(lia) ltac:(rewrite skipn_length; lia)) as E. change (0 * 8) with 0 in E. rewrite skipn_O in E.
    apply (f_equal fst) in E. cbn [fst] in E. rewrite <- E. rewrite first_S by (rewrite skipn_length; lia). cbn [fold_left]. apply fold_lanes, stripe_lanes. }
  rewrite accum_ok; [|exact La2|apply isbytes_skipn; exact Bl|exact Bs]. f_equal. lia.
Qed.
End Secret.
(** ** Secrets *)
Lemma ksecret_ok : kSecret = x3_secret. Proof. vm_compute. reflexivity. Qed.
Lemma secret_len : length x3_secret = 192. Proof. vm_compute. reflexivity. Qed.
Lemma secret_bytes : isbytes x3_secret. Proof. apply Forall_forall. intros x Hx. assert (E : forallb (fun b => (b <? 256)%N) x3_secret = true) by (vm_compute; reflexivity). rewrite forallb_forall in E. apply N.ltb_lt, E, Hx. Qed.
Lemma gen_fold : forall f g n k pre, length pre = 16 * k ->
  fold_left (fun c i => copy_at (copy_at c (16 * i) (le_bytes 8 (f i))) (16 * i + 8) (le_bytes 8 (g i))) (seq k n) (pre ++ zeros (16 * n)) = pre ++ flat_map (fun i => le_bytes 8 (f i) ++ le_bytes 8 (g i)) (seq k n).
Proof.
  intros f g n. induction n as [|n IH]; intros k pre L; [cbn [seq fold_left flat_map]; reflexivity|]. cbn [seq fold_left flat_map].
  replace (zeros (16 * S n)) with (zeros 8 ++ zeros 8 ++ zeros (16 * n)) by (unfold zeros; rewrite <- !repeat_app; f_equal; lia).
  set (x := le_bytes 8 (f k)). set (y := le_bytes 8 (g k)). assert (Lx : length x = 8) by (unfold x; apply le_bytes_length). assert (Ly : length y = 8) by (unfold y; apply le_bytes_length).
  rewrite (copy_at_app' _ pre _ (16 * k) 0) by lia. rewrite copy_at_over by (rewrite app_length, zeros_length; lia). rewrite Lx, skipn_app, skipn_all2, zeros_length by (rewrite zeros_length; lia). rewrite Nat.sub_diag, skipn_O, app_nil_l.
  rewrite (copy_at_app' _ pre _ (16 * k + 8) 8) by lia. rewrite (copy_at_app' _ x _ 8 0) by lia. rewrite copy_at_over by (rewrite app_length, zeros_length; lia). rewrite Ly, skipn_app, skipn_all2, zeros_length by (rewrite zeros_length; lia). rewrite Nat.sub_diag, skipn_O, app_nil_l.
  replace (pre ++ x ++ y ++ zeros (16 * n)) with ((pre ++ x ++ y) ++ zeros (16 * n)) by (rewrite <- !app_assoc; reflexivity).
  rewrite IH by (rewrite !app_length; lia). rewrite <- !app_assoc. reflexivity.
Qed.
Lemma gen_ok : forall seed, GenCustomSecret (zeros 192) seed = x3_derive seed.
Proof. intro seed. unfold GenCustomSecret, x3_derive. rewrite ksecret_ok. exact (gen_fold (fun i => add64 (x3_rd8 x3_secret (16 * i)) seed) (fun i => sub64 (x3_rd8 x3_secret (16 * i + 8)) seed) 12 0 [] eq_refl). Qed.
Lemma derive_0 : x3_derive 0 = x3_secret. Proof. vm_compute. reflexivity. Qed.
Lemma derive_len : forall seed, length (x3_derive seed) = 192.
Proof. intro seed. unfold x3_derive. assert (G : forall L, length (flat_map (fun i => le_bytes 8 (add64 (x3_rd8 x3_secret (16 * i)) seed) ++ le_bytes 8 (sub64 (x3_rd8 x3_secret (16 * i + 8)) seed)) L) = 16 * length L).
  { induction L as [|i L IH]; [reflexivity|]. cbn [flat_map length]. rewrite !app_length, !le_bytes_length, IH. lia. } rewrite G, seq_length. reflexivity. Qed.
Lemma derive_bytes : forall seed, isbytes (x3_derive seed).
Proof. intro seed. unfold x3_derive. generalize (seq 0 12). induction l as [|i L IH]; [constructor|]. cbn [flat_map]. apply Forall_app. split; [apply Forall_app; split; apply le_bytes_isbytes|exact IH]. Qed.
(** ** Long messages *)
Lemma mul_w : forall a c, mul64 (w64 a) c = mul64 a c. Proof. intros. unfold mul64. apply w64_mul_l. Qed.
Lemma not64_lt : forall x, (x < B64)%N -> (not64 x < B64)%N. Proof. intros x H. unfold not64. apply lxor_lt; [exact H|reflexivity]. Qed.
(** the lanes without the last 64 bytes *)
Definition x3_head (s m : list N) : list N := fst (fold_left (x3_stripe s) (chunks 64 (firstn (length m - 1) m)) (x3_init, 0)).
Lemma head_lanes : forall s m, lanes (x3_head s m). Proof. intros. apply fold_lanes, init_lanes. Qed.
Definition x3_end64 (s : list N) (n : N) (acc : list N) : N := x3_merge s 11 (mul64 n X3P64_1) acc.
Definition x3_endl128 (s : list N) (n : N) (acc : list N) : N * N := (x3_end64 s n acc, x3_merge s (length s - 75) (not64 (mul64 n X3P64_2)) acc).
Lemma long64_eq : forall s m, x3_long64 s m = x3_end64 s (N.of_nat (length m)) (x3_accum s (length s - 71) (x3_head s m) (skipn (length m - 64) m)). Proof. reflexivity. Qed.
Lemma merge64_ok : forall s n acc, lanes acc -> isbytes s -> mergeAccs acc (skipn 11 s) (mul64 (w64 n) X3P64_1) = x3_end64 s n acc.
Proof. intros. rewrite mul_w. apply merge_ok; [assumption|assumption|apply w64_lt]. Qed.
Lemma merge128_ok : forall s n acc, lanes acc -> isbytes s -> mergeAccs_128b acc s (w64 n) = x3_endl128 s n acc.
Proof. intros s n acc La Bs. unfold mergeAccs_128b, x3_endl128. rewrite merge64_ok by assumption. rewrite mul_w. destruct La as [L8 La]. rewrite L8. rewrite merge_ok; [|split; assumption|exact Bs|apply not64_lt, w64_lt]. do 2 f_equal. lia. Qed.
Section Long.
Variables s m : list N.
Hypothesis Bs : isbytes s.
Hypothesis Ls : 136 <= length s.
Hypothesis Bm : isbytes m.
Hypothesis Lm : 0 < length m.
Let a := if length m mod 64 =? 0 then x3_head s m else x3_accum s (length s - 71) (x3_head s m) (skipn (length m - 64) m).
Lemma long_acc : hashLong_internal_loop INIT_ACC m s = a /\ lanes a.
Proof. split; [apply (loop_ok s Bs Ls INIT_ACC m eq_refl Bm Lm)|]. unfold a. destruct (_ =? _); [apply head_lanes|apply accum_lanes]. Qed.
Lemma longi64_ok : Hash_hashLong_64b_internal INIT_ACC m s = x3_end64 s (N.of_nat (length m)) a.
Proof. destruct long_acc as [E La]. unfold Hash_hashLong_64b_internal. rewrite E. apply merge64_ok; assumption. Qed.
Lemma longi128_ok : Hash_hashLong_128b_internal INIT_ACC m s = x3_endl128 s (N.of_nat (length m)) a.
Proof. destruct long_acc as [E La]. unfold Hash_hashLong_128b_internal. rewrite E. apply merge128_ok; assumption. Qed.
End Long.
(** ** The one-shot functions *)
Lemma hash64i_ok : forall m s seed l f, isbytes m -> isbytes s -> (240 < length m -> f m seed s = x3_long64 l m) -> Hash_64bits_internal m seed s f = x3_64 x3_av s seed l m.
Proof.
  intros m s seed l f Bm Bs H. unfold Hash_64bits_internal, x3_64. cbv zeta. destruct (Nat.leb_spec (length m) 16); [apply small64_ok; assumption|].
  destruct (Nat.leb_spec (length m) 128); [apply mid64_ok; auto; lia|]. destruct (Nat.leb_spec (length m) 240); [apply large64_ok; auto; lia|]. apply H. assumption.
Qed.
Lemma hash128i_ok : forall m s seed l f, isbytes m -> isbytes s -> (240 < length m -> f m seed s = x3_long128 l m) -> Hash_128bits_internal m seed s f = x3_128 x3_av s seed l m.
Proof.
  intros m s seed l f Bm Bs H. unfold Hash_128bits_internal, x3_128. cbv zeta. destruct (Nat.leb_spec (length m) 16); [apply small128_ok; assumption|].
  destruct (Nat.leb_spec (length m) 128); [apply mid128_ok; auto; lia|]. destruct (Nat.leb_spec (length m) 240); [apply large128_ok; auto; lia|]. apply H. assumption.
Qed.
Lemma long64i_spec : forall s m, isbytes s -> 136 <= length s -> isbytes m -> length m mod 64 <> 0 -> Hash_hashLong_64b_internal INIT_ACC m s = x3_long64 s m.
Proof.
  intros s m Bs Ls Bm H. rewrite longi64_ok; [|assumption..|destruct m; [elim H; reflexivity|cbn [length]; lia]]. destruct (Nat.eqb_spec (length m mod 64) 0) as [G|_]; [elim H; exact G|]. symmetry. apply long64_eq.
Qed.
Lemma long128i_spec : forall s m, isbytes s -> 136 <= length s -> isbytes m -> length m mod 64 <> 0 -> Hash_hashLong_128b_internal INIT_ACC m s = x3_long128 s m.
Proof.
  intros s m Bs Ls Bm H. rewrite longi128_ok; [|assumption..|destruct m; [elim H; reflexivity|cbn [length]; lia]]. destruct (Nat.eqb_spec (length m mod 64) 0) as [G|_]; [elim H; exact G|]. reflexivity.
Qed.
Lemma derived : forall seed, isbytes (x3_derive seed) /\ 136 <= length (x3_derive seed). Proof. intro seed. split; [apply derive_bytes|rewrite derive_len; lia]. Qed.
Lemma default_ok : isbytes x3_secret /\ 136 <= length x3_secret. Proof. split; [apply secret_bytes|rewrite secret_len; lia]. Qed.
Lemma av_irrelevant : forall av s seed l m, 4 <= length m -> x3_64 av s seed l m = x3_64 x3_av64 s seed l m /\ x3_128 av s seed l m = x3_128 x3_av64 s seed l m.
Proof.
  intros av s seed l m H. unfold x3_64, x3_128, x3_small64, x3_small128. cbv zeta. destruct (Nat.eqb_spec (length m) 0); [lia|]. destruct (Nat.leb_spec (length m) 3); [lia|]. split; reflexivity.
Qed.
(** [h] are the eight one-shot functions with a seed and a secret, [spec64], [spec128] give the four 64-bit and the four 128-bit results *)
Definition x3_oneshots (m secret : list N) (seed : N) : list N * list (N * N) :=
  ([Hash_64bits m; Hash_64bits_withSeed m seed; Hash_64bits_withSecret m secret; Hash_64bits_withSecretandSeed m secret seed],
   [Hash_128bits m; Hash_128bits_withSeed m seed; Hash_128bits_withSecret m secret; Hash_128bits_withSecretandSeed m secret seed]).
Definition x3_ideals (av : N -> N) (m secret : list N) (seed : N) : list N * list (N * N) :=
  ([x3_64_seed av 0 m; x3_64_seed av seed m; x3_64_secret av secret m; x3_64 av x3_secret seed secret m],
   [x3_128_seed av 0 m; x3_128_seed av seed m; x3_128_secret av secret m; x3_128 av x3_secret seed secret m]).
(** The one-shot functions on all inputs but those with more than 240 bytes and a multiple of 64 (see C126): they are XXH3 with the final
    function of longer inputs also for 0..3 bytes. *)
Theorem C124_xxh3_oneshot_exact : forall m secret seed, isbytes m -> isbytes secret -> 136 <= length secret -> (length m <= 240 \/ length m mod 64 <> 0) ->
  x3_oneshots m secret seed = x3_ideals x3_av m secret seed.
Proof.
  intros m secret seed Bm Bs Ls H. assert (Hm : 240 < length m -> length m mod 64 <> 0) by (intro; destruct H; [lia|assumption]). destruct default_ok as [Bd Ld]. destruct (derived seed) as [Be Le].
  assert (W64 : 240 < length m -> Hash_hashLong_64b_withSeed m seed x3_secret = x3_long64 (x3_derive seed) m).
  { intro G. unfold Hash_hashLong_64b_withSeed. rewrite ksecret_ok, gen_ok. destruct (N.eqb_spec seed 0) as [-> |_]; [rewrite derive_0|]; apply long64i_spec; auto. }
  assert (W128 : 240 < length m -> Hash_hashLong_128b_withSeed m seed x3_secret = x3_long128 (x3_derive seed) m).
  { intro G. unfold Hash_hashLong_128b_withSeed. rewrite ksecret_ok, gen_ok. destruct (N.eqb_spec seed 0) as [-> |_]; [rewrite derive_0|]; apply long128i_spec; auto. }
  unfold x3_oneshots, x3_ideals. f_equal.
  - f_equal; [|f_equal; [|f_equal; [|f_equal]]].
    + unfold Hash_64bits, x3_64_seed. rewrite ksecret_ok, derive_0. apply hash64i_ok; auto. intro G. unfold Hash_hashLong_64b_default. rewrite ksecret_ok. apply long64i_spec; auto.
    + unfold Hash_64bits_withSeed, x3_64_seed. rewrite ksecret_ok. apply hash64i_ok; auto.
    + apply hash64i_ok; auto. intro G. apply long64i_spec; auto.
    + unfold Hash_64bits_withSecretandSeed. rewrite ksecret_ok. destruct (Nat.leb_spec (length m) 240) as [G|G].
      * apply hash64i_ok; auto. lia.
      * unfold x3_64. cbv zeta. destruct (Nat.leb_spec (length m) 16); [lia|]. destruct (Nat.leb_spec (length m) 128); [lia|]. destruct (Nat.leb_spec (length m) 240); [lia|]. apply long64i_spec; auto.
  - f_equal; [|f_equal; [|f_equal; [|f_equal]]].
    + unfold Hash_128bits, x3_128_seed. rewrite ksecret_ok, derive_0. apply hash128i_ok; auto. intro G. unfold Hash_hashLong_128b_default. rewrite ksecret_ok. apply long128i_spec; auto.
    + unfold Hash_128bits_withSeed, x3_128_seed. rewrite ksecret_ok. apply hash128i_ok; auto.
    + apply hash128i_ok; auto. intro G. apply long128i_spec; auto.
    + unfold Hash_128bits_withSecretandSeed. rewrite ksecret_ok. destruct (Nat.leb_spec (length m) 240) as [G|G].
      * apply hash128i_ok; auto. lia.
      * unfold x3_128. cbv zeta. destruct (Nat.leb_spec (length m) 16); [lia|]. destruct (Nat.leb_spec (length m) 128); [lia|]. destruct (Nat.leb_spec (length m) 240); [lia|]. apply long128i_spec; auto.
Qed.
(** They are XXH3 from 4 bytes on. *)
Theorem C124_xxh3_oneshot : forall m secret seed, isbytes m -> isbytes secret -> 136 <= length secret -> 4 <= length m -> (length m <= 240 \/ length m mod 64 <> 0) ->
  x3_oneshots m secret seed = x3_ideals x3_av64 m secret seed.
Proof.
  intros m secret seed Bm Bs Ls L4 H. rewrite C124_xxh3_oneshot_exact by assumption. unfold x3_ideals, x3_64_seed, x3_64_secret, x3_128_seed, x3_128_secret.
  rewrite !(fun s seed l => proj1 (av_irrelevant x3_av s seed l m L4)), !(fun s seed l => proj2 (av_irrelevant x3_av s seed l m L4)). reflexivity.
Qed.
Example C124_hyps : isbytes (map N.of_nat (seq 0 241)) /\ 136 <= length x3_secret /\ 4 <= length (map N.of_nat (seq 0 241)) /\ length (map N.of_nat (seq 0 241)) mod 64 <> 0.
Proof. split; [apply Forall_forall; intros x Hx; apply in_map_iff in Hx; destruct Hx as (i & <- & Hi); apply in_seq in Hi; change (N.of_nat i < 256)%N; lia|]. split; [rewrite secret_len; lia|]. rewrite map_length, seq_length. split; [lia|discriminate]. Qed.
(** For 0, 1, 2 and 3 bytes the result is not XXH3. *)
Theorem C125_xxh3_short_refuted : forall n, n <= 3 -> exists m, isbytes m /\ length m = n /\
  Hash_64bits m <> x3_64_seed x3_av64 0 m /\ Hash_128bits m <> x3_128_seed x3_av64 0 m /\ x3_bytes64 (Hash_64bits []) = be_bytes 8 0x5a9635b1c4ed54c5 /\ x3_bytes64 (x3_64_seed x3_av64 0 []) = be_bytes 8 0x2d06800538d394c2.
Proof.
  intros n H. exists (repeat 97%N n). split; [apply Forall_forall; intros x Hx; apply repeat_spec in Hx; subst x; reflexivity|]. split; [apply repeat_length|].
  do 4 (destruct n as [|n]; [repeat split; vm_compute; discriminate || reflexivity|]). lia.
Qed.
(** For more than 240 bytes and a multiple of 64 the last 64 bytes are not read. *)
Lemma head_prefix : forall s p a, length p mod 64 = 0 -> length a = 64 -> x3_head s (p ++ a) = fst (fold_left (x3_stripe s) (chunks 64 p) (x3_init, 0)).
Proof.
  intros s p a Hp La. unfold x3_head. do 2 f_equal. rewrite app_length, La. apply Nat.mod_divides in Hp; [|lia]. destruct Hp as [k Hk]. rewrite chunks_trim by (rewrite app_length; lia).
  replace ((length p + 64 - 1) / 64) with k by (apply (Nat.div_unique _ 64 k 63); lia). rewrite <- Hk, firstn_app, firstn_all, Nat.sub_diag, firstn_O, app_nil_r. reflexivity.
Qed.
Theorem C126_xxh3_last_stripe_refuted : forall p a b secret seed, isbytes p -> isbytes a -> isbytes b -> isbytes secret -> 136 <= length secret -> length a = 64 -> length b = 64 -> 240 < length p + 64 -> length p mod 64 = 0 ->
  x3_oneshots (p ++ a) secret seed = x3_oneshots (p ++ b) secret seed.
Proof.
  intros p a b secret seed Bp Ba Bb Bs Ls La Lb G Hp. destruct default_ok as [Bd Ld]. destruct (derived seed) as [Be Le].
  assert (M : forall q, length q = 64 -> length (p ++ q) = length p + 64) by (intros q Hq; rewrite app_length, Hq; reflexivity).
  assert (Z : (length p + 64) mod 64 =? 0 = true). { apply Nat.eqb_eq. rewrite <- Nat.add_mod_idemp_l, Hp by lia. reflexivity. }
  assert (E64 : forall s, isbytes s -> 136 <= length s -> Hash_hashLong_64b_internal INIT_ACC (p ++ a) s = Hash_hashLong_64b_internal INIT_ACC (p ++ b) s).
  { intros s B L. rewrite !longi64_ok; auto; try (apply Forall_app; split; assumption); try (rewrite M by assumption; lia). rewrite !M, Z by assumption. rewrite !head_prefix by assumption. reflexivity. }
  assert (E128 : forall s, isbytes s -> 136 <= length s -> Hash_hashLong_128b_internal INIT_ACC (p ++ a) s = Hash_hashLong_128b_internal INIT_ACC (p ++ b) s).
  { intros s B L. rewrite !longi128_ok; auto; try (apply Forall_app; split; assumption); try (rewrite M by assumption; lia). rewrite !M, Z by assumption. rewrite !head_prefix by assumption. reflexivity. }
  unfold x3_oneshots, Hash_64bits, Hash_64bits_withSeed, Hash_64bits_withSecret, Hash_64bits_withSecretandSeed, Hash_128bits, Hash_128bits_withSeed, Hash_128bits_withSecret, Hash_128bits_withSecretandSeed, Hash_64bits_internal, Hash_128bits_internal.
  cbv zeta. rewrite !M by assumption. destruct (Nat.leb_spec (length p + 64) 16); [lia|]. destruct (Nat.leb_spec (length p + 64) 128); [lia|]. destruct (Nat.leb_spec (length p + 64) 240); [lia|].
  unfold Hash_hashLong_64b_default, Hash_hashLong_64b_withSeed, Hash_hashLong_64b_withSecret, Hash_hashLong_128b_default, Hash_hashLong_128b_withSeed, Hash_hashLong_128b_withSecret. rewrite ksecret_ok, gen_ok.
  rewrite !(E64 x3_secret), !(E128 x3_secret), !(E64 secret), !(E128 secret), !(E64 (x3_derive seed)), !(E128 (x3_derive seed)) by assumption. reflexivity.
Qed.
(** Two different messages of 256 bytes with the same hashes, where XXH3 tells them apart. *)
Example C126_collision : let p := zeros 192 in let a := zeros 64 in let b := repeat 1%N 64 in p ++ a <> p ++ b /\ Hash_64bits (p ++ a) = Hash_64bits (p ++ b) /\ x3_64_seed x3_av64 0 (p ++ a) <> x3_64_seed x3_av64 0 (p ++ b).
Proof. cbv zeta. split; [|split]; vm_compute; [discriminate|reflexivity|discriminate]. Qed.
(** ** The digests *)
Lemma chunks_app64 : forall (a b : list N), length a mod 64 = 0 -> chunks 64 (a ++ b) = chunks 64 a ++ chunks 64 b.
Proof. intros a b H. rewrite chunks_app by lia. do 2 f_equal. assert (R : rest 64 a = []) by (apply length_zero_iff_nil; rewrite rest_length by lia; exact H). rewrite R. reflexivity. Qed.
Section Digest.
Variable s : list N.
Hypothesis Bs : isbytes s.
Hypothesis Ls : 136 <= length s.
Let per := (length s - 64) / 8.
Lemma per_ge : 9 <= (length s - 64) / 8. Proof. apply Nat.div_le_lower_bound; lia. Qed.
Definition xst (a : list N) : list N * nat := fold_left (x3_stripe s) (chunks 64 a) (x3_init, 0).
Lemma xst_ok : forall a, length (fst (xst a)) = 8 /\ snd (xst a) < per.
Proof. intro a. split; [apply fold_lanes, init_lanes|]. apply so_lt; auto. cbn [snd]. pose proof per_ge. lia. Qed.
Lemma xst_app : forall a b n, length a mod 64 = 0 -> isbytes b -> n <= 4 -> 64 * n <= length b ->
  consumeStripes (fst (xst a)) (snd (xst a)) (perBlock s) b n s (secretLimit s) = xst (a ++ firstn (64 * n) b).
Proof.
  intros a b n Ha Bb Hn Hb. destruct (xst_ok a) as [L8 S]. unfold perBlock, secretLimit. fold per. pose proof per_ge. rewrite (consume_ok s Bs Ls) by (auto; lia).
  unfold xst. rewrite chunks_app64, fold_left_app by exact Ha. rewrite <- surjective_pairing. reflexivity.
Qed.
(** [m] has been written: [a] is hashed, [b] is buffered *)
Record xrel (d : xd) (m : list N) : Prop := {
  xr_len : xd_len d = w64 (N.of_nat (length m));
  xr_bytes : isbytes m;
  xr_split : exists a b, m = a ++ b /\ length a mod 256 = 0 /\ length b = xd_nx d /\ xd_nx d <= 256 /\ (b = [] -> a = []) /\
    (xd_s d, xd_so d) = xst a /\ length (xd_x d) = 256 /\ isbytes (xd_x d) /\ firstn (xd_nx d) (xd_x d) = b /\
    (a <> [] -> xd_nx d <= 192 -> skipn 192 (xd_x d) = skipn (length a - 64) a) }.
Lemma mod_64 : forall n, n mod 256 = 0 -> n mod 64 = 0.
Proof. intros n H. apply Nat.mod_divides in H; [|lia]. destruct H as [k ->]. replace (256 * k) with (4 * k * 64) by lia. apply Nat.mod_mul. lia. Qed.
Lemma reset_rel : xrel xd_reset [].
Proof. constructor; [reflexivity|constructor|]. exists [], []. repeat split; try reflexivity; [cbn; lia|apply zeros_isbytes|]. intro H. elim H. reflexivity. Qed.
(** the number of buffered bytes after [t] bytes *)
Definition x3_buffered (t : nat) : nat := if t =? 0 then 0 else (t - 1) mod 256 + 1.
Lemma rel_nx : forall d m, xrel d m -> xd_nx d = x3_buffered (length m).
Proof.
  intros d m [_ _ (a & b & -> & Ha & Lb & L256 & Hn & _)]. unfold x3_buffered. rewrite app_length. apply Nat.mod_divides in Ha; [|lia]. destruct Ha as [k Hk]. destruct (Nat.eqb_spec (length a + length b) 0) as [E|E].
  - lia.
  - destruct b as [|y b]; [rewrite (Hn eq_refl) in E; elim E; reflexivity|]. cbn [length] in *. rewrite <- (Nat.mod_unique (length a + S (length b) - 1) 256 k (length b)); lia.
Qed.
Definition x3_panics (t n : nat) : Prop := 192 < x3_buffered t /\ x3_buffered t + n = 512.
Lemma loop_spec : forall fuel a p, length a mod 256 = 0 -> isbytes p -> length p <= fuel -> 0 < length p -> exists q r, p = q ++ r /\ length q mod 256 = 0 /\ 0 < length r <= 256 /\ (256 < length p -> 256 <= length q) /\
  xd_loop fuel s (fst (xst a)) (snd (xst a)) p = (fst (xst (a ++ q)), snd (xst (a ++ q)), r).
Proof.
  induction fuel as [|fuel IH]; intros a p Ha Bp Hf Hp; [lia|]. cbn [xd_loop]. destruct (Nat.ltb_spec 256 (length p)) as [G|G].
  - rewrite xst_app by (auto using mod_64; lia). change (64 * 4) with 256. destruct (xst (a ++ firstn 256 p)) as [s1 so1] eqn:E1.
    destruct (IH (a ++ firstn 256 p) (skipn 256 p)) as (q & r & E & Hq & Hr & _ & EL); [rewrite app_length, firstn_length, Nat.min_l by lia; rewrite <- Nat.add_mod_idemp_l, Ha by lia; reflexivity|apply isbytes_skipn; exact Bp|rewrite skipn_length; lia|rewrite skipn_length; lia|].
    rewrite E1 in EL. cbn [fst snd] in EL. exists (firstn 256 p ++ q), r. split; [rewrite <- app_assoc, <- E; symmetry; apply firstn_skipn|]. split; [rewrite app_length, firstn_length, Nat.min_l by lia; rewrite Nat.add_comm, <- Nat.add_mod_idemp_l, Hq by lia; reflexivity|].
    split; [exact Hr|]. split; [intros _; rewrite app_length, firstn_length; lia|]. rewrite EL, <- app_assoc. reflexivity.
  - exists [], p. split; [reflexivity|]. split; [reflexivity|]. split; [lia|]. split; [lia|]. rewrite app_nil_r. reflexivity.
Qed.
Lemma skipn_copy : forall A (x p : list A) off k, off + length p <= k -> k <= length x -> skipn k (copy_at x off p) = skipn k x.
Proof.
  intros A x p off k H1 H2. unfold copy_at. rewrite (firstn_all2 p), Nat.min_r by lia. rewrite app_assoc, skipn_app, skipn_all2; [|rewrite app_length, firstn_length; lia].
  rewrite app_nil_l, app_length, firstn_length, Nat.min_l, Base.skipn_skipn by lia. f_equal. lia.
Qed.
Lemma copy_0 : forall (x p : list N), length p <= length x -> firstn (length p) (copy_at x 0 p) = p.
Proof. intros x p H. rewrite copy_at_over by exact H. rewrite firstn_app, firstn_all, Nat.sub_diag, firstn_O, app_nil_r. reflexivity. Qed.
Lemma last64 : forall (u v : list N), length v = 64 -> skipn (length (u ++ v) - 64) (u ++ v) = v.
Proof. intros u v H. rewrite app_length, H, Nat.add_sub, skipn_app, skipn_all, Nat.sub_diag. reflexivity. Qed.
(** the buffer after the whole pieces: [r] in front, and the last 64 hashed bytes at the end *)
Lemma refill : forall a r x len st, length a mod 256 = 0 -> 0 < length r <= 256 -> isbytes r -> isbytes a -> length x = 256 -> isbytes x -> (skipn 192 x = skipn (length a - 64) a) -> fst st = fst (xst a) -> snd st = snd (xst a) ->
  len = w64 (N.of_nat (length (a ++ r))) -> xrel (mkxd (fst st) (copy_at x 0 r) (Nat.min 256 (length r)) len (snd st)) (a ++ r).
Proof.
  intros a r x len st Ha Hr Br Ba Lx Bx Hx E1 E2 El. rewrite Nat.min_r by lia. constructor; cbn [xd_len xd_s xd_so xd_x xd_nx]; [exact El|apply Forall_app; split; assumption|].
  exists a, r. split; [reflexivity|]. split; [exact Ha|]. split; [reflexivity|]. split; [lia|]. split; [intros ->; cbn in Hr; lia|]. split; [rewrite E1, E2; symmetry; apply surjective_pairing|].
  split; [rewrite copy_at_length; lia|]. split; [apply copy_at_isbytes; assumption|]. split; [apply copy_0; lia|]. intros _ H. rewrite skipn_copy by lia. exact Hx.
Qed.
Lemma write_ok : forall d m p, xrel d m -> isbytes p ->
  (x3_panics (length m) (length p) -> xd_write s d p = None) /\ (~ x3_panics (length m) (length p) -> exists d', xd_write s d p = Some d' /\ xrel d' (m ++ p)).
Proof.
  intros d m p R Bp. pose proof (rel_nx d m R) as NX. unfold x3_panics. rewrite <- NX. clear NX. destruct R as [Rl Rb (a & b & E & Ha & Lb & L256 & Hn & Est & Lx & Bx & Fx & Tx)].
  assert (Ea : isbytes a) by (subst m; apply Forall_app in Rb; apply Rb). assert (Eb : isbytes b) by (subst m; apply Forall_app in Rb; apply Rb).
  unfold xd_write. rewrite Rl. assert (EL : add64 (w64 (N.of_nat (length m))) (N.of_nat (length p)) = w64 (N.of_nat (length (m ++ p)))) by (unfold add64; rewrite w64_add_l, app_length, Nat2N.inj_add; reflexivity).
  rewrite EL. cbv zeta. set (nx := xd_nx d) in *. set (x := xd_x d) in *. assert (E1 : xd_s d = fst (xst a)) by (rewrite <- Est; reflexivity). assert (E2 : xd_so d = snd (xst a)) by (rewrite <- Est; reflexivity). rewrite E1, E2. clear Est.
  destruct (Nat.eqb_spec (length p) 0) as [G|G].
  { split; [lia|]. intros _. eexists. split; [reflexivity|]. apply length_zero_iff_nil in G. subst p. rewrite app_nil_r in *. constructor; cbn [xd_len xd_s xd_so xd_x xd_nx]; [reflexivity|exact Rb|]. exists a, b. fold nx x. repeat split; try assumption. symmetry. apply surjective_pairing. }
  destruct (Nat.leb_spec (length p) (256 - nx)) as [G2|G2].
  { split; [lia|]. intros _. eexists. split; [reflexivity|]. constructor; cbn [xd_len xd_s xd_so xd_x xd_nx]; [reflexivity|apply Forall_app; split; assumption|]. exists a, (b ++ p).
    split; [subst m; rewrite app_assoc; reflexivity|]. split; [exact Ha|]. split; [rewrite app_length; lia|]. split; [lia|]. split; [intro H; apply app_eq_nil in H; destruct H as [_ ->]; elim G; reflexivity|].
    split; [symmetry; apply surjective_pairing|]. split; [rewrite copy_at_length; lia|]. split; [apply copy_at_isbytes; assumption|]. split; [rewrite copy_at_firstn by lia; rewrite Fx; reflexivity|].
    intros H1 H2. rewrite skipn_copy by lia. apply Tx; [exact H1|lia]. }
  destruct (Nat.ltb_spec 0 nx) as [G3|G3].
  - (* the buffer is filled and hashed *)
    set (ld := 256 - nx) in *. set (x1 := copy_at x nx (firstn ld p)). assert (X1 : x1 = b ++ firstn ld p).
    { unfold x1. rewrite copy_at_full by (rewrite ?firstn_length; lia). rewrite Fx, Lx. fold ld. rewrite firstn_firstn, Nat.min_id. reflexivity. }
    assert (Lx1 : length x1 = 256) by (rewrite X1, app_length, firstn_length; lia). assert (Bx1 : isbytes x1) by (rewrite X1; apply Forall_app; split; [exact Eb|apply isbytes_firstn; exact Bp]).
    rewrite xst_app by (auto using mod_64; lia). change (64 * 4) with 256. replace (firstn 256 x1) with x1 by (symmetry; apply firstn_all2; lia).
    set (a1 := a ++ x1). assert (La1 : length a1 = length a + 256) by (unfold a1; rewrite app_length; lia). assert (Ha1 : length a1 mod 256 = 0) by (rewrite La1, <- Nat.add_mod_idemp_l, Ha by lia; reflexivity).
    assert (Ba1 : isbytes a1) by (apply Forall_app; split; assumption). assert (Em : m ++ p = a1 ++ skipn ld p) by (unfold a1; rewrite E, X1, <- !app_assoc, firstn_skipn; reflexivity).
    assert (Tx1 : skipn 192 x1 = skipn (length a1 - 64) a1). { rewrite La1. unfold a1. rewrite skipn_app, (skipn_all2 a) by lia. rewrite app_nil_l. f_equal. lia. }
    destruct (xst a1) as [s1 so1] eqn:X. assert (Q1 : s1 = fst (xst a1)) by (rewrite X; reflexivity). assert (Q2 : so1 = snd (xst a1)) by (rewrite X; reflexivity).
    assert (Lp : length (skipn ld p) = length p - ld) by apply skipn_length. assert (Bp1 : isbytes (skipn ld p)) by (apply isbytes_skipn; exact Bp).
    destruct (Nat.leb_spec 256 (length (skipn ld p))) as [G4|G4].
    + destruct (loop_spec (length (skipn ld p)) a1 (skipn ld p) Ha1 Bp1 (le_n _) ltac:(lia)) as (q & r & Eq & Hq & Hr & Hbig & ELoop). rewrite <- Q1, <- Q2 in ELoop. rewrite ELoop.
      assert (Lqr : length p - ld = length q + length r) by (rewrite <- Lp, Eq, app_length; reflexivity). apply Nat.mod_divides in Hq; [|lia]. destruct Hq as [kq Hq].
      destruct (Nat.ltb_spec (length p - length r) 64) as [G5|G5].
      * split; [reflexivity|]. intro NP. exfalso. apply NP. assert (length q = 0) by (destruct kq; [lia|]; lia). destruct (Nat.lt_ge_cases 256 (length (skipn ld p))); [lia|]. lia.
      * split. { intros [P1 P2]. exfalso. assert (length (skipn ld p) = 256) by lia. assert (length q = 0) by lia. lia. }
        intros _. eexists. split; [reflexivity|]. rewrite Em, Eq, app_assoc.
        assert (Bq : isbytes q) by (rewrite Eq in Bp1; apply Forall_app in Bp1; apply Bp1). assert (Br : isbytes r) by (rewrite Eq in Bp1; apply Forall_app in Bp1; apply Bp1).
        set (off := length p - length r) in *. assert (Ep : p = firstn off p ++ r).
        { assert (Hu : exists u, p = u ++ r) by (exists (firstn ld p ++ q); rewrite <- app_assoc, <- Eq; symmetry; apply firstn_skipn). unfold off. clear - Hu. destruct Hu as [u Hu]. subst p.
          rewrite app_length, Nat.add_sub, firstn_app, firstn_all, Nat.sub_diag, firstn_O, app_nil_r. reflexivity. }
        apply (refill (a1 ++ q) r (copy_at x1 192 (skipn (off - 64) p)) _ (fst (xst (a1 ++ q)), snd (xst (a1 ++ q)))).
        -- rewrite app_length, <- Nat.add_mod_idemp_l, Ha1, Hq by lia. rewrite Nat.mul_comm. apply Nat.mod_mul. lia.
        -- exact Hr.
        -- exact Br.
        -- apply Forall_app. split; assumption.
        -- rewrite copy_at_length; lia.
        -- apply copy_at_isbytes; [exact Bx1|apply isbytes_skipn; exact Bp].
        -- rewrite copy_at_full by (rewrite ?skipn_length; lia). rewrite Lx1. rewrite skipn_app, skipn_all2, firstn_length, Nat.min_l by (rewrite ?firstn_length; lia). rewrite app_nil_l, Nat.sub_diag, skipn_O. change (256 - 192) with 64.
           assert (F : (a1 ++ q) = (a ++ b ++ firstn (off - 64) p) ++ firstn 64 (skipn (off - 64) p)).
           { apply (app_inv_tail r). rewrite <- !app_assoc. rewrite <- Eq, <- Em, E, <- app_assoc. do 2 f_equal. rewrite Ep at 1. rewrite app_assoc. f_equal. rewrite firstn_add_split. f_equal. lia. }
           rewrite F. symmetry. apply last64. rewrite firstn_length, skipn_length. lia.
        -- reflexivity.
        -- reflexivity.
        -- rewrite <- app_assoc, <- Eq, <- Em. reflexivity.
    + split; [lia|]. intros _. eexists. split; [reflexivity|]. rewrite Em. apply (refill a1 (skipn ld p) x1 _ (s1, so1)); auto; try lia.
  - (* nothing is buffered *)
    assert (Z : nx = 0) by lia. assert (b = []) by (apply length_zero_iff_nil; lia). assert (a = []) by (apply Hn; assumption). clear Fx. subst a b. clear Hn. cbn [app] in E. subst m. cbn [app] in *.
    destruct (Nat.leb_spec 256 (length p)) as [G4|G4]; [|lia].
    destruct (loop_spec (length p) [] p eq_refl Bp (le_n _) ltac:(lia)) as (q & r & Eq & Hq & Hr & Hbig & ->). cbn [app] in *.
    assert (Lqr : length p = length q + length r) by (rewrite Eq, app_length; reflexivity).
    destruct (Nat.ltb_spec (length p - length r) 64) as [G5|G5]; [specialize (Hbig ltac:(lia)); lia|]. split; [lia|]. intros _. eexists. split; [reflexivity|]. assert (Conv : forall d0, xrel d0 (q ++ r) -> xrel d0 p) by (intros d0 H0; rewrite Eq; exact H0). apply Conv. clear Conv.
    assert (Bq : isbytes q) by (rewrite Eq in Bp; apply Forall_app in Bp; apply Bp). assert (Br : isbytes r) by (rewrite Eq in Bp; apply Forall_app in Bp; apply Bp).
    apply (refill q r (copy_at x 192 (skipn (length p - length r - 64) p)) _ (fst (xst q), snd (xst q))); auto.
    + rewrite copy_at_length; lia.
    + apply copy_at_isbytes; [exact Bx|apply isbytes_skipn; exact Bp].
    + rewrite copy_at_full by (rewrite ?skipn_length; lia). rewrite Lx. rewrite skipn_app, skipn_all2, firstn_length, Nat.min_l by (rewrite ?firstn_length; lia). rewrite app_nil_l, Nat.sub_diag, skipn_O. change (256 - 192) with 64.
      rewrite Lqr, Nat.add_sub, Eq. rewrite skipn_app. rewrite firstn_app, skipn_length. replace (64 - (length q - (length q - 64))) with 0 by lia. rewrite firstn_O, app_nil_r. apply firstn_all2. rewrite skipn_length. lia.
    + rewrite Eq. reflexivity.
Qed.
(** the lanes of a digest with more than 240 bytes are those of the message *)
Lemma hashLong_ok : forall d m, xrel d m -> 240 < length m -> xd_hashLong s d = x3_lanes s m.
Proof.
  intros d m R LM. destruct R as [Rl Rb (a & b & E & Ha & Lb & L256 & Hn & Est & Lx & Bx & Fx & Tx)].
  assert (Ea : isbytes a) by (subst m; apply Forall_app in Rb; apply Rb). assert (Eb : isbytes b) by (subst m; apply Forall_app in Rb; apply Rb).
  assert (E1 : xd_s d = fst (xst a)) by (rewrite <- Est; reflexivity). assert (E2 : xd_so d = snd (xst a)) by (rewrite <- Est; reflexivity).
  assert (Hb : 0 < length b) by (destruct b; [rewrite (Hn eq_refl) in E; subst m; cbn in LM; lia|cbn [length]; lia]). assert (LMs : length m = length a + length b) by (subst m; apply app_length).
  unfold xd_hashLong, x3_lanes. cbv zeta. rewrite E1, E2. clear E1 E2 Est. set (nx := xd_nx d) in *. set (x := xd_x d) in *.
  assert (HC : firstn (length m - 1) m = a ++ firstn (nx - 1) b) by (rewrite LMs, E, firstn_app, firstn_all2 by lia; do 2 f_equal; lia). rewrite HC. replace (secretLimit s - 7) with (length s - 71) by (unfold secretLimit; lia).
  destruct (Nat.leb_spec 64 nx) as [G|G].
  - rewrite Fx. assert (Q : 64 * ((nx - 1) / 64) <= nx) by (pose proof (Nat.mul_div_le (nx - 1) 64 ltac:(lia)); lia). assert (Q4 : (nx - 1) / 64 <= 4) by (apply Nat.div_le_upper_bound; lia).
    rewrite xst_app by (auto using mod_64; lia). rewrite accum_ok; [|apply xst_ok|unfold slice; apply isbytes_firstn, isbytes_skipn; exact Bx|exact Bs].
    unfold xst. rewrite !chunks_app64 by (apply mod_64; exact Ha). rewrite (chunks_trim b (nx - 1)) by lia. f_equal.
    unfold slice. rewrite LMs, E, skipn_app, (skipn_all2 a), app_nil_l by lia. replace (length a + length b - 64 - length a) with (nx - 64) by lia. rewrite <- Fx, skipn_firstn_comm. reflexivity.
  - assert (An : a <> []) by (intros ->; cbn in LMs; lia). specialize (Tx An ltac:(lia)). rewrite Fx.
    assert (L64 : 64 <= length a). { apply Nat.mod_divides in Ha; [|lia]. destruct Ha as [k Hk]. destruct k; [|lia]. destruct a; [elim An; reflexivity|cbn in Hk; lia]. }
    assert (EL : copy_at (copy_at (zeros 64) 0 (skipn (256 - (64 - nx)) x)) (64 - nx) b = skipn (length m - 64) m).
    { assert (T2 : skipn (256 - (64 - nx)) x = skipn (length a - (64 - nx)) a). { replace (256 - (64 - nx)) with (192 + nx) by lia. rewrite <- Base.skipn_skipn, Tx, Base.skipn_skipn. f_equal. lia. }
      rewrite T2. set (c := skipn (length a - (64 - nx)) a). assert (Lc : length c = 64 - nx) by (unfold c; rewrite skipn_length; lia). rewrite copy_at_over by (rewrite zeros_length; lia).
      rewrite (copy_at_app' _ c _ (64 - nx) 0) by lia. rewrite copy_at_over by (rewrite skipn_length, zeros_length; lia). rewrite Base.skipn_skipn, skipn_all2, app_nil_r by (rewrite zeros_length; lia).
      rewrite LMs, E, skipn_app. replace (length a + length b - 64 - length a) with 0 by lia. rewrite skipn_O. f_equal. unfold c. f_equal. lia. }
    rewrite EL. rewrite accum_ok; [|apply xst_ok|apply isbytes_skipn; exact Rb|exact Bs]. f_equal. unfold xst. rewrite chunks_app64 by (apply mod_64; exact Ha). rewrite (chunks_short _ 64 (firstn _ b)) by (rewrite firstn_length; lia). rewrite app_nil_r. reflexivity.
Qed.
Lemma short_buf : forall d m, xrel d m -> length m <= 240 -> firstn (xd_nx d) (xd_x d) = m.
Proof. intros d m [_ _ (a & b & E & Ha & Lb & L256 & Hn & Est & Lx & Bx & Fx & Tx)] H. rewrite Fx. apply Nat.mod_divides in Ha; [|lia]. destruct Ha as [k Hk]. subst m. rewrite app_length in H. destruct k; [|lia]. destruct a; [reflexivity|cbn in Hk; lia]. Qed.
(** the secret for short messages *)
Definition xS (seed : N) : list N := if (seed =? 0)%N then s else x3_secret.
Lemma sum64_ok : forall d m seed, xrel d m -> (N.of_nat (length m) < B64)%N -> xd_Sum64 seed s d = x3_64 x3_av (xS seed) seed s m.
Proof.
  intros d m seed R HB. destruct R as [Rl Rb Rs] eqn:RR. pose proof RR as _. assert (R' : xrel d m) by exact R. clear RR. unfold xd_Sum64. rewrite Rl, w64_small by exact HB. destruct (N.ltb_spec 240 (N.of_nat (length m))) as [G|G].
  - rewrite (hashLong_ok d m) by (auto; lia). rewrite merge_ok; [|apply accum_lanes|exact Bs|apply w64_lt]. unfold x3_64. cbv zeta. destruct (Nat.leb_spec (length m) 16); [lia|]. destruct (Nat.leb_spec (length m) 128); [lia|]. destruct (Nat.leb_spec (length m) 240); [lia|]. reflexivity.
  - rewrite (short_buf d m) by (auto; lia). rewrite firstn_all2 by (unfold secretLimit; lia). unfold xS. destruct (N.eqb_spec seed 0) as [-> |NZ]; cbn [negb].
    + apply hash64i_ok; auto. lia.
    + unfold Hash_64bits_withSeed. rewrite ksecret_ok. apply hash64i_ok; auto using secret_bytes. lia.
Qed.
Lemma sum128_ok : forall d m seed, xrel d m -> (N.of_nat (length m) < B64)%N -> xd_Sum128 seed s d = x3_128 x3_av (xS seed) seed s m.
Proof.
  intros d m seed R HB. destruct R as [Rl Rb Rs] eqn:RR. assert (R' : xrel d m) by exact R. clear RR. unfold xd_Sum128. rewrite Rl, w64_small by exact HB. destruct (N.ltb_spec 240 (N.of_nat (length m))) as [G|G].
  - rewrite (hashLong_ok d m) by (auto; lia). rewrite <- (w64_small (N.of_nat (length m)) HB), merge128_ok; [|apply accum_lanes|exact Bs]. unfold x3_128. cbv zeta. destruct (Nat.leb_spec (length m) 16); [lia|]. destruct (Nat.leb_spec (length m) 128); [lia|]. destruct (Nat.leb_spec (length m) 240); [lia|]. reflexivity.
  - rewrite (short_buf d m) by (auto; lia). rewrite firstn_all2 by (unfold secretLimit; lia). unfold xS. destruct (N.eqb_spec seed 0) as [-> |NZ]; cbn [negb].
    + apply hash128i_ok; auto. lia.
    + unfold Hash_128bits_withSeed. rewrite ksecret_ok. apply hash128i_ok; auto using secret_bytes. lia.
Qed.
End Digest.
(** No Write of the sequence meets the panic, [t] bytes being already written since the last Reset. *)
Fixpoint x3_safe (t : nat) (ops : list op) : Prop :=
  match ops with
  | [] => True
  | Write p :: l => ~ x3_panics t (length p) /\ x3_safe (t + length p) l
  | Sum _ :: l => x3_safe t l
  | Reset :: l => x3_safe 0 l
  end.
Section History.
Variable s : list N.
Hypothesis Bs : isbytes s.
Hypothesis Ls : 136 <= length s.
Variable out : xd -> list N.
Variable H : list N -> list N.
Hypothesis out_ok : forall d m, xrel s d m -> (N.of_nat (length m) < B64)%N -> out d = H m.
Lemma run_safe : forall ops d m, Forall op_bytes ops -> (N.of_nat (length m) + ops_total ops < B64)%N -> x3_safe (length m) ops -> xrel s d m ->
  run (xd_impl out s) (Some d) ops = ideal_run H m ops.
Proof.
  intros ops. induction ops as [|o ops IH]; intros d m HF HB HS HR; [reflexivity|]. inversion HF as [|? ? Ho HF']; subst. destruct o as [p|i|]; cbn [run ideal_run ops_total x3_safe xd_impl i_write i_sum i_reset] in *.
  - destruct HS as [NP HS]. destruct (proj2 (write_ok s Bs Ls d m p HR Ho) NP) as (d' & E & R'). rewrite E. f_equal. apply IH; auto; rewrite app_length; [lia|exact HS].
  - rewrite (out_ok d m HR) by lia. f_equal. apply IH; auto.
  - apply IH; auto; [cbn [length]; lia|apply reset_rel; assumption].
Qed.
Lemma exec_safe : forall ops d m, Forall op_bytes ops -> x3_safe (length m) ops -> xrel s d m -> exists d', exec (xd_impl out s) (Some d) ops = Some d' /\ xrel s d' (history m ops).
Proof.
  intros ops. induction ops as [|o ops IH]; intros d m HF HS HR; [exists d; split; [reflexivity|exact HR]|]. inversion HF as [|? ? Ho HF']; subst. destruct o as [p|i|]; cbn [exec history x3_safe xd_impl i_write i_sum i_reset fst] in *.
  - destruct HS as [NP HS]. destruct (proj2 (write_ok s Bs Ls d m p HR Ho) NP) as (d' & E & R'). rewrite E. cbn [fst]. apply IH; auto. rewrite app_length. exact HS.
  - apply IH; auto.
  - apply IH; auto. apply reset_rel; assumption.
Qed.
End History.
Lemma seed64_ok : forall seed d m, xrel (x3_derive seed) d m -> (N.of_nat (length m) < B64)%N -> xd_Sum64 seed (x3_derive seed) d = x3_64_seed x3_av seed m.
Proof. intros seed d m R HB. destruct (derived seed) as [Be Le]. rewrite (sum64_ok _ Be Le d m seed R HB). unfold xS, x3_64_seed. destruct (N.eqb_spec seed 0) as [-> |_]; [rewrite derive_0|]; reflexivity. Qed.
Lemma seed128_ok : forall seed d m, xrel (x3_derive seed) d m -> (N.of_nat (length m) < B64)%N -> xd_Sum128 seed (x3_derive seed) d = x3_128_seed x3_av seed m.
Proof. intros seed d m R HB. destruct (derived seed) as [Be Le]. rewrite (sum128_ok _ Be Le d m seed R HB). unfold xS, x3_128_seed. destruct (N.eqb_spec seed 0) as [-> |_]; [rewrite derive_0|]; reflexivity. Qed.
(** New64WithSecret, New128WithSecret: every call sequence without the panic of C128 sees the one-shot hash of what was written. *)
Theorem C127_xxh3_secret_histories : forall secret ops, isbytes secret -> 136 <= length secret -> Forall op_bytes ops -> (ops_total ops < 2 ^ 64)%N -> x3_safe 0 ops ->
  exists d, NewWithSecret secret = Some (0%N, secret, d) /\
  run (xd_impl (xd_out64 0 secret) secret) (Some d) ops = ideal_run (fun m => x3_bytes64 (x3_64_secret x3_av secret m)) [] ops /\
  run (xd_impl (xd_out128 0 secret) secret) (Some d) ops = ideal_run (fun m => x3_bytes128 (x3_128_secret x3_av secret m)) [] ops.
Proof.
  intros secret ops Bs Ls HF HB HS. exists xd_reset. split; [unfold NewWithSecret; destruct (Nat.ltb_spec (length secret) 136); [lia|reflexivity]|].
  split; (apply (run_safe secret Bs Ls); [|exact HF|exact HB|exact HS|apply reset_rel; assumption]); intros d m R HM.
  - unfold xd_out64, x3_bytes64. f_equal. exact (sum64_ok secret Bs Ls d m 0 R HM).
  - unfold xd_out128, x3_bytes128. cbv zeta. rewrite (sum128_ok secret Bs Ls d m 0 R HM). reflexivity.
Qed.
(** New64WithSeed, New128WithSeed, and New64, New128 with seed 0. *)
Theorem C127_xxh3_seed_histories : forall seed ops, Forall op_bytes ops -> (ops_total ops < 2 ^ 64)%N -> x3_safe 0 ops ->
  let '(seed', secret, d) := NewWithSeed seed in
  run (xd_impl (xd_out64 seed' secret) secret) (Some d) ops = ideal_run (fun m => x3_bytes64 (x3_64_seed x3_av seed m)) [] ops /\
  run (xd_impl (xd_out128 seed' secret) secret) (Some d) ops = ideal_run (fun m => x3_bytes128 (x3_128_seed x3_av seed m)) [] ops.
Proof.
  intros seed ops HF HB HS. unfold NewWithSeed. rewrite gen_ok. destruct (derived seed) as [Be Le].
  split; (apply (run_safe (x3_derive seed) Be Le); [|exact HF|exact HB|exact HS|apply reset_rel; assumption]); intros d m R HM.
  - unfold xd_out64, x3_bytes64. f_equal. exact (seed64_ok seed d m R HM).
  - unfold xd_out128, x3_bytes128. cbv zeta. rewrite (seed128_ok seed d m R HM). reflexivity.
Qed.
(** The hash of the digests is XXH3 from 4 bytes on. *)
Theorem C127_xxh3_official : forall seed secret m, 4 <= length m ->
  x3_64_seed x3_av seed m = x3_64_seed x3_av64 seed m /\ x3_128_seed x3_av seed m = x3_128_seed x3_av64 seed m /\
  x3_64_secret x3_av secret m = x3_64_secret x3_av64 secret m /\ x3_128_secret x3_av secret m = x3_128_secret x3_av64 secret m.
Proof. intros seed secret m H. unfold x3_64_seed, x3_64_secret, x3_128_seed, x3_128_secret. repeat split; apply (av_irrelevant x3_av); exact H. Qed.
(** Sum64WithSeed, Checksum64WithSeed, ... write once and do not panic. *)
Theorem C127_xxh3_checksums : forall seed m, isbytes m -> (N.of_nat (length m) < 2 ^ 64)%N ->
  SumWithSeed 8 xd_out64 m seed = Some (x3_bytes64 (x3_64_seed x3_av seed m)) /\ SumWithSeed 16 xd_out128 m seed = Some (x3_bytes128 (x3_128_seed x3_av seed m)) /\
  ChecksumWithSeed xd_Sum64 m seed = Some (x3_64_seed x3_av seed m) /\ ChecksumWithSeed xd_Sum128 m seed = Some (x3_128_seed x3_av seed m).
Proof.
  intros seed m Bm HB. unfold SumWithSeed, ChecksumWithSeed, NewWithSeed. rewrite gen_ok. destruct (derived seed) as [Be Le].
  destruct (proj2 (write_ok (x3_derive seed) Be Le xd_reset [] m (reset_rel _ Le) Bm)) as (d & E & R); [unfold x3_panics; change (x3_buffered (length [])) with 0; lia|]. rewrite E. cbn [app] in R. change (2 ^ 64)%N with B64 in HB.
  unfold xd_out64, xd_out128. cbv zeta. rewrite (seed64_ok seed d m R HB), (seed128_ok seed d m R HB). split; [|split; [|split; reflexivity]].
  - rewrite copy_at_over by (rewrite be_bytes_length, zeros_length; lia). rewrite skipn_all2 by (rewrite be_bytes_length, zeros_length; lia). rewrite app_nil_r. reflexivity.
  - rewrite copy_at_over by (rewrite app_length, !be_bytes_length, zeros_length; lia). rewrite skipn_all2 by (rewrite app_length, !be_bytes_length, zeros_length; lia). rewrite app_nil_r. reflexivity.
Qed.
(** A secret is refused exactly when it is shorter than 136 bytes. *)
Theorem C127_xxh3_secret_size : forall secret, NewWithSecret secret = None <-> length secret < 136.
Proof. intro secret. unfold NewWithSecret. destruct (Nat.ltb_spec (length secret) 136); split; intro; try assumption; try reflexivity; [discriminate|lia]. Qed.
(** After any call sequence that did not panic, Write panics exactly when more than 192 bytes are buffered and the buffered bytes and the
    argument are 512 bytes together. *)
Theorem C128_xxh3_write_panics_exact : forall secret out ops p, isbytes secret -> 136 <= length secret -> Forall op_bytes ops -> isbytes p -> x3_safe 0 ops ->
  exists d, exec (xd_impl out secret) (Some xd_reset) ops = Some d /\ (xd_write secret d p = None <-> x3_panics (length (history [] ops)) (length p)).
Proof.
  intros secret out ops p Bs Ls HF Bp HS. destruct (exec_safe secret Bs Ls out ops xd_reset [] HF HS (reset_rel _ Ls)) as (d & E & R). exists d. split; [exact E|].
  destruct (write_ok secret Bs Ls d _ p R Bp) as [W1 W2]. split; [|exact W1]. intro E0. assert (Dec : {x3_panics (length (history [] ops)) (length p)} + {~ x3_panics (length (history [] ops)) (length p)}).
  { unfold x3_panics. destruct (lt_dec 192 (x3_buffered (length (history [] ops)))); [destruct (Nat.eq_dec (x3_buffered (length (history [] ops)) + length p) 512)|]; [left|right|right]; lia. }
  destruct Dec as [P|NP]; [exact P|]. destruct (W2 NP) as (d' & E1 & _). rewrite E0 in E1. discriminate E1.
Qed.
(** Two writes of 256 bytes panic, one write of the 512 bytes does not. *)
Theorem C128_xxh3_write_panics_refuted : forall secret a b, isbytes secret -> 136 <= length secret -> isbytes a -> isbytes b -> length a = 256 -> length b = 256 ->
  (exists d, xd_write secret xd_reset a = Some d /\ xd_write secret d b = None) /\ (exists d, xd_write secret xd_reset (a ++ b) = Some d).
Proof.
  intros secret a b Bs Ls Ba Bb La Lb. split.
  - destruct (proj2 (write_ok secret Bs Ls xd_reset [] a (reset_rel _ Ls) Ba)) as (d & E & R); [unfold x3_panics; change (x3_buffered (length [])) with 0; lia|]. exists d. split; [exact E|].
    apply (proj1 (write_ok secret Bs Ls d _ b R Bb)). cbn [app]. rewrite La, Lb. split; [apply Nat.ltb_lt; vm_compute; reflexivity|vm_compute; reflexivity].
  - destruct (proj2 (write_ok secret Bs Ls xd_reset [] (a ++ b) (reset_rel _ Ls) ltac:(apply Forall_app; split; assumption))) as (d & E & R); [unfold x3_panics; change (x3_buffered (length [])) with 0; lia|]. exists d. exact E.
Qed.
(** a safe sequence with several blocks, a Sum in the middle and a Reset *)
Example C127_safe : x3_safe 0 [Write (zeros 300); Sum []; Write (zeros 1000); Write (zeros 5); Sum [1%N]; Reset; Write (zeros 7)] /\ ~ x3_safe 0 [Write (zeros 256); Write (zeros 256)].
Proof. unfold x3_safe, x3_panics. rewrite !zeros_length. split; [repeat split; vm_compute; lia|intros (_ & H & _); apply H; split; [apply Nat.ltb_lt; vm_compute; reflexivity|vm_compute; reflexivity]]. Qed.
