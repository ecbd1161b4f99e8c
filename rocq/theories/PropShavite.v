(** PropShavite.v -- C53: what shavite digests compute, for every call history, and when that is SHAvite-3. *)
From Coq Require Import List NArith ZArith Arith Bool Lia.
From Verif Require Import Base Words Buf HashAPI Refine Bytes SpecAes SpecShavite Shavite ShaviteP.
Import ListNotations.
Local Open Scope nat_scope.
Local Ltac Zify.zify_post_hook ::= Z.to_euclidean_division_equations.

Definition svP (v : sv_variant) : sv_params := match v with V256 => sv256 | V512 => sv512 end.
Lemma svP_bs : forall v, sv_bs (svP v) = sv_BlockSize v.
Proof. now intros []. Qed.
Definition sv_ivs (v : sv_variant) (hs : nat) (iv : list N) : Prop :=
  match v with V256 => In (hs, iv) [(28, sv_initVal224); (32, sv_initVal256)] | V512 => In (hs, iv) [(48, sv_initVal384); (64, sv_initVal512)] end.
(** The constants of sbox.go are the initial values of the specification. *)
Lemma sv_ivs_ok : forall v hs iv, sv_ivs v hs iv -> sv_iv (svP v) hs = iv /\ length iv = sv_BlockSize v / 8 /\ Forall is32 iv.
Proof.
  assert (C : forall l : list N, forallb (fun x => N.ltb x 4294967296) l = true -> Forall is32 l).
  { intros l H. apply Forall_forall. intros x Hx. apply N.ltb_lt. exact (proj1 (forallb_forall _ _) H x Hx). }
  intros [] hs iv [H|[H|[]]]; injection H as <- <-; (split; [vm_compute; reflexivity|split; [reflexivity|apply C; vm_compute; reflexivity]]).
Qed.
Opaque sv256_process sv512_process C256 C512 sv_iv sv_AES0.

Definition st_ok (v : sv_variant) (st : list N * list N) : Prop := length (fst st) = sv_BlockSize v / 8 /\ Forall is32 (fst st) /\ length (snd st) = sv_rklen v.
(** process with the counter words of [c]. *)
Definition proc (v : sv_variant) (st : list N * list N) (b : list N) (c : N) : list N * list N :=
  match v with V256 => sv256_process st b (cw c 0) (cw c 1) | V512 => sv512_process st b (cw c 0) (cw c 1) (cw c 2) end.
Lemma cw_small : forall c i, (c < 2 ^ 64)%N -> (2 <= i)%N -> cw c i = 0%N.
Proof.
  intros c i Hc Hi. unfold cw. rewrite N.shiftr_div_pow2, N.div_small; [reflexivity|]. eapply N.lt_le_trans; [exact Hc|]. apply N.pow_le_mono_r; [discriminate|lia].
Qed.
Lemma proc_ok : forall v st b c, (c < 2 ^ 64)%N -> st_ok v st -> length b = sv_BlockSize v -> isbytes b ->
  fst (proc v st b c) = sv_C (svP v) (fst st) b c /\ st_ok v (proc v st b c).
Proof.
  intros [] [h rk] b c Hc (Lh & Ih & Lk) Lb Hb; cbn [fst snd] in *.
  - destruct (process256_ok h rk b c Lh Ih Lk Lb Hb) as (rk' & E & A & B & C). cbn [proc]. rewrite E. unfold st_ok. cbn [fst snd]. auto.
  - destruct (process512_ok h rk b c Lh Ih Lk Lb Hb (cw_small c 3 Hc ltac:(lia))) as (rk' & E & A & B & C). cbn [proc]. rewrite E. unfold st_ok. cbn [fst snd]. auto.
Qed.
Lemma shiftr0 : forall x, N.shiftr x 0 = x. Proof. exact N.shiftr_0_r. Qed.
Lemma shl64_small : forall x n, (x * 2 ^ n < 18446744073709551616)%N -> shl64 x n = (x * 2 ^ n)%N.
Proof. intros x n H. unfold shl64. rewrite N.shiftl_mul_pow2. now apply w64_small. Qed.
Lemma processBlock_ok : forall v st len b, (len < 2 ^ 59)%N ->
  sv_processBlock v st len b = proc v st b (8 * N.of_nat (sv_BlockSize v) * (len / N.of_nat (sv_BlockSize v) + 1)).
Proof.
  intros [] st len b Hl; change (2 ^ 59)%N with 576460752303423488%N in Hl; unfold sv_processBlock, proc, cw; cbn [sv_BlockSize]; cbv zeta.
  - change (N.of_nat 64) with 64%N. assert (E : add64 (len / 64) 1 = (len / 64 + 1)%N) by (unfold add64; apply w64_small; lia). rewrite E.
    rewrite shl64_small by (change (2 ^ 9)%N with 512%N; lia). change (2 ^ 9)%N with (8 * 64)%N. rewrite (N.mul_comm _ (8 * 64)). change (32 * 0)%N with 0%N. rewrite shiftr0. reflexivity.
  - change (N.of_nat 128) with 128%N. assert (E : add64 (len / 128) 1 = (len / 128 + 1)%N) by (unfold add64; apply w64_small; lia). rewrite E.
    rewrite shl64_small by (change (2 ^ 10)%N with 1024%N; lia). change (2 ^ 10)%N with (8 * 128)%N. rewrite (N.mul_comm _ (8 * 128)). change (32 * 0)%N with 0%N. rewrite shiftr0. f_equal.
    assert (Z : forall x k, (x < 2 ^ k)%N -> w32 (N.shiftr x k) = 0%N) by (intros x k Hx; rewrite N.shiftr_div_pow2, N.div_small by exact Hx; reflexivity).
    rewrite !Z; [reflexivity| |]. + change (2 ^ (32 * 2))%N with 18446744073709551616%N. lia. + change (2 ^ 54)%N with 18014398509481984%N. lia.
Qed.

(** ** The chain of complete blocks with given counter offsets. *)
Definition bctr (bs : nat) (offs : list N) (i : nat) : N := (8 * N.of_nat bs * (N.of_nat i + 1 + nth i offs 0))%N.
Lemma combine_app : forall A B (a a' : list A) (b b' : list B), length a = length b -> combine (a ++ a') (b ++ b') = combine a b ++ combine a' b'.
Proof. induction a as [|x a IH]; intros a' [|y b] b' H; try discriminate H; [reflexivity|]. cbn [app combine]. f_equal. apply IH. now injection H. Qed.
Lemma chain_app : forall P h a b x y, length a = length x -> sv_chain P h (a ++ b) (x ++ y) = sv_chain P (sv_chain P h a x) b y.
Proof. intros P h a b x y L. unfold sv_chain. rewrite combine_app by exact L. apply fold_left_app. Qed.
Lemma chain_one : forall P h b c, sv_chain P h [b] [c] = sv_C P h b c.
Proof. reflexivity. Qed.

(** ** Relation between a digest and a history.  [m]: bytes written; [e]: by how much d.len is too large;
    [offs]: by how many blocks the counter of each complete block was too large. *)
Definition sv_rel (v : sv_variant) (hs : nat) (iv : list N) (d : sdig) (m : list N) (e : nat) (offs : list N) : Prop :=
  let bs := sv_BlockSize v in
  isbytes m /\ st_ok v (s_st d) /\ length offs = length m / bs /\
  fst (s_st d) = sv_chain (svP v) iv (chunks bs m) (map (bctr bs offs) (seq 0 (length m / bs))) /\
  buf_ok bs bs (s_x d) (s_nx d) m /\ s_len d = N.of_nat (length m + e) /\ e <= bs * length m /\ s_hs d = hs /\ s_init d = iv.

(** e and offs after a Write of n bytes. *)
Definition upd_e (bs : nat) (m : list N) (e n : nat) : nat := if length m mod bs + n <? bs then e else e + length m mod bs.
Definition upd_offs (bs : nat) (m : list N) (e : nat) (offs : list N) (n : nat) : list N :=
  offs ++ repeat (N.of_nat ((length m mod bs + e) / bs)) ((length m mod bs + n) / bs).

Lemma sv_bs_pos : forall v, 64 <= sv_BlockSize v <= 128. Proof. intros []; cbn [sv_BlockSize]; lia. Qed.
Lemma bctr_app : forall bs a b i, i < length a -> bctr bs (a ++ b) i = bctr bs a i.
Proof. intros. unfold bctr. now rewrite app_nth1. Qed.
Lemma map_bctr_app : forall bs a b n, n <= length a -> map (bctr bs (a ++ b)) (seq 0 n) = map (bctr bs a) (seq 0 n).
Proof. intros. apply map_ext_in. intros i Hi. apply in_seq in Hi. apply bctr_app. lia. Qed.

Section Wr.
Variable v : sv_variant. Variable hs : nat. Variable iv : list N.
Notation bs := (sv_BlockSize v).
Variable m0 : list N. Variable e0 : nat. Variable offs0 : list N. Variable tot : nat.
Definition n0 := length m0 / bs.
Definition o0 := N.of_nat ((length m0 mod bs + e0) / bs).
Definition Inv (s : (list N * list N) * N) (m : list N) : Prop :=
  isbytes m -> length m <= tot ->
  let k := length m / bs - n0 in
  length m0 <= length m /\ (length m = length m0 \/ (length m mod bs = 0 /\ n0 < length m / bs)) /\
  st_ok v (fst s) /\ snd s = N.of_nat (length m0 + e0 + bs * k) /\
  fst (fst s) = sv_chain (svP v) iv (chunks bs m) (map (bctr bs (offs0 ++ repeat o0 k)) (seq 0 (length m / bs))).
Hypothesis Lo : length offs0 = n0.
Hypothesis He : e0 <= bs * length m0.
Hypothesis Ht : length m0 <= tot.
Hypothesis HT : (N.of_nat tot < 2 ^ 50)%N.
Lemma Inv_step : forall s m c b, Inv s m -> length b = bs -> firstn bs b = rest bs m ++ c -> length (rest bs m) + length c = bs ->
  Inv ((fun '(st, len) b (_ : nat) => (sv_processBlock v st len b, add64 len (N.of_nat bs))) s b (length c)) (m ++ c).
Proof.
  intros [st len] m c b HI Lb Eb Hl HB HM. pose proof (sv_bs_pos v) as Hbs. apply isbytes_app in HB. destruct HB as [HBm HBc]. rewrite app_length in HM.
  destruct (HI HBm ltac:(lia)) as (H1 & H2 & H3 & H4 & H5). cbn [fst snd] in *. rewrite firstn_all2 in Eb by lia. subst b.
  pose proof (rest_length N bs m ltac:(lia)) as HR. set (nm := length m / bs) in *. assert (Dm : length m = bs * nm + length m mod bs) by (apply Nat.div_mod; lia).
  assert (D0 : length m0 = bs * n0 + length m0 mod bs) by (apply Nat.div_mod; lia). assert (Hn0 : n0 <= nm) by (unfold n0, nm; apply Nat.div_le_mono; lia).
  assert (Lmc : length (m ++ c) = bs * S nm) by (rewrite app_length; lia). assert (Dmc : length (m ++ c) / bs = S nm) by (rewrite Lmc, Nat.mul_comm; apply Nat.div_mul; lia).
  assert (Mmc : length (m ++ c) mod bs = 0) by (rewrite Lmc, Nat.mul_comm; apply Nat.mod_mul; lia).
  set (k := nm - n0) in *.
  assert (Elen : (len / N.of_nat bs)%N = N.of_nat (nm + (length m0 mod bs + e0) / bs)).
  { rewrite H4, <- Nat2N.inj_div. f_equal. replace (length m0 + e0 + bs * k) with ((length m0 mod bs + e0) + nm * bs) by (unfold k; nia). rewrite Nat.div_add by lia. lia. }
  assert (Hlen : (len < 2 ^ 59)%N).
  { rewrite H4. change (2 ^ 50)%N with 1125899906842624%N in HT. change (2 ^ 59)%N with 576460752303423488%N. assert (bs * k <= length m) by (unfold k; nia). assert (bs * length m0 <= 128 * length m0) by (apply Nat.mul_le_mono_r; lia). lia. }
  rewrite (processBlock_ok v st len _ Hlen), Elen.
  set (ctr := (8 * N.of_nat bs * (N.of_nat (nm + (length m0 mod bs + e0) / bs) + 1))%N).
  assert (Hctr : (ctr < 2 ^ 64)%N).
  { unfold ctr. rewrite <- Elen. change (2 ^ 59)%N with 576460752303423488%N in Hlen. change (2 ^ 64)%N with 18446744073709551616%N. pose proof (N.mul_div_le len (N.of_nat bs) ltac:(lia)). lia. }
  assert (Lb' : length (rest bs m ++ c) = bs) by (rewrite app_length; lia). assert (Hb' : isbytes (rest bs m ++ c)) by (apply isbytes_app; split; [unfold rest; now apply isbytes_skipn|exact HBc]).
  destruct (proc_ok v st (rest bs m ++ c) ctr Hctr H3 Lb' Hb') as [E1 E2]. rewrite Dmc. replace (S nm - n0) with (S k) by (unfold k; lia).
  split; [rewrite app_length; lia|]. split; [right; split; [exact Mmc|lia]|]. split; [exact E2|]. split.
  - unfold add64. rewrite w64_small; [rewrite H4; lia|]. change (2 ^ 59)%N with 576460752303423488%N in Hlen. lia.
  - rewrite E1, H5. rewrite chunks_app by lia. rewrite (chunks_one N bs (rest bs m ++ c)) by (lia || exact Lb'). rewrite seq_S, map_app. cbn [map Nat.add].
    rewrite chain_app by (rewrite chunks_length, map_length, seq_length; reflexivity). rewrite chain_one. f_equal.
    + f_equal. replace (repeat o0 (S k)) with (repeat o0 k ++ [o0]) by (symmetry; apply (repeat_cons k o0)). rewrite app_assoc. symmetry. apply map_bctr_app. rewrite app_length, repeat_length, Lo. lia.
    + unfold bctr, ctr, o0. f_equal. assert (En : nth nm (offs0 ++ repeat o0 (S k)) 0%N = o0).
      { rewrite app_nth2 by (rewrite Lo; lia). rewrite Lo. fold k. generalize k. clear. induction k as [|j IH]; [reflexivity|exact IH]. }
      fold o0. rewrite En. unfold o0. lia.
Qed.
End Wr.

Theorem sv_write_rel : forall v hs iv d m e offs p, isbytes p -> (N.of_nat (length (m ++ p)) < 2 ^ 50)%N -> sv_rel v hs iv d m e offs ->
  snd (sv_write v d p) = length p /\ sv_rel v hs iv (fst (sv_write v d p)) (m ++ p) (upd_e (sv_BlockSize v) m e (length p)) (upd_offs (sv_BlockSize v) m e offs (length p)).
Proof.
  intros v hs iv d m e offs p Hp HT (Hm & Hst & Lo & Ech & Hbuf & Elen & He & Ehs & Eiv). pose proof (sv_bs_pos v) as Hbs. set (bs := sv_BlockSize v) in *.
  assert (I0 : Inv v iv m e offs (length (m ++ p)) (s_st d, s_len d) m).
  { intros _ _. unfold n0. fold bs. rewrite Nat.sub_diag. cbn [repeat fst snd]. rewrite app_nil_r, Nat.mul_0_r, Nat.add_0_r. auto 8. }
  assert (Hstep := Inv_step v iv m e offs (length (m ++ p)) Lo He ltac:(rewrite app_length; lia) HT).
  destruct (writeA_ok bs bs (fun '(st, len) b (_ : nat) => (sv_processBlock v st len b, add64 len (N.of_nat bs))) (Inv v iv m e offs (length (m ++ p))) ltac:(lia) (le_n _) Hstep (s_st d, s_len d) (s_x d) (s_nx d) p m I0 Hbuf) as (s' & x' & nx' & r & c & E & Ep & HI & Hr & Hbuf').
  unfold sv_write. fold bs. rewrite E. destruct s' as [st' len']. cbn [fst snd]. split; [reflexivity|].
  assert (HBp : isbytes (m ++ p)) by (apply isbytes_app; auto). assert (HBc : isbytes (m ++ c)) by (rewrite Ep, app_assoc in HBp; apply isbytes_app in HBp; apply HBp).
  assert (Lp : length p = length c + length r) by (rewrite Ep; apply app_length). rewrite !app_length in *.
  destruct (HI HBc ltac:(rewrite !app_length; lia)) as (A1 & A2 & A3 & A4 & A5). cbn [fst snd] in *. unfold n0 in *. fold bs in A2, A4, A5. rewrite app_length in A1, A2, A4, A5. rewrite (rest_length N bs (m ++ c)), app_length in Hr by lia.
  set (q := length m / bs) in *. assert (Dm : length m = bs * q + length m mod bs) by (apply Nat.div_mod; lia). set (r0 := length m mod bs) in *. assert (Hr0 : r0 < bs) by (apply Nat.mod_upper_bound; lia).
  unfold upd_e, upd_offs. fold r0.
  destruct A2 as [A2|[A2 A2']].
  - assert (c = []) by (apply length_zero_iff_nil; lia). subst c. cbn [app length] in *. rewrite Nat.add_0_r in *. fold q r0 in Hr, A4, A5. rewrite Nat.sub_diag in *. cbn [repeat] in A5. rewrite app_nil_r in A5. rewrite app_nil_r in *.
    assert (E0 : (r0 + length p) / bs = 0) by (apply Nat.div_small; lia). rewrite E0. cbn [repeat]. rewrite app_nil_r. replace (r0 + length p <? bs) with true by (symmetry; apply Nat.ltb_lt; lia).
    assert (Eq : length (m ++ p) / bs = q). { rewrite app_length, Dm. replace (bs * q + r0 + length p) with (r0 + length p + q * bs) by lia. rewrite Nat.div_add, E0 by lia. reflexivity. }
    unfold sv_rel. cbn [s_st s_x s_nx s_len s_hs s_init]. fold bs. rewrite Eq. split; [exact HBp|]. split; [exact A3|]. split; [exact Lo|]. split.
    + rewrite A5. f_equal. rewrite chunks_app by lia. rewrite (chunks_short N bs (rest bs m ++ p)); [now rewrite app_nil_r|]. rewrite app_length, rest_length by lia. fold r0. lia.
    + split; [exact Hbuf'|]. split; [|split; [rewrite app_length; nia|auto]]. rewrite A4. unfold add64. rewrite w64_small.
      * rewrite app_length. lia.
      * change (2 ^ 50)%N with 1125899906842624%N in HT. assert (bs * length m <= 128 * length m) by (apply Nat.mul_le_mono_r; lia). lia.
  - set (q' := (length m + length c) / bs) in *. assert (Dc : length m + length c = bs * q') by (pose proof (Nat.div_mod (length m + length c) bs ltac:(lia)); unfold q'; lia).
    assert (EK : (r0 + length p) / bs = q' - q). { replace (r0 + length p) with (length r + (q' - q) * bs) by nia. rewrite Nat.div_add, Nat.div_small by lia. lia. }
    rewrite EK. replace (r0 + length p <? bs) with false by (symmetry; apply Nat.ltb_ge; nia).
    assert (Eq : length (m ++ p) / bs = q'). { rewrite app_length, Lp. replace (length m + (length c + length r)) with (length r + q' * bs) by lia. rewrite Nat.div_add, Nat.div_small by lia. reflexivity. }
    unfold sv_rel. cbn [s_st s_x s_nx s_len s_hs s_init]. fold bs. rewrite Eq. split; [exact HBp|]. split; [exact A3|]. split; [rewrite app_length, repeat_length, Lo; lia|]. split.
    + rewrite A5. unfold o0. fold bs r0. f_equal. rewrite Ep, app_assoc, (chunks_app N bs (m ++ c)) by lia. rewrite (chunks_short N bs (rest bs (m ++ c) ++ r)); [now rewrite app_nil_r|]. rewrite app_length, rest_length, app_length by lia. lia.
    + split; [exact Hbuf'|]. split; [|split; [rewrite app_length; nia|auto]]. rewrite A4. unfold add64. rewrite w64_small.
      * rewrite app_length. nia.
      * change (2 ^ 50)%N with 1125899906842624%N in HT. assert (bs * length m <= 128 * length m) by (apply Nat.mul_le_mono_r; lia). assert (bs * (q' - q) <= length m + length c) by nia. lia.
Qed.

(** ** checkSum *)
Lemma zero_ok : forall (x : list N) r k, r < k -> k <= length x -> sv_zero (upd x r 0x80%N) (r + 1) k = (firstn r x ++ 0x80%N :: zeros (k - 1 - r)) ++ skipn k x.
Proof.
  intros x r k H1 H2. unfold sv_zero. rewrite zero_range by (rewrite upd_length; lia). replace (r + 1 + (k - (r + 1))) with k by lia. rewrite upd_split by lia.
  assert (L : length (firstn r x) = r) by (rewrite firstn_length; lia). set (a := firstn r x) in *.
  assert (E1 : firstn (r + 1) (a ++ [128%N] ++ skipn (S r) x) = a ++ [128%N]). { rewrite app_assoc. apply firstn_app_len. rewrite app_length, L. reflexivity. }
  assert (E2 : skipn k (a ++ [128%N] ++ skipn (S r) x) = skipn k x). { rewrite app_assoc, skipn_app, skipn_all2 by (rewrite app_length, L; cbn [length]; lia). rewrite app_length, L. cbn [app length]. replace (skipn k x) with (skipn (S r + (k - S r)) x) by (f_equal; lia). rewrite <- (skipn_skipn N x (k - S r) (S r)). f_equal. lia. }
  change (128%N :: skipn (S r) x) with ([128%N] ++ skipn (S r) x). rewrite E1, E2. rewrite <- !app_assoc. cbn [app]. do 4 f_equal. lia.
Qed.
Lemma tail256 : forall (A B : list N) a b c d, length A = 54 -> length B = 10 -> length a = 4 -> length b = 4 ->
  upd (upd (copy_at (copy_at (A ++ B) 54 a) 58 b) 62 c) 63 d = A ++ a ++ b ++ [c; d].
Proof.
  intros A B a b c d LA LB La Lb. rewrite (copy_at_app' _ A _ 54 0) by lia. rewrite (copy_at_app' _ A _ 58 4) by lia. rewrite (upd_app_r' _ A _ 62 8) by lia. rewrite (upd_app_r' _ A _ 63 9) by lia. f_equal.
  do 10 (destruct B as [|? B]; [discriminate LB|]). destruct B; [|discriminate LB]. do 4 (destruct a as [|? a]; [discriminate La|]). destruct a; [|discriminate La]. do 4 (destruct b as [|? b]; [discriminate Lb|]). destruct b; [|discriminate Lb]. reflexivity.
Qed.
Lemma tail512 : forall (A B : list N) a b c d e, length A = 110 -> length B = 18 -> length a = 4 -> length b = 4 -> length c = 4 ->
  upd (upd (upd (upd (upd (upd (copy_at (copy_at (copy_at (A ++ B) 110 a) 114 b) 118 c) 122 0%N) 123 0%N) 124 0%N) 125 0%N) 126 d) 127 e = A ++ a ++ b ++ c ++ zeros 4 ++ [d; e].
Proof.
  intros A B a b c d e LA LB La Lb Lc. rewrite (copy_at_app' _ A _ 110 0) by lia. rewrite (copy_at_app' _ A _ 114 4) by lia. rewrite (copy_at_app' _ A _ 118 8) by lia.
  rewrite (upd_app_r' _ A _ 122 12) by lia. rewrite (upd_app_r' _ A _ 123 13) by lia. rewrite (upd_app_r' _ A _ 124 14) by lia. rewrite (upd_app_r' _ A _ 125 15) by lia. rewrite (upd_app_r' _ A _ 126 16) by lia. rewrite (upd_app_r' _ A _ 127 17) by lia. f_equal.
  do 18 (destruct B as [|? B]; [discriminate LB|]). destruct B; [|discriminate LB]. do 4 (destruct a as [|? a]; [discriminate La|]). destruct a; [|discriminate La]. do 4 (destruct b as [|? b]; [discriminate Lb|]). destruct b; [|discriminate Lb]. do 4 (destruct c as [|? c]; [discriminate Lc|]). destruct c; [|discriminate Lc]. reflexivity.
Qed.
Lemma out_ok : forall h hs, hs mod 4 = 0 -> hs <= 4 * length h -> sv_out h hs = firstn hs (quad_bytes h).
Proof.
  intros h hs Hm Hl. unfold sv_out, quad_bytes. assert (D : hs = 4 * (hs / 4)) by (pose proof (Nat.div_mod hs 4 ltac:(lia)); lia). set (k := hs / 4) in *. 
  rewrite (out_fields 4 (fun i => le_bytes 4 (at_ h i)) k) by (intros; rewrite ?le_bytes_length, ?zeros_length; lia). rewrite <- D, skipn_all2 by (rewrite zeros_length; lia). rewrite app_nil_r.
  rewrite D. rewrite (firstn_concat_fields 4) by (intros; rewrite ?le_bytes_length; lia). rewrite <- (at_seq_firstn h k) by lia. now rewrite map_map.
Qed.
(** The last one or two blocks and their counters, as the code builds them. *)
Definition final (v : sv_variant) (st : list N * list N) (x : list N) (r hs : nat) (L : N) : list N * list N :=
  let bs := sv_BlockSize v in let lb := sv_lenbytes (svP v) in let b0 := bs - 2 - lb in
  let tail := le_bytes lb L ++ le_bytes 2 (8 * N.of_nat hs) in
  if r <? b0 then proc v st ((firstn r x ++ 0x80%N :: zeros (b0 - 1 - r)) ++ tail) (if r =? 0 then 0 else L)
  else proc v (proc v st (firstn r x ++ 0x80%N :: zeros (bs - 1 - r)) L) (zeros b0 ++ tail) 0.
Lemma hs_bytes : forall hs : nat, [w8 (N.of_nat hs * 8); w8 (N.shiftr (N.of_nat hs) 5)] = le_bytes 2 (8 * N.of_nat hs).
Proof.
  intro hs. cbn [le_bytes]. rewrite (N.mul_comm (N.of_nat hs) 8). rewrite !N.shiftr_div_pow2. change (2 ^ 5)%N with 32%N. change (2 ^ 8)%N with 256%N. replace (8 * N.of_nat hs / 256)%N with (N.of_nat hs / 32)%N; [reflexivity|]. change 256%N with (8 * 32)%N. rewrite N.div_mul_cancel_l by discriminate. reflexivity.
Qed.
Lemma le8_split : forall L, le_bytes 8 L = le_bytes 4 (w32 L) ++ le_bytes 4 (w32 (N.shiftr L 32)).
Proof. intro L. change 8 with (4 + 4). rewrite le_bytes_app. now rewrite !le_bytes4_w32. Qed.
Lemma le16_split : forall L, (L < 2 ^ 64)%N -> le_bytes 16 L = le_bytes 4 (w32 L) ++ le_bytes 4 (w32 (N.shiftr L 32)) ++ le_bytes 4 0 ++ zeros 4.
Proof.
  intros L HL. change 16 with (8 + 8). rewrite le_bytes_app, le8_split, <- app_assoc. do 2 f_equal. rewrite N.shiftr_div_pow2, N.div_small by exact HL. reflexivity.
Qed.
Lemma checkSum_final : forall v d, s_nx d < sv_BlockSize v -> length (s_x d) = sv_BlockSize v -> (s_len d < 2 ^ 59)%N ->
  let L := (8 * (N.of_nat (sv_BlockSize v) * (s_len d / N.of_nat (sv_BlockSize v)) + N.of_nat (s_nx d)))%N in
  sv_checkSum v d = sv_out (fst (final v (s_st d) (s_x d) (s_nx d) (s_hs d) L)) (s_hs d).
Proof.
  intros [] d Hn Hx Hl L; change (2 ^ 59)%N with 576460752303423488%N in Hl; cbn [sv_BlockSize] in *; change (N.of_nat 64) with 64%N in *; change (N.of_nat 128) with 128%N in *.
  - unfold sv_checkSum, sv256_checkSum, final. cbn [sv_BlockSize svP sv_lenbytes sv256]. cbv zeta. change (64 - 2 - 8) with 54.
    assert (EL : add64 (shl64 (s_len d / 64) 9) (N.of_nat (s_nx d) * 8) = L). { rewrite shl64_small by (change (2 ^ 9)%N with 512%N; lia). unfold add64. change (2 ^ 9)%N with 512%N. rewrite w64_small; unfold L; lia. }
    rewrite EL. assert (CW0 : forall c, w32 c = cw c 0) by (intro c; unfold cw; change (32 * 0)%N with 0%N; now rewrite shiftr0). change (w32 (N.shiftr L 32)) with (cw L 1). rewrite (CW0 L). clearbody L. clear EL. set (r := s_nx d) in *. set (x := s_x d) in *.
    assert (T : forall A B, length A = 54 -> length B = 10 -> upd (upd (copy_at (copy_at (A ++ B) 54 (le_bytes 4 (cw L 0))) 58 (le_bytes 4 (cw L 1))) 62 (w8 (N.of_nat (s_hs d) * 8))) 63 (w8 (N.shiftr (N.of_nat (s_hs d)) 5)) = A ++ le_bytes 8 L ++ le_bytes 2 (8 * N.of_nat (s_hs d))).
    { intros A B LA LB. rewrite tail256 by (assumption || apply le_bytes_length). rewrite hs_bytes, le8_split, <- (CW0 L), <- app_assoc. reflexivity. }
    destruct (Nat.eqb_spec r 0) as [R0|R0]; [|destruct (Nat.ltb_spec r 54) as [R1|R1]].
    + rewrite R0. change (0 <? 54) with true. cbv iota. change 1 with (0 + 1). rewrite zero_ok by lia. rewrite T by (rewrite ?app_length, ?skipn_length; cbn [length firstn]; rewrite ?zeros_length; lia). reflexivity.
    + rewrite zero_ok by lia. rewrite T by (rewrite ?app_length, ?skipn_length, ?firstn_length; cbn [length]; rewrite ?zeros_length; lia). reflexivity.
    + rewrite zero_ok by lia. rewrite (skipn_all2 x) by lia. rewrite app_nil_r. set (b1 := firstn r x ++ 128%N :: zeros (64 - 1 - r)). assert (Lb : length b1 = 64) by (unfold b1; rewrite app_length, firstn_length; cbn [length]; rewrite zeros_length; lia). clearbody b1.
      unfold sv_zero. rewrite zero_range by lia. change (firstn 0 b1) with (@nil N). cbn [app]. change (0 + (54 - 0)) with 54. change (54 - 0) with 54. rewrite T by (rewrite ?skipn_length, ?zeros_length; lia). reflexivity.
  - unfold sv_checkSum, sv512_checkSum, final. cbn [sv_BlockSize svP sv_lenbytes sv512]. cbv zeta. change (128 - 2 - 16) with 110.
    assert (EL : add64 (shl64 (s_len d / 128) 10) (N.of_nat (s_nx d) * 8) = L). { rewrite shl64_small by (change (2 ^ 10)%N with 1024%N; lia). unfold add64. change (2 ^ 10)%N with 1024%N. rewrite w64_small; unfold L; lia. }
    assert (HL : (L < 2 ^ 64)%N) by (change (2 ^ 64)%N with 18446744073709551616%N; unfold L; lia).
    assert (Ebc : w32 (N.shiftr (s_len d / 128) 54) = 0%N). { rewrite N.shiftr_div_pow2, N.div_small; [reflexivity|]. change (2 ^ 54)%N with 18014398509481984%N. lia. }
    rewrite EL, Ebc. assert (CW0 : forall c, w32 c = cw c 0) by (intro c; unfold cw; change (32 * 0)%N with 0%N; now rewrite shiftr0). change (w32 (N.shiftr L 32)) with (cw L 1). rewrite (CW0 L). pose proof (cw_small L 2 HL ltac:(lia)) as CW2. clearbody L. clear EL. set (r := s_nx d) in *. set (x := s_x d) in *.
    assert (T : forall A B, length A = 110 -> length B = 18 -> upd (upd (upd (upd (upd (upd (copy_at (copy_at (copy_at (A ++ B) 110 (le_bytes 4 (cw L 0))) 114 (le_bytes 4 (cw L 1))) 118 (le_bytes 4 0)) 122 0%N) 123 0%N) 124 0%N) 125 0%N) 126 (w8 (N.of_nat (s_hs d) * 8))) 127 (w8 (N.shiftr (N.of_nat (s_hs d)) 5)) = A ++ le_bytes 16 L ++ le_bytes 2 (8 * N.of_nat (s_hs d))).
    { intros A B LA LB. rewrite tail512 by (assumption || apply le_bytes_length). rewrite hs_bytes, (le16_split L HL), <- (CW0 L), <- !app_assoc. reflexivity. }
    unfold proc. rewrite CW2.
    destruct (Nat.eqb_spec r 0) as [R0|R0]; [|destruct (Nat.ltb_spec r 110) as [R1|R1]].
    + rewrite R0. change (0 <? 110) with true. cbv iota. change 1 with (0 + 1). rewrite zero_ok by lia. rewrite T by (rewrite ?app_length, ?skipn_length; cbn [length firstn]; rewrite ?zeros_length; lia). reflexivity.
    + rewrite zero_ok by lia. rewrite T by (rewrite ?app_length, ?skipn_length, ?firstn_length; cbn [length]; rewrite ?zeros_length; lia). rewrite CW2. reflexivity.
    + rewrite zero_ok by lia. rewrite (skipn_all2 x) by lia. rewrite app_nil_r. set (b1 := firstn r x ++ 128%N :: zeros (128 - 1 - r)). assert (Lb : length b1 = 128) by (unfold b1; rewrite app_length, firstn_length; cbn [length]; rewrite zeros_length; lia). clearbody b1.
      unfold sv_zero. rewrite zero_range by lia. change (firstn 0 b1) with (@nil N). cbn [app]. change (0 + (110 - 0)) with 110. change (110 - 0) with 110. rewrite T by (rewrite ?skipn_length, ?zeros_length; lia). reflexivity.
Qed.
Lemma bs_nz : forall v, sv_BlockSize v <> 0. Proof. intros []; discriminate. Qed.
Theorem sv_checkSum_mis : forall v hs iv d m e offs, sv_ivs v hs iv -> (N.of_nat (length m) < 2 ^ 50)%N -> sv_rel v hs iv d m e offs ->
  sv_checkSum v d = shavite_mis (svP v) hs offs (N.of_nat ((length m mod sv_BlockSize v + e) / sv_BlockSize v)) m.
Proof.
  intros v hs iv d m e offs Hiv HT (Hm & Hst & Lo & Ech & Hbuf & Elen & He & Ehs & Eiv). pose proof (sv_bs_pos v) as Hbs. destruct (sv_ivs_ok v hs iv Hiv) as (EI & _ & _).
  destruct Hbuf as (Lx & En & Ex). pose proof (rest_length N (sv_BlockSize v) m (bs_nz v)) as HR. rewrite HR in En. set (bs := sv_BlockSize v) in *.
  assert (Hr0 : length m mod bs < bs) by (apply Nat.mod_upper_bound; lia). assert (Dm : length m = bs * (length m / bs) + length m mod bs) by (apply Nat.div_mod; lia). set (r := length m mod bs) in *. set (n := length m / bs) in *.
  assert (Hlen : (s_len d < 2 ^ 59)%N). { rewrite Elen. change (2 ^ 50)%N with 1125899906842624%N in HT. change (2 ^ 59)%N with 576460752303423488%N. assert (bs * length m <= 128 * length m) by (apply Nat.mul_le_mono_r; lia). lia. }
  rewrite checkSum_final; fold bs; [|lia|exact Lx|exact Hlen].
  set (fo := (r + e) / bs). assert (EL : (8 * (N.of_nat bs * (s_len d / N.of_nat bs) + N.of_nat (s_nx d)))%N = (8 * (N.of_nat (length m) + N.of_nat bs * N.of_nat fo))%N).
  { rewrite Elen, <- Nat2N.inj_div. replace ((length m + e) / bs) with (n + fo). { rewrite En. lia. } unfold fo. replace (length m + e) with (r + e + n * bs) by lia. rewrite Nat.div_add by lia. lia. }
  rewrite EL, En, Ehs. set (L := (8 * (N.of_nat (length m) + N.of_nat bs * N.of_nat fo))%N).
  assert (HL : (L < 2 ^ 64)%N). { unfold L. rewrite <- EL. change (2 ^ 59)%N with 576460752303423488%N in Hlen. change (2 ^ 64)%N with 18446744073709551616%N. pose proof (N.mul_div_le (s_len d) (N.of_nat bs) ltac:(lia)). lia. }
  unfold shavite_mis. rewrite svP_bs. fold bs L. rewrite EI.
  assert (Hhs : hs mod 4 = 0 /\ hs <= 4 * (bs / 8)). { clear - Hiv. unfold bs. destruct v, Hiv as [H|[H|[]]]; injection H as <- _; (split; [reflexivity|cbn; lia]). }
  (* the padded message *)
  set (tail := le_bytes (sv_lenbytes (svP v)) L ++ le_bytes 2 (8 * N.of_nat hs)). set (b0 := bs - 2 - sv_lenbytes (svP v)).
  assert (Hb0 : 0 < b0 < bs /\ sv_lenbytes (svP v) + 2 = bs - b0) by (unfold b0, bs; destruct v; cbn; lia).
  assert (Lt : length tail = bs - b0) by (unfold tail; rewrite app_length, !le_bytes_length; lia).
  assert (Htb : isbytes tail) by (unfold tail; apply isbytes_app; split; apply le_bytes_isbytes).
  set (blocks := if r <? b0 then [(rest bs m ++ 0x80%N :: zeros (b0 - 1 - r)) ++ tail] else [rest bs m ++ 0x80%N :: zeros (bs - 1 - r); zeros b0 ++ tail]).
  assert (EP : chunks bs (sv_pad (svP v) hs L m) = chunks bs m ++ blocks).
  { unfold sv_pad. rewrite svP_bs. fold bs r. cbv zeta. rewrite chunks_app by lia. f_equal. fold tail. replace (2 * bs - 1 - (sv_lenbytes (svP v) + 2) - r) with (bs + b0 - 1 - r) by lia. unfold blocks. destruct (Nat.ltb_spec r b0) as [G|G].
    - replace (bs + b0 - 1 - r) with (b0 - 1 - r + 1 * bs) by lia. rewrite Nat.mod_add, Nat.mod_small by lia.
      assert (ES : rest bs m ++ 128%N :: zeros (b0 - 1 - r) ++ tail = (rest bs m ++ 128%N :: zeros (b0 - 1 - r)) ++ tail) by (rewrite <- app_assoc; reflexivity). rewrite ES. apply chunks_one; [lia|]. rewrite !app_length, HR, Lt. cbn [length]. rewrite zeros_length. lia.
    - rewrite Nat.mod_small by lia. replace (bs + b0 - 1 - r) with (bs - 1 - r + b0) by lia. rewrite <- zeros_app.
      assert (ES : rest bs m ++ 128%N :: (zeros (bs - 1 - r) ++ zeros b0) ++ tail = (rest bs m ++ 128%N :: zeros (bs - 1 - r)) ++ (zeros b0 ++ tail)) by (rewrite <- ?app_assoc; cbn [app]; rewrite <- ?app_assoc; reflexivity). rewrite ES.
      set (c1 := rest bs m ++ 128%N :: zeros (bs - 1 - r)). assert (L1 : length c1 = bs) by (unfold c1; rewrite app_length, HR; cbn [length]; rewrite zeros_length; lia). set (c2 := zeros b0 ++ tail). assert (L2 : length c2 = bs) by (unfold c2; rewrite app_length, zeros_length; lia). clearbody c1 c2.
      rewrite chunks_app by lia. rewrite (chunks_one N bs c1), (rest_one N bs c1) by (lia || assumption). cbn [app]. rewrite (chunks_one N bs c2) by (lia || assumption). reflexivity. }
  rewrite EP. rewrite app_length, chunks_length. fold n. rewrite seq_app, map_app. cbn [Nat.add]. rewrite chain_app by (rewrite chunks_length, map_length, seq_length; reflexivity).
  assert (EC : map (sv_mis_counter (svP v) offs (N.of_nat fo) (length m)) (seq 0 n) = map (bctr bs offs) (seq 0 n)).
  { apply map_ext_in. intros i Hi. apply in_seq in Hi. unfold sv_mis_counter. rewrite svP_bs. fold bs n. replace (i <? n) with true by (symmetry; apply Nat.ltb_lt; lia). reflexivity. }
  rewrite EC, <- Ech. clear EC EP.
  assert (CN : sv_mis_counter (svP v) offs (N.of_nat fo) (length m) n = if r =? 0 then 0%N else L).
  { unfold sv_mis_counter. rewrite svP_bs. fold bs n. rewrite Nat.ltb_irrefl. destruct (Nat.eqb_spec r 0) as [G|G]; [replace (bs * n <? length m) with false by (symmetry; apply Nat.ltb_ge; lia); reflexivity|replace (bs * n <? length m) with true by (symmetry; apply Nat.ltb_lt; lia); reflexivity]. }
  assert (CS : sv_mis_counter (svP v) offs (N.of_nat fo) (length m) (S n) = 0%N).
  { unfold sv_mis_counter. rewrite svP_bs. fold bs n. replace (S n <? n) with false by (symmetry; apply Nat.ltb_ge; lia). replace (bs * S n <? length m) with false by (symmetry; apply Nat.ltb_ge; lia). reflexivity. }
  assert (Hrb : isbytes (rest bs m)) by (unfold rest; now apply isbytes_skipn).
  assert (Hpb : forall k, isbytes (rest bs m ++ 128%N :: zeros k)) by (intro k; apply isbytes_app; split; [exact Hrb|constructor; [reflexivity|apply zeros_isbytes]]).
  assert (EFX : firstn r (s_x d) = rest bs m) by (rewrite <- En; exact Ex).
  assert (FIN : fst (final v (s_st d) (s_x d) r hs L) = sv_chain (svP v) (fst (s_st d)) blocks (map (sv_mis_counter (svP v) offs (N.of_nat fo) (length m)) (seq n (length blocks))) /\ st_ok v (final v (s_st d) (s_x d) r hs L)).
  { unfold final. fold bs. cbv zeta. fold b0 tail. rewrite EFX. unfold blocks. destruct (Nat.ltb_spec r b0) as [G|G].
    - cbn [length seq map]. rewrite CN, chain_one. apply proc_ok; auto; [destruct (r =? 0); [reflexivity|exact HL]| |].
      + rewrite !app_length, HR, Lt. cbn [length]. rewrite zeros_length. fold bs. lia.
      + apply isbytes_app. split; [apply Hpb|exact Htb].
    - cbn [length seq map]. rewrite CN, CS. replace (r =? 0) with false by (symmetry; apply Nat.eqb_neq; lia).
      destruct (proc_ok v (s_st d) (rest bs m ++ 128%N :: zeros (bs - 1 - r)) L HL Hst) as [E1 S1]; [rewrite app_length, HR; cbn [length]; rewrite zeros_length; fold bs; lia|apply Hpb|].
      destruct (proc_ok v _ (zeros b0 ++ tail) 0%N eq_refl S1) as [E2 S2]; [rewrite app_length, zeros_length, Lt; fold bs; lia|apply isbytes_app; split; [apply zeros_isbytes|exact Htb]|].
      split; [|exact S2]. rewrite E2, E1. reflexivity. }
  destruct FIN as [F1 F2]. rewrite <- F1. rewrite out_ok; [reflexivity|apply Hhs|]. destruct F2 as (F2 & _). fold bs in F2. rewrite F2. apply Hhs.
Qed.

(** ** Histories *)
(** What a client observes, without reference to the code: bytes written [m], surplus [e] of the length counter,
    per-block counter offsets [offs].  A Write that completes at least one block adds the number of bytes pending
    before it to the surplus; a block is counted too high by (pending + surplus) / BlockSize. *)
Fixpoint sv_expect (P : sv_params) (hs : nat) (m : list N) (e : nat) (offs : list N) (ops : list op) : list obs :=
  let bs := sv_bs P in let r := length m mod bs in let o := N.of_nat ((r + e) / bs) in
  match ops with
  | [] => []
  | Write p :: t => Wrote (length p) ::
      sv_expect P hs (m ++ p) (if r + length p <? bs then e else e + r) (offs ++ repeat o ((r + length p) / bs)) t
  | Sum i :: t => Summed (i ++ shavite_mis P hs offs o m) :: sv_expect P hs m e offs t
  | Reset :: t => sv_expect P hs [] 0 [] t
  end.
Lemma sv_rel_new : forall v hs iv d, sv_ivs v hs iv -> s_hs d = hs -> s_init d = iv -> sv_rel v hs iv (sv_reset v d) [] 0 [].
Proof.
  intros v hs iv d Hiv Eh Ei. destruct (sv_ivs_ok v hs iv Hiv) as (_ & Li & Ii). pose proof (sv_bs_pos v). unfold sv_rel, sv_reset. cbn [s_st s_x s_nx s_len s_hs s_init]. rewrite Ei.
  split; [constructor|]. split; [unfold st_ok; cbn [fst snd]; split; [exact Li|split; [exact Ii|apply zeros_length]]|]. cbn [length]. rewrite Nat.div_0_l by lia.
  split; [reflexivity|]. split; [rewrite chunks_short by (cbn [length]; lia); reflexivity|]. split; [apply buf_ok_nil; [lia|apply zeros_length]|]. split; [reflexivity|]. split; [lia|]. split; [exact Eh|reflexivity].
Qed.
Theorem C53_shavite_histories_exact : forall v hs iv, sv_ivs v hs iv -> forall ops, Forall op_bytes ops -> (ops_total ops < 2 ^ 50)%N ->
  run (sv_impl v) (sv_new v hs iv) ops = sv_expect (svP v) hs [] 0 [] ops.
Proof.
  intros v hs iv Hiv. assert (G : forall ops d m e offs, Forall op_bytes ops -> (N.of_nat (length m) + ops_total ops < 2 ^ 50)%N -> sv_rel v hs iv d m e offs ->
    run (sv_impl v) d ops = sv_expect (svP v) hs m e offs ops).
  { induction ops as [|o ops IH]; intros d m e offs Ho HT HR; [reflexivity|]. inversion Ho as [|? ? Ho1 Ho2]; subst. cbn [ops_total] in HT. destruct o as [p|i|]; cbn [run sv_expect sv_impl i_write i_sum i_reset].
    - destruct (sv_write_rel v hs iv d m e offs p Ho1 ltac:(rewrite app_length; lia) HR) as [E1 E2]. destruct (sv_write v d p) as [d' n]. cbn [fst snd] in *. subst n. f_equal. rewrite svP_bs. apply IH; auto. rewrite app_length. lia.
    - unfold sv_sum. rewrite (sv_checkSum_mis v hs iv d m e offs Hiv ltac:(lia) HR). rewrite svP_bs. f_equal. apply IH; auto.
    - apply IH; auto; [cbn [length]; lia|]. destruct HR as (_ & _ & _ & _ & _ & _ & _ & Eh & Ei). now apply sv_rel_new. }
  intros ops Ho HT. apply G; auto. now apply sv_rel_new.
Qed.

(** ** When the counters are right *)
Lemma mis_zero : forall P hs offs m, 0 < sv_bs P -> Forall (eq 0%N) offs -> shavite_mis P hs offs 0 m = shavite_hash P hs m.
Proof.
  intros P hs offs m Hb Hz. unfold shavite_mis, shavite_hash. rewrite N.mul_0_r, N.add_0_r. set (bl := chunks (sv_bs P) _). do 3 f_equal. apply map_ext. intro i. unfold sv_mis_counter, sv_counter. rewrite N.mul_0_r, N.add_0_r.
  assert (E : nth i offs 0%N = 0%N). { clear - Hz. revert i. induction Hz; intros [|i]; cbn [nth]; auto. }
  rewrite E. assert (D : length m = sv_bs P * (length m / sv_bs P) + length m mod sv_bs P) by (apply Nat.div_mod; lia). pose proof (Nat.mod_upper_bound (length m) (sv_bs P) ltac:(lia)) as Hr. set (n := length m / sv_bs P) in *. set (r := length m mod sv_bs P) in *. clearbody n r.
  destruct (Nat.ltb_spec i n) as [G|G].
  - replace (sv_bs P * i <? length m) with true by (symmetry; apply Nat.ltb_lt; nia). rewrite Nat.min_r by nia. rewrite Nat2N.inj_mul, Nat2N.inj_add. lia.
  - destruct (Nat.ltb_spec (sv_bs P * i) (length m)); [|reflexivity]. rewrite Nat.min_l by nia. reflexivity.
Qed.
(** The pending-byte count and the surplus stay below one block whenever a block is completed or Sum is called
    (only the lengths of the Writes matter). *)
Fixpoint in_step (bs r e : nat) (ops : list op) : Prop :=
  match ops with
  | [] => True
  | Write p :: t => if r + length p <? bs then in_step bs (r + length p) e t else r + e < bs /\ in_step bs ((r + length p) mod bs) (e + r) t
  | Sum _ :: t => r + e < bs /\ in_step bs r e t
  | Reset :: t => in_step bs 0 0 t
  end.
Lemma expect_in_step : forall P hs, 0 < sv_bs P -> forall ops m e offs, Forall (eq 0%N) offs -> in_step (sv_bs P) (length m mod sv_bs P) e ops ->
  sv_expect P hs m e offs ops = ideal_run (shavite_hash P hs) m ops.
Proof.
  intros P hs Hb. induction ops as [|o ops IH]; intros m e offs Hz Hs; [reflexivity|]. destruct o as [p|i|]; cbn [sv_expect ideal_run in_step] in *.
  - f_equal. pose proof (Nat.mod_upper_bound (length m) (sv_bs P) ltac:(lia)) as Hr. assert (EM : length (m ++ p) mod sv_bs P = (length m mod sv_bs P + length p) mod sv_bs P) by (rewrite app_length; now rewrite Nat.add_mod_idemp_l by lia).
    destruct (Nat.ltb_spec (length m mod sv_bs P + length p) (sv_bs P)) as [G|G].
    + rewrite (Nat.div_small (length m mod sv_bs P + length p)) by exact G. cbn [repeat]. rewrite app_nil_r. apply IH; auto. rewrite EM, Nat.mod_small by exact G. exact Hs.
    + destruct Hs as [Hs1 Hs2]. rewrite (Nat.div_small (length m mod sv_bs P + e)) by exact Hs1. apply IH; [|rewrite EM; exact Hs2]. apply Forall_app. split; [exact Hz|]. generalize ((length m mod sv_bs P + length p) / sv_bs P). clear. induction n; cbn [repeat]; constructor; auto.
  - destruct Hs as [Hs1 Hs2]. rewrite Nat.div_small by exact Hs1. rewrite mis_zero by auto. f_equal. now apply IH.
  - apply IH; [constructor|]. cbn [length]. rewrite Nat.mod_0_l by lia. exact Hs.
Qed.
Theorem C53_shavite_in_step : forall v hs iv, sv_ivs v hs iv -> forall ops, Forall op_bytes ops -> (ops_total ops < 2 ^ 50)%N -> in_step (sv_BlockSize v) 0 0 ops ->
  run (sv_impl v) (sv_new v hs iv) ops = ideal_run (shavite_hash (svP v) hs) [] ops.
Proof.
  intros v hs iv Hiv ops Ho HT Hs. pose proof (sv_bs_pos v) as Hb. rewrite (C53_shavite_histories_exact v hs iv Hiv ops Ho HT). apply expect_in_step; rewrite ?svP_bs; [lia|constructor|]. cbn [length]. rewrite Nat.mod_0_l by lia. exact Hs.
Qed.
(** In particular: whole-block Writes followed by one Write of any length. *)
Theorem C53_shavite_aligned_writes : forall v hs iv, sv_ivs v hs iv -> forall ps last i, Forall isbytes ps -> isbytes last -> Forall (fun p => length p mod sv_BlockSize v = 0) ps ->
  (N.of_nat (length (concat ps ++ last)) < 2 ^ 50)%N ->
  run (sv_impl v) (sv_new v hs iv) (map Write ps ++ [Write last; Sum i]) = map (fun p => Wrote (length p)) (ps ++ [last]) ++ [Summed (i ++ shavite_hash (svP v) hs (concat ps ++ last))].
Proof.
  intros v hs iv Hiv ps last i Hps Hl Ha HT. pose proof (sv_bs_pos v) as Hb. rewrite (C53_shavite_in_step v hs iv Hiv).
  - assert (G : forall m, ideal_run (shavite_hash (svP v) hs) m (map Write ps ++ [Write last; Sum i]) = map (fun p => Wrote (length p)) (ps ++ [last]) ++ [Summed (i ++ shavite_hash (svP v) hs (m ++ concat ps ++ last))]).
    { clear. induction ps as [|p ps IH]; intro m; cbn [map app concat ideal_run]; [reflexivity|]. rewrite IH. rewrite <- !app_assoc. reflexivity. }
    apply (G []).
  - apply Forall_app. split; [apply Forall_map; exact Hps|]. repeat constructor. exact Hl.
  - assert (E : ops_total (map Write ps ++ [Write last; Sum i]) = N.of_nat (length (concat ps ++ last))). { clear. induction ps as [|p ps IH]; cbn [map app concat ops_total]; [lia|]. rewrite IH, !app_length. lia. } rewrite E. exact HT.
  - clear - Ha Hb. induction Ha as [|p ps Hp Ha IH]; cbn [map app in_step].
    + destruct (Nat.ltb_spec (0 + length last) (sv_BlockSize v)); cbn [in_step]; [lia|]. pose proof (Nat.mod_upper_bound (0 + length last) (sv_BlockSize v) ltac:(lia)). lia.
    + destruct (Nat.ltb_spec (0 + length p) (sv_BlockSize v)) as [G|G]; cbn [Nat.add] in *; [rewrite Nat.mod_small in Hp by lia; rewrite Hp; exact IH|]. rewrite Hp. split; [lia|exact IH].
Qed.
(** The one-shot functions Sum224, Sum256, Sum384, Sum512 compute SHAvite-3. *)
Theorem C53_shavite_Sum : forall v hs iv, sv_ivs v hs iv -> forall m, isbytes m -> (N.of_nat (length m) < 2 ^ 50)%N -> sv_Sum v hs iv m = shavite_hash (svP v) hs m.
Proof.
  intros v hs iv Hiv m Hm HT. pose proof (C53_shavite_aligned_writes v hs iv Hiv [] m [] (Forall_nil _) Hm (Forall_nil _) HT) as H. cbn [map app run sv_impl i_write i_sum concat] in H.
  unfold sv_Sum. destruct (sv_write v (sv_new v hs iv) m) as [d n]. cbn [fst]. unfold sv_sum in H. cbn [app] in H. now injection H as _ H.
Qed.
(** ** The property is false in general: the same 128 bytes written as 63+1+63+1 and at once. *)
Transparent sv256_process sv512_process sv_AES0 sv_AES1 sv_AES2 sv_AES3 sv_t sv256_expand sv512_expand sv256_round sv512_round.
Definition bad256 : list op := [Write (zeros 63); Write (zeros 1); Write (zeros 63); Write (zeros 1); Sum []].
Theorem C53_shavite_split_refuted :
  nth 4 (run (sv_impl V256) (sv_new V256 32 sv_initVal256) bad256) (Wrote 0) <> nth 1 (run (sv_impl V256) (sv_new V256 32 sv_initVal256) [Write (zeros 128); Sum []]) (Wrote 0).
Proof. vm_compute. discriminate. Qed.
Definition bad512 : list op := [Write (zeros 127); Write (zeros 1); Write (zeros 127); Write (zeros 1); Sum []].
Theorem C53_shavite512_split_refuted :
  nth 4 (run (sv_impl V512) (sv_new V512 64 sv_initVal512) bad512) (Wrote 0) <> nth 1 (run (sv_impl V512) (sv_new V512 64 sv_initVal512) [Write (zeros 256); Sum []]) (Wrote 0).
Proof. vm_compute. discriminate. Qed.
(** Non-vacuity of in_step: a genuinely split message. *)
Example in_step_ok : in_step 64 0 0 [Write (zeros 10); Write (zeros 54); Write (zeros 20); Sum []; Write (zeros 44); Write (zeros 3); Sum []].
Proof. cbn. lia. Qed.
