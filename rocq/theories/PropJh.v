(** PropJh.v -- packages jh and jh2 against the JH specification (C51, C81). *)
From Coq Require Import List NArith Arith Lia Bool.
From Verif Require Import Base Words HashAPI Buf MD Refine Ascon SpecJh Jh Jh2 JhP JhP2 JhP3.
Import ListNotations.
Opaque jh2_block jh_f8 jh_F8 jh_C jh_rc jh2_C.

(** ** Iterated compression *)
Lemma fold_blocks : forall (F : list bool -> list bool -> list bool) (f : list N -> list N -> list N) (st : list N -> list bool) (W : list N -> Prop),
  (forall x b, W x -> blk_ok 64 b -> F (st x) (bits_of_bytes b) = st (f x b) /\ W (f x b)) ->
  forall bl x, W x -> Forall (blk_ok 64) bl -> fold_left F (map bits_of_bytes bl) (st x) = st (fold_left f bl x) /\ W (fold_left f bl x).
Proof.
  intros F f st W H. induction bl as [|b bl IH]; intros x Hx Hb; [now split|]. inversion Hb as [|? ? Hb1 Hl]; subst. cbn [map fold_left]. destruct (H x b Hx Hb1) as [A B]. rewrite A. now apply IH.
Qed.
Lemma jh2_blocks : forall bl x, length x = 16 -> Forall (blk_ok 64) bl ->
  fold_left jh_F8 (map bits_of_bytes bl) (state_of posBE x) = state_of posBE (fold_left jh2_block bl x) /\ length (fold_left jh2_block bl x) = 16.
Proof.
  apply (fold_blocks jh_F8 jh2_block (state_of posBE) (fun x => length x = 16)). intros x b L [Hb1 Hb2]. exact (jh2_f8_ok x b L Hb1 Hb2).
Qed.
Lemma jh_blocks : forall bl x, length x = 16 -> Forall hi0 x -> Forall (blk_ok 64) bl ->
  fold_left jh_F8 (map bits_of_bytes bl) (state_of posLE x) = state_of posLE (fold_left jh_f8 bl x) /\ length (fold_left jh_f8 bl x) = 16 /\ Forall hi0 (fold_left jh_f8 bl x).
Proof.
  intros bl x L H0 Hb. apply (fold_blocks jh_F8 jh_f8 (state_of posLE) (fun x => length x = 16 /\ Forall hi0 x)); [|now split|exact Hb]. intros y b [Ly Hy] [Hb1 Hb2]. exact (jh_f8_ok y b Ly Hy Hb1 Hb2).
Qed.
Lemma be_isbytes : forall k v, isbytes (be_bytes k v).
Proof. intros. apply be_bytes_isbytes. Qed.
Lemma concat_isbytes : forall (f : N -> list N) l, (forall v, isbytes (f v)) -> isbytes (concat (map f l)).
Proof. intros f l H. induction l as [|a l IH]; [constructor|]. cbn [map concat]. apply isbytes_app. split; auto. Qed.
Lemma out_be : forall h, length h = 16 -> bytes_of_bits (state_of posBE h) = concat (map (be_bytes 8) h).
Proof. intros h L. rewrite state_be by exact L. apply bytes_bits, concat_isbytes. intros; apply be_bytes_isbytes. Qed.
Lemma out_le : forall h, length h = 16 -> bytes_of_bits (state_of posLE h) = concat (map (le_bytes 8) h).
Proof. intros h L. rewrite state_le by exact L. apply bytes_bits, concat_isbytes. intros; apply le_bytes_isbytes. Qed.

(** ** jh2: padding *)
Definition pad_tail (n : nat) : list N := 0x80%N :: zeros (47 + (64 - n mod 64) mod 64) ++ be_bytes 16 (8 * N.of_nat n).
Lemma jh_pad_tail : forall m, jh_pad m = m ++ pad_tail (length m).
Proof. reflexivity. Qed.
Lemma tmp_len : forall n a b, n <= 110 -> length a = 8 -> length b = 8 ->
  length (copy_at (copy_at (copy_at (upd (zeros 128) 0 0x80%N) 1 (zeros n)) (n + 1) a) (n + 9) b) = 128.
Proof. intros n a b Hn La Lb. assert (Z : length (upd (zeros 128) 0 0x80%N) = 128) by reflexivity. rewrite !copy_at_length; rewrite ?copy_at_length; rewrite ?copy_at_length; rewrite ?Z; lia. Qed.
Lemma pad_tmp : forall n a b, n <= 110 -> length a = 8 -> length b = 8 ->
  firstn (n + 17) (copy_at (copy_at (copy_at (upd (zeros 128) 0 0x80%N) 1 (zeros n)) (n + 1) a) (n + 9) b) = 0x80%N :: zeros n ++ a ++ b.
Proof.
  intros n a b Hn La Lb. assert (Z : length (upd (zeros 128) 0 0x80%N) = 128) by reflexivity. set (t1 := upd (zeros 128) 0 0x80%N) in *. assert (F : firstn 1 t1 = [0x80%N]) by reflexivity. clearbody t1.
  set (t2 := copy_at t1 1 (zeros n)). assert (L2 : length t2 = 128) by (unfold t2; rewrite copy_at_length; lia).
  assert (F2 : firstn (1 + n) t2 = 0x80%N :: zeros n). { unfold t2. pose proof (copy_at_firstn _ t1 1 (zeros n)) as K. rewrite zeros_length in K. rewrite K by lia. now rewrite F. }
  clearbody t2. set (t3 := copy_at t2 (n + 1) a). assert (L3 : length t3 = 128) by (unfold t3; rewrite copy_at_length; lia).
  assert (F3 : firstn (n + 9) t3 = 0x80%N :: zeros n ++ a). { unfold t3. pose proof (copy_at_firstn _ t2 (n + 1) a) as K. rewrite La in K. replace (n + 9) with (n + 1 + 8) by lia. rewrite K by lia. rewrite (Nat.add_comm n 1), F2. reflexivity. }
  clearbody t3. pose proof (copy_at_firstn _ t3 (n + 9) b) as K. rewrite Lb in K. replace (n + 17) with (n + 9 + 8) by lia. rewrite K by lia. rewrite F3. cbn [app]. now rewrite <- app_assoc.
Qed.
Lemma len_hi : forall L : N, (L < 2 ^ 64)%N -> N.shiftr (L / 64) 55 = N.shiftr (8 * L) 64.
Proof.
  intros L H. rewrite !N.shiftr_div_pow2. rewrite N.div_div by (try discriminate; apply N.pow_nonzero; discriminate). change (64 * 2 ^ 55)%N with (2 ^ 61)%N. change (2 ^ 64)%N with (8 * 2 ^ 61)%N. rewrite N.div_mul_cancel_l; [reflexivity|discriminate|discriminate].
Qed.
Lemma len_lo : forall L : N, add64 (shl64 (L / 64) 9) (shl64 (L mod 64) 3) = w64 (8 * L).
Proof.
  intros L. assert (E : (8 * L = (L / 64) * 2 ^ 9 + (L mod 64) * 2 ^ 3)%N) by (change (2 ^ 9)%N with 512%N; change (2 ^ 3)%N with 8%N; pose proof (N.div_mod L 64 ltac:(discriminate)); lia).
  rewrite E. unfold add64, shl64. rewrite !N.shiftl_mul_pow2. rewrite w64_add_l, w64_add_r. reflexivity.
Qed.
Lemma be8_w64 : forall x, be_bytes 8 (w64 x) = be_bytes 8 x.
Proof. intros x. unfold be_bytes. rewrite <- (le_bytes_mod 8 x). change (256 ^ N.of_nat 8)%N with (2 ^ 64)%N. now rewrite w64_mod. Qed.
Lemma pad_be16 : forall L : N, (L < 2 ^ 64)%N -> be_bytes 16 (8 * L) = be_bytes 8 (N.shiftr (L / 64) 55) ++ be_bytes 8 (add64 (shl64 (L / 64) 9) (shl64 (L mod 64) 3)).
Proof. intros L H. rewrite len_hi, len_lo, be8_w64 by exact H. apply (be_bytes_app 8 8). Qed.
Lemma out_copy : forall (h tmp : list N) k, 8 * k <= length tmp ->
  fold_left (fun t i => copy_at t (8 * i) (be_bytes 8 (at_ h (i + 8)))) (seq 0 k) tmp = concat (map (be_bytes 8) (map (fun i => at_ h (i + 8)) (seq 0 k))) ++ skipn (8 * k) tmp.
Proof.
  induction k as [|k IH]; intros H; [reflexivity|]. rewrite seq_S, fold_left_app. cbn [fold_left Nat.add]. rewrite IH by lia. rewrite !map_app, concat_app. cbn [map concat]. rewrite app_nil_r.
  set (A := concat (map (be_bytes 8) (map (fun i => at_ h (i + 8)) (seq 0 k)))). assert (LA : length A = 8 * k) by (unfold A; rewrite concat_be_length, map_length, seq_length; lia). set (B := be_bytes 8 (at_ h (k + 8))). assert (LB : length B = 8) by apply be_bytes_length. clearbody A B.
  unfold copy_at. rewrite app_length, skipn_length, LA, LB. rewrite (firstn_all2 B) by lia. rewrite firstn_app, LA, Nat.sub_diag, firstn_O, app_nil_r, (firstn_all2 A) by lia. rewrite <- app_assoc. f_equal. f_equal.
  replace (Nat.min 8 (8 * k + (length tmp - 8 * k) - 8 * k)) with 8 by lia. rewrite skipn_app, LA. rewrite skipn_all2 by lia. cbn [app]. rewrite skipn_skipn. f_equal. lia.
Qed.
Lemma tail_map : forall h : list N, length h = 16 -> map (fun i => at_ h (i + 8)) (seq 0 8) = skipn 8 h.
Proof. intros h L. des16 h L. reflexivity. Qed.
Lemma final_out : forall (h tmp : list N) hs, length h = 16 -> 64 <= length tmp -> hs <= 64 ->
  firstn hs (skipn (64 - hs) (fold_left (fun t i => copy_at t (8 * i) (be_bytes 8 (at_ h (i + 8)))) (seq 0 8) tmp)) = skipn (128 - hs) (concat (map (be_bytes 8) h)).
Proof.
  intros h tmp hs L Lt Hh. rewrite out_copy by lia. rewrite tail_map by exact L. set (A := concat (map (be_bytes 8) (skipn 8 h))). assert (LA : length A = 64) by (unfold A; rewrite concat_be_length, skipn_length; lia).
  assert (E : skipn 64 (concat (map (be_bytes 8) h)) = A). { rewrite <- (firstn_skipn 8 h) at 1. rewrite map_app, concat_app, skipn_app. rewrite skipn_all2 by (rewrite concat_be_length, firstn_length; lia). rewrite concat_be_length, firstn_length, L. reflexivity. }
  assert (E2 : skipn (128 - hs) (concat (map (be_bytes 8) h)) = skipn (64 - hs) A) by (rewrite <- E, skipn_skipn; f_equal; lia). rewrite E2. rewrite skipn_app, LA. replace (64 - hs - 64) with 0 by lia. cbn [skipn]. rewrite firstn_app, skipn_length, LA. replace (hs - (64 - (64 - hs))) with 0 by lia. rewrite firstn_O, app_nil_r. apply firstn_all2. rewrite skipn_length. lia.
Qed.

(** ** jh2: digests *)
Definition jh2_params (hs : nat) (iv : list N) : Prop := In (hs, iv) [(28, jh2_initVal224); (32, jh2_initVal256); (48, jh2_initVal384); (64, jh2_initVal512)].
Transparent jh2_block jh2_C.
Lemma jh2_iv_block : forall hs iv, jh2_params hs iv -> length iv = 16 /\ hs <= 64 /\ jh2_block (be_val (be_bytes 2 (8 * N.of_nat hs) ++ zeros 6) :: zeros 15) (zeros 64) = iv.
Proof. intros hs iv H. unfold jh2_params in H. destruct H as [H|[H|[H|[H|[]]]]]; injection H as <- <-; (split; [reflexivity|split; [lia|vm_compute; reflexivity]]). Qed.
Opaque jh2_block jh2_C.
Lemma zero_bits : repeat false 512 = bits_of_bytes (zeros 64).
Proof. reflexivity. Qed.
Lemma jh2_iv_ok : forall hs iv, jh2_params hs iv -> jh_iv hs = state_of posBE iv.
Proof.
  intros hs iv H. destruct (jh2_iv_block hs iv H) as (L & Hh & E).
  destruct (jh2_f8_ok (be_val (be_bytes 2 (8 * N.of_nat hs) ++ zeros 6) :: zeros 15) (zeros 64) eq_refl eq_refl ltac:(apply zeros_isbytes)) as [A B].
  rewrite E in A. unfold jh_iv. rewrite zero_bits. rewrite <- A. f_equal. rewrite state_be by reflexivity. f_equal. cbn [map].
  unfold jh2_params in H. destruct H as [H|[H|[H|[H|[]]]]]; injection H as <- <-; vm_compute; reflexivity.
Qed.
Definition jh2_rel (iv : list N) (d : dig (list N)) (m : list N) : Prop := isbytes m /\ dig_rel 64 jh2_block iv 1 d m.
Lemma jh2_write_rel : forall iv d m p, isbytes p -> jh2_rel iv d m -> jh2_rel iv (fst (jh2_write d p)) (m ++ p).
Proof. intros iv d m p Hp [Hm Hd]. split; [apply isbytes_app; now split|]. apply (write_pre_rel 64 jh2_block); [lia|exact Hd]. Qed.
Lemma pad_tail_bytes : forall n, isbytes (pad_tail n).
Proof. intros n. unfold pad_tail. constructor; [red; reflexivity|]. apply isbytes_app. split; [apply zeros_isbytes|apply be_bytes_isbytes]. Qed.
Lemma numz_eq : forall n, (if n mod 64 =? 0 then 47 else 111 - n mod 64) = 47 + (64 - n mod 64) mod 64 /\ 47 + (64 - n mod 64) mod 64 <= 110.
Proof.
  intros n. pose proof (Nat.mod_upper_bound n 64 ltac:(lia)) as H. set (r := n mod 64) in *. clearbody r. destruct (Nat.eqb_spec r 0) as [E|E]; [subst r; split; [reflexivity|vm_compute; lia]|]. rewrite (Nat.mod_small (64 - r) 64) by lia. lia.
Qed.
Theorem jh2_checkSum_ok : forall hs iv d m, jh2_params hs iv -> (N.of_nat (length m) < 2 ^ 64)%N -> jh2_rel iv d m -> jh2_checkSum hs d = jh_hash hs m.
Proof.
  intros hs iv d m HP HL [Hm Hd]. destruct (jh2_iv_block hs iv HP) as (Liv & Hh & _). pose proof (dig_nx 64 jh2_block ltac:(lia) iv 1 d m Hd) as Enx. assert (El : dlen d = N.of_nat (length m)) by (destruct Hd as (_ & _ & E); rewrite E, N.mul_1_l; now apply w64_small).
  unfold jh2_checkSum. cbv zeta. rewrite El, Enx. destruct (numz_eq (length m)) as [N1 N2].
  assert (Em : N.of_nat (length m mod 64) = (N.of_nat (length m) mod 64)%N) by (rewrite Nat2N.inj_mod; reflexivity). rewrite Em, N1. set (nz := 47 + (64 - length m mod 64) mod 64) in *.
  set (a := be_bytes 8 (N.shiftr (N.of_nat (length m) / 64) 55)). set (b := be_bytes 8 (add64 (shl64 (N.of_nat (length m) / 64) 9) (shl64 (N.of_nat (length m) mod 64) 3))).
  assert (La : length a = 8) by apply be_bytes_length. assert (Lb : length b = 8) by apply be_bytes_length.
  rewrite (pad_tmp nz a b N2 La Lb). pose proof (tmp_len nz a b N2 La Lb) as LT. set (tmp := copy_at _ (nz + 9) b) in *. clearbody tmp.
  assert (EP : 0x80%N :: zeros nz ++ a ++ b = pad_tail (length m)). { unfold pad_tail. fold nz. rewrite (pad_be16 (N.of_nat (length m)) HL). reflexivity. }
  rewrite EP. destruct (jh2_write_rel iv d m (pad_tail (length m)) (pad_tail_bytes _) (conj Hm Hd)) as [Hb (Es & _)]. rewrite Es. rewrite <- jh_pad_tail in *.
  destruct (jh2_blocks (chunks 64 (jh_pad m)) iv Liv (chunks_blk_ok 64 _ ltac:(lia) Hb)) as [A B]. unfold jh_hash. rewrite (jh2_iv_ok hs iv HP), A, out_be by exact B. apply final_out; [exact B|rewrite LT; lia|exact Hh].
Qed.
(** C81: every history of Write, Sum and Reset on New224, New256, New384 and New512 of package jh2. *)
Theorem C81_jh2_histories : forall hs iv, jh2_params hs iv -> forall ops, Forall op_bytes ops -> (ops_total ops < 2 ^ 64)%N ->
  run (jh2_impl hs iv) (jh2_new iv) ops = ideal_run (jh_hash hs) [] ops.
Proof.
  intros hs iv HP ops Hops HT. apply (run_refines_total _ (jh2_impl hs iv) (jh_hash hs) (jh2_rel iv) (2 ^ 64)%N); cbn [i_write i_sum i_reset jh2_impl].
  - intros d m p Hp _ HR. now apply jh2_write_rel.
  - intros d m p _ _ _. apply (write_pre_count 64 jh2_block).
  - intros d m i HR. exact HR.
  - intros d m i HL HR. unfold jh2_sum. cbn [snd]. f_equal. now apply (jh2_checkSum_ok hs iv).
  - intros d m _. split; [constructor|]. apply (dig_rel_new 64 jh2_block ltac:(lia)). reflexivity.
  - exact Hops.
  - cbn [length N.of_nat]. rewrite N.add_0_l. exact HT.
  - split; [constructor|]. apply (dig_rel_new 64 jh2_block ltac:(lia)). reflexivity.
Qed.
(** The one-shot functions Sum224 .. Sum512. *)
Theorem C81_jh2_Sum : forall hs iv, jh2_params hs iv -> forall m, isbytes m -> (N.of_nat (length m) < 2 ^ 64)%N -> jh2_Sum hs iv m = jh_hash hs m.
Proof.
  intros hs iv HP m Hm HL. unfold jh2_Sum. apply (jh2_checkSum_ok hs iv); auto. apply (jh2_write_rel iv (jh2_new iv) [] m Hm). split; [constructor|]. apply (dig_rel_new 64 jh2_block ltac:(lia)). reflexivity.
Qed.

(** ** jh *)
Definition jh_rel (d : jdig) (m : list N) : Prop :=
  isbytes m /\ j_x d = fold_left jh_f8 (chunks 64 m) jh_h0 /\ j_nx d = (8 * N.of_nat (length (rest 64 m)))%N /\ j_len d = w64 (8 * N.of_nat (length m)) /\
  buf_ok 64 64 (j_s d) (length (rest 64 m)) m.
Definition jh_tail (fuel : nat) (x s data : list N) (plen nx len : N) (n : nat) : option (jdig * nat) :=
  let '(x, s, p, plen) := jh_loop fuel x s data plen in
  if (0 <? plen)%N then Some (mkjdig (copy_at s 0 (firstn (N.to_nat (N.shiftr (N.land plen 0x1ff) 3)) p)) x plen len, n) else Some (mkjdig s x nx len, n).
Lemma bits_pos : forall k, N.to_nat (N.shiftr (8 * N.of_nat k) 3) = k.
Proof. intros k. rewrite N.shiftr_div_pow2, N.mul_comm. change (2 ^ 3)%N with 8%N. rewrite N.div_mul by discriminate. apply Nat2N.id. Qed.
Lemma bits_pos2 : forall k, k < 64 -> N.to_nat (N.shiftr (N.land (8 * N.of_nat k) 0x1ff) 3) = k.
Proof. intros k H. change 0x1ff%N with (N.ones 9). rewrite N.land_ones, N.mod_small by (change (2 ^ 9)%N with 512%N; lia). apply bits_pos. Qed.
Definition gloop (f : list N -> list N -> list N) := fix go (fuel : nat) (x s data : list N) (plen : N) {struct fuel} : list N * list N * list N * N :=
  match fuel with
  | O => (x, s, data, plen)
  | S fuel => if (512 <=? plen)%N then let s := copy_at s 0 (firstn 64 data) in go fuel (f x s) s (skipn 64 data) (plen - 512)%N else (x, s, data, plen)
  end.
Lemma jh_loop_gloop : jh_loop = gloop jh_f8.
Proof. unfold jh_loop, gloop. reflexivity. Qed.
Lemma gloop_ok : forall (f : list N -> list N -> list N) fuel x s data, length data < 64 * fuel -> length s = 64 ->
  exists s', gloop f fuel x s data (8 * N.of_nat (length data)) = (fold_left f (chunks 64 data) x, s', rest 64 data, (8 * N.of_nat (length (rest 64 data)))%N) /\ length s' = 64.
Proof.
  intros f. induction fuel as [|fuel IH]; intros x s data Hf Ls; [lia|]. cbn [gloop]. destruct (N.leb_spec 512 (8 * N.of_nat (length data))) as [G|G].
  - assert (L64 : 64 <= length data) by lia. assert (Lf : length (firstn 64 data) = 64) by (rewrite firstn_length; lia).
    assert (E : copy_at s 0 (firstn 64 data) = firstn 64 data) by (rewrite copy_at_full by lia; rewrite firstn_O, app_nil_l, Nat.sub_0_r, Ls; apply firstn_all2; lia).
    rewrite E. replace (8 * N.of_nat (length data) - 512)%N with (8 * N.of_nat (length (skipn 64 data)))%N by (rewrite skipn_length; lia).
    destruct (IH (f x (firstn 64 data)) (firstn 64 data) (skipn 64 data) ltac:(rewrite skipn_length; lia) Lf) as (s' & E1 & E2). exists s'. rewrite E1. split; [|exact E2].
    rewrite (chunks_cons N 64 data) by lia. rewrite (rest_cons N 64 data) by lia. reflexivity.
  - exists s. rewrite (chunks_short N 64 data) by lia. rewrite (rest_short N 64 data) by lia. now split.
Qed.
Lemma jh_loop_ok : forall fuel x s data, length data < 64 * fuel -> length s = 64 ->
  exists s', jh_loop fuel x s data (8 * N.of_nat (length data)) = (fold_left jh_f8 (chunks 64 data) x, s', rest 64 data, (8 * N.of_nat (length (rest 64 data)))%N) /\ length s' = 64.
Proof. rewrite jh_loop_gloop. apply (gloop_ok jh_f8). Qed.
Lemma jh_tail_ok : forall fuel x s m0 p len n, length p < 64 * fuel -> length s = 64 -> isbytes (m0 ++ p) -> rest 64 m0 = [] -> x = fold_left jh_f8 (chunks 64 m0) jh_h0 -> len = w64 (8 * N.of_nat (length (m0 ++ p))) ->
  exists d', jh_tail fuel x s p (8 * N.of_nat (length p)) 0 len n = Some (d', n) /\ jh_rel d' (m0 ++ p).
Proof.
  intros fuel x s m0 p len n Hf Ls Hb Hr Hx Hl. unfold jh_tail. destruct (jh_loop_ok fuel x s p Hf Ls) as (s' & E & Ls'). rewrite E. cbn beta iota.
  assert (ER : rest 64 (m0 ++ p) = rest 64 p) by (rewrite rest_app by lia; rewrite Hr; reflexivity).
  assert (EC : fold_left jh_f8 (chunks 64 p) x = fold_left jh_f8 (chunks 64 (m0 ++ p)) jh_h0) by (rewrite chunks_app by lia; rewrite Hr, fold_left_app, <- Hx; reflexivity).
  pose proof (rest_length_lt N 64 p ltac:(lia)) as HR. destruct (N.ltb_spec 0 (8 * N.of_nat (length (rest 64 p)))) as [G|G].
  - eexists. split; [reflexivity|]. rewrite bits_pos2 by exact HR. unfold jh_rel. cbn [j_x j_nx j_len j_s]. rewrite ER. split; [exact Hb|]. split; [exact EC|]. split; [reflexivity|]. split; [exact Hl|].
    unfold buf_ok. rewrite ER. rewrite (firstn_all2 (rest 64 p)) by lia. split; [rewrite copy_at_length; lia|]. split; [reflexivity|]. apply (copy_at_firstn _ s' 0); lia.
  - eexists. split; [reflexivity|]. assert (E0 : length (rest 64 p) = 0) by lia. apply length_zero_iff_nil in E0. unfold jh_rel. cbn [j_x j_nx j_len j_s]. rewrite ER, E0. split; [exact Hb|]. split; [exact EC|]. split; [reflexivity|]. split; [exact Hl|].
    unfold buf_ok. rewrite ER, E0. split; [exact Ls'|]. now split.
Qed.
(** When is Write's reslicing legal: there is no pending partial block, or the pending bytes and cap(p) reach 64. *)
Definition jh_fits (m p slack : list N) : bool := (length m mod 64 =? 0) || (64 <=? length m mod 64 + (length p + length slack)).
Theorem jh_write_exact : forall d m p slack, isbytes p -> (N.of_nat (length (m ++ p)) < 2 ^ 61)%N -> jh_rel d m ->
  if jh_fits m p slack then exists d', jh_write d p slack = Some (d', length p) /\ jh_rel d' (m ++ p) else jh_write d p slack = None.
Proof.
  intros d m p slack Hp HT (Hm & Ex & En & El & Hbuf). assert (HB : isbytes (m ++ p)) by (apply isbytes_app; now split). rewrite app_length in HT.
  change (2 ^ 61)%N with 2305843009213693952%N in HT. pose proof (rest_length_lt N 64 m ltac:(lia)) as HR. pose proof (rest_length N 64 m ltac:(lia)) as HRm. unfold jh_fits. rewrite <- HRm. set (r := length (rest 64 m)) in *.
  assert (Hrm : r <= length m) by (rewrite HRm; apply Nat.mod_le; lia).
  assert (EP : w64 (w64 (N.of_nat (length p)) * 8) = (8 * N.of_nat (length p))%N) by (rewrite (w64_small (N.of_nat (length p))) by (change (2 ^ 64)%N with 18446744073709551616%N; lia); rewrite w64_small by (change (2 ^ 64)%N with 18446744073709551616%N; lia); lia).
  assert (EN : w64 (8 * N.of_nat r + 8 * N.of_nat (length p)) = (8 * N.of_nat (r + length p))%N) by (rewrite w64_small by (change (2 ^ 64)%N with 18446744073709551616%N; lia); lia).
  assert (EL : w64 (w64 (8 * N.of_nat (length m)) + 8 * N.of_nat (length p)) = w64 (8 * N.of_nat (length (m ++ p)))) by (rewrite w64_add_l, app_length; f_equal; lia).
  destruct Hbuf as (Ls & _ & Efs). unfold jh_write. cbv zeta. rewrite EP, En, El, EN, EL, bits_pos.
  destruct (Nat.eqb_spec r 0) as [R0|R0].
  - cbn [orb]. rewrite R0. cbn [N.of_nat N.mul N.ltb N.compare andb].
    apply (jh_tail_ok (S (length p)) (j_x d) (j_s d) m p _ (length p)); auto; [lia|]. apply length_zero_iff_nil. exact R0.
  - cbn [orb]. assert (GN : (0 <? 8 * N.of_nat r)%N = true) by (apply N.ltb_lt; lia). rewrite GN. cbn [andb]. unfold reslice.
    replace (64 - r <=? length p + length slack) with (64 <=? r + (length p + length slack)) by (destruct (Nat.leb_spec 64 (r + (length p + length slack))), (Nat.leb_spec (64 - r) (length p + length slack)); lia || reflexivity).
    destruct (N.ltb_spec (8 * N.of_nat (r + length p)) 512) as [G|G].
    + destruct (Nat.leb_spec 64 (r + (length p + length slack))) as [F|F]; [|reflexivity]. eexists. split; [reflexivity|]. 
      assert (RP : rest 64 (m ++ p) = rest 64 m ++ p) by (rewrite rest_app by lia; apply rest_short; rewrite app_length; fold r; lia).
      assert (CP : chunks 64 (m ++ p) = chunks 64 m) by (rewrite chunks_app by lia; rewrite (chunks_short N 64 (rest 64 m ++ p)) by (lia || (rewrite app_length; fold r; lia)); apply app_nil_r).
      unfold jh_rel. cbn [j_x j_nx j_len j_s]. rewrite RP, CP, app_length. fold r. split; [exact HB|]. split; [exact Ex|]. split; [reflexivity|]. split; [reflexivity|].
      unfold buf_ok. rewrite RP, app_length. fold r. split; [rewrite copy_at_length; lia|]. split; [reflexivity|].
      assert (FS : firstn (64 - r) (p ++ slack) = p ++ firstn (64 - r - length p) slack) by (rewrite firstn_app, firstn_all2 by lia; reflexivity). rewrite FS.
      set (q := firstn (64 - r - length p) slack). assert (Lq : length q = 64 - r - length p) by (unfold q; rewrite firstn_length; lia).
      pose proof (copy_at_firstn _ (j_s d) r (p ++ q)) as K. rewrite app_length, Lq in K. specialize (K ltac:(lia) ltac:(lia)).
      assert (K2 : firstn (r + length p) (firstn (r + (length p + (64 - r - length p))) (copy_at (j_s d) r (p ++ q))) = rest 64 m ++ p).
      { rewrite K, Efs, app_assoc. rewrite firstn_app. rewrite app_length. fold r. rewrite Nat.sub_diag, firstn_O, app_nil_r. apply firstn_all2. rewrite app_length. fold r. lia. }
      rewrite firstn_firstn in K2. replace (Nat.min (r + length p) (r + (length p + (64 - r - length p)))) with (r + length p) in K2 by lia. exact K2.
    + replace (512 <=? 8 * N.of_nat (r + length p))%N with true by (symmetry; apply N.leb_le; lia). assert (F : 64 <= r + (length p + length slack)) by lia. destruct (Nat.leb_spec 64 (r + (length p + length slack))) as [F'|F']; [|lia].
      assert (FS : firstn (64 - r) (p ++ slack) = firstn (64 - r) p) by (rewrite firstn_app; replace (64 - r - length p) with 0 by lia; rewrite firstn_O; apply app_nil_r). rewrite FS.
      set (q := firstn (64 - r) p). assert (Lq : length q = 64 - r) by (unfold q; rewrite firstn_length; lia).
      assert (ES : copy_at (j_s d) r q = rest 64 m ++ q) by (rewrite copy_at_full by lia; rewrite Efs; f_equal; apply firstn_all2; lia). rewrite ES.
      assert (LS : length (rest 64 m ++ q) = 64) by (rewrite app_length; fold r; lia).
      replace (8 * N.of_nat (length p) - (512 - 8 * N.of_nat r))%N with (8 * N.of_nat (length (skipn (64 - r) p)))%N by (rewrite skipn_length; lia).
      assert (EM : m ++ p = (m ++ q) ++ skipn (64 - r) p) by (unfold q; rewrite <- app_assoc, firstn_skipn; reflexivity). rewrite EM in *.
      apply (jh_tail_ok (S (length p)) (jh_f8 (j_x d) (rest 64 m ++ q)) (rest 64 m ++ q) (m ++ q) (skipn (64 - r) p) _ (length p)); auto.
      * rewrite skipn_length. lia.
      * rewrite rest_app by lia. now rewrite (rest_one N 64 (rest 64 m ++ q)) by (lia || exact LS).
      * rewrite chunks_app by lia. rewrite (chunks_one N 64 (rest 64 m ++ q)) by (lia || exact LS). rewrite fold_left_app, <- Ex. reflexivity.
Qed.
Lemma be16_small : forall v, (v < 2 ^ 64)%N -> be_bytes 16 v = zeros 8 ++ be_bytes 8 v.
Proof. intros v H. change 16 with (8 + 8). rewrite (be_bytes_app 8 8 v). f_equal. change (8 * N.of_nat 8)%N with 64%N. rewrite N.shiftr_div_pow2, N.div_small by exact H. reflexivity. Qed.
Lemma pad0 : forall b : list N, length b = 8 -> copy_at (upd (zeros 64) 0 0x80%N) 56 b = 0x80%N :: zeros 55 ++ b.
Proof. intros b L. rewrite copy_at_full by (rewrite ?L; cbn; lia). rewrite (firstn_all2 b) by (rewrite L; cbn; lia). reflexivity. Qed.
Lemma pad1 : forall b : list N, length b = 8 -> copy_at (zeros 64) 56 b = zeros 56 ++ b.
Proof. intros b L. rewrite copy_at_full by (rewrite ?L; cbn; lia). rewrite (firstn_all2 b) by (rewrite L; cbn; lia). reflexivity. Qed.
Lemma pad2 : forall (s : list N) k, length s = 64 -> k < 64 -> let s1 := copy_at s k (zeros (64 - k)) in upd s1 k (N.lor (at_ s1 k) 128) = firstn k s ++ 0x80%N :: zeros (63 - k).
Proof.
  intros s k L H. cbv zeta. rewrite copy_at_full by (rewrite ?zeros_length; lia). rewrite (firstn_all2 (zeros (64 - k))) by (rewrite zeros_length; lia). replace (64 - k) with (S (63 - k)) by lia.
  assert (Lk : length (firstn k s) = k) by (rewrite firstn_length; lia). set (a := firstn k s) in *. clearbody a. change (zeros (S (63 - k))) with (0%N :: zeros (63 - k)). unfold at_. rewrite app_nth2 by lia. rewrite Lk, Nat.sub_diag. cbn [nth]. subst k.
  now rewrite upd_app_at.
Qed.
Lemma zeros_app : forall a b, zeros a ++ zeros b = zeros (a + b).
Proof. intros. unfold zeros. symmetry. apply repeat_app. Qed.
Lemma jh_h0_ok : jh_iv 32 = state_of posLE jh_h0 /\ length jh_h0 = 16 /\ Forall hi0 jh_h0.
Proof.
  split; [|split; [reflexivity|]].
  - rewrite (jh2_iv_ok 32 jh2_initVal256) by (right; left; reflexivity). vm_compute. reflexivity.
  - unfold jh_h0. repeat (constructor; [apply hi0_lt; vm_compute; reflexivity|]). constructor.
Qed.
Lemma le_tail : forall h : list N, length h = 16 -> concat (map (le_bytes 8) (slice h 12 16)) = skipn 96 (concat (map (le_bytes 8) h)).
Proof.
  intros h L. rewrite <- (firstn_skipn 12 h) at 2. rewrite map_app, concat_app, skipn_app. rewrite skipn_all2 by (rewrite concat_le_length, firstn_length; lia). rewrite concat_le_length, firstn_length, L. 
  assert (S1 : slice h 12 16 = skipn 12 h) by (unfold slice; apply firstn_all2; rewrite skipn_length; lia). rewrite S1. reflexivity.
Qed.
Lemma land_len : forall n, (N.of_nat n < 2 ^ 61)%N -> N.land (w64 (8 * N.of_nat n)) 0x1ff = (8 * N.of_nat (n mod 64))%N /\ N.land (w64 (8 * N.of_nat n)) 7 = 0%N.
Proof.
  intros n H. rewrite w64_small by (change (2 ^ 61)%N with 2305843009213693952%N in H; change (2 ^ 64)%N with 18446744073709551616%N; lia). split.
  - change 0x1ff%N with (N.ones 9). rewrite N.land_ones. change (2 ^ 9)%N with (8 * 64)%N. rewrite N.mul_mod_distr_l by discriminate. f_equal. now rewrite Nat2N.inj_mod.
  - change 7%N with (N.ones 3). rewrite N.land_ones. change (2 ^ 3)%N with 8%N. rewrite N.mul_comm. apply N.mod_mul. discriminate.
Qed.
Theorem jh_checkSum_ok : forall d m, (N.of_nat (length m) < 2 ^ 61)%N -> jh_rel d m -> jh_checkSum d = jh_hash 32 m.
Proof.
  intros d m HT (Hm & Ex & En & El & (Ls & _ & Ef)). destruct jh_h0_ok as (I1 & I2 & I3). pose proof (rest_length N 64 m ltac:(lia)) as HRm. pose proof (rest_length_lt N 64 m ltac:(lia)) as HR.
  assert (HB : isbytes (jh_pad m)) by (rewrite jh_pad_tail; apply isbytes_app; split; [exact Hm|apply pad_tail_bytes]).
  destruct (jh_blocks (chunks 64 (jh_pad m)) jh_h0 I2 I3 (chunks_blk_ok 64 _ ltac:(lia) HB)) as (A & B & _).
  unfold jh_hash. rewrite I1, A, out_le by exact B. change (128 - 32) with 96; rewrite <- (le_tail _ B). clear A B. unfold jh_checkSum. cbv zeta. do 3 f_equal.
  destruct (land_len (length m) HT) as [E1 E2]. rewrite El, E1, E2. rewrite N.sub_0_r. change (N.shiftl 1 7) with 128%N. rewrite w64_small by (change (2 ^ 61)%N with 2305843009213693952%N in HT; change (2 ^ 64)%N with 18446744073709551616%N; lia).
  set (b := be_bytes 8 (8 * N.of_nat (length m))). assert (Lb : length b = 8) by apply be_bytes_length.
  assert (EP : pad_tail (length m) = 0x80%N :: zeros (47 + (64 - length m mod 64) mod 64) ++ zeros 8 ++ b) by (unfold pad_tail; rewrite be16_small by (change (2 ^ 61)%N with 2305843009213693952%N in HT; change (2 ^ 64)%N with 18446744073709551616%N; lia); reflexivity).
  rewrite jh_pad_tail, EP. rewrite <- HRm. set (r := length (rest 64 m)) in *. rewrite chunks_app by lia. rewrite fold_left_app, <- Ex.
  destruct (N.eqb_spec (8 * N.of_nat r) 0) as [G|G].
  - assert (R0 : r = 0) by lia. assert (RN : rest 64 m = []) by (now apply length_zero_iff_nil). rewrite RN, R0. cbn [app]. rewrite pad0 by exact Lb. rewrite app_assoc, zeros_app.
    change (47 + (64 - 0) mod 64 + 8) with 55. rewrite (chunks_one N 64) by (lia || (cbn [length]; rewrite app_length, zeros_length, Lb; reflexivity)). reflexivity.
  - assert (R0 : 0 < r) by lia. rewrite bits_pos. rewrite (pad2 (j_s d) r Ls HR), Ef, (pad1 b Lb). rewrite (Nat.mod_small (64 - r) 64) by lia.
    assert (ES : rest 64 m ++ 0x80%N :: zeros (47 + (64 - r)) ++ zeros 8 ++ b = (rest 64 m ++ 0x80%N :: zeros (63 - r)) ++ (zeros 56 ++ b)).
    { rewrite <- app_assoc. f_equal. cbn [app]. f_equal. rewrite !app_assoc, !zeros_app. f_equal. f_equal. lia. }
    rewrite ES. set (c := rest 64 m ++ 0x80%N :: zeros (63 - r)). assert (Lc : length c = 64) by (unfold c; rewrite app_length; cbn [length]; rewrite zeros_length; fold r; lia). clearbody c.
    rewrite chunks_app by lia. rewrite (chunks_one N 64 c) by (lia || exact Lc). rewrite (rest_one N 64 c) by (lia || exact Lc). cbn [app].
    assert (L2 : length (zeros 56 ++ b) = 64) by (rewrite app_length, zeros_length, Lb; reflexivity). set (e := zeros 56 ++ b) in *. clearbody e. rewrite (chunks_one N 64 e) by (lia || exact L2). reflexivity.
Qed.

(** What a client can do with a jh digest: a Go slice argument has a length and a capacity; [slack] is the
    backing array between the two. *)
Inductive jop : Type := JWrite (p slack : list N) | JSum (inp : list N) | JReset.
(** Observable behaviour; None: the call panics. *)
Fixpoint jrun (d : jdig) (ops : list jop) : option (list obs) :=
  match ops with
  | [] => Some []
  | JWrite p sl :: t => match jh_write d p sl with None => None | Some (d', n) => option_map (cons (Wrote n)) (jrun d' t) end
  | JSum i :: t => let '(d', o) := jh_sum d i in option_map (cons (Summed o)) (jrun d' t)
  | JReset :: t => jrun (jh_reset d) t
  end.
(** What actually happens, without any model state: a Write on a partial block of r > 0 bytes panics unless
    r + cap(p) >= 64; if no Write panics the digest is JH-256 of what was written. *)
Fixpoint jexpect (m : list N) (ops : list jop) : option (list obs) :=
  match ops with
  | [] => Some []
  | JWrite p sl :: t => if (length m mod 64 =? 0) || (64 <=? length m mod 64 + (length p + length sl)) then option_map (cons (Wrote (length p))) (jexpect (m ++ p) t) else None
  | JSum i :: t => option_map (cons (Summed (i ++ jh_hash 32 m))) (jexpect m t)
  | JReset :: t => jexpect [] t
  end.
Definition jop_bytes (o : jop) : Prop := match o with JWrite p _ => isbytes p | _ => True end.
Fixpoint jtotal (ops : list jop) : N := match ops with [] => 0 | JWrite p _ :: t => N.of_nat (length p) + jtotal t | _ :: t => jtotal t end.
Theorem C51_jh_histories_exact : forall ops, Forall jop_bytes ops -> (jtotal ops < 2 ^ 61)%N -> jrun jh_new ops = jexpect [] ops.
Proof.
  assert (G : forall ops d m, Forall jop_bytes ops -> (N.of_nat (length m) + jtotal ops < 2 ^ 61)%N -> jh_rel d m -> jrun d ops = jexpect m ops).
  { induction ops as [|o ops IH]; intros d m Ho HT HR; [reflexivity|]. inversion Ho as [|? ? Ho1 Ho2]; subst. destruct o as [p sl|i|]; cbn [jrun jexpect jtotal] in *.
    - pose proof (jh_write_exact d m p sl Ho1 ltac:(rewrite app_length; lia) HR) as W. unfold jh_fits in W. destruct ((length m mod 64 =? 0) || (64 <=? length m mod 64 + (length p + length sl))).
      + destruct W as (d' & E & HR'). rewrite E. f_equal. apply IH; auto. rewrite app_length. lia.
      + now rewrite W.
    - unfold jh_sum. rewrite (jh_checkSum_ok d m) by (lia || exact HR). f_equal. now apply IH.
    - apply IH; auto; [cbn [length]; lia|]. destruct HR as (_ & _ & _ & _ & (Ls & _ & _)). split; [constructor|]. split; [reflexivity|]. split; [reflexivity|]. split; [reflexivity|]. apply buf_ok_nil; [lia|exact Ls]. }
  intros ops Ho HT. apply G; auto. split; [constructor|]. split; [reflexivity|]. split; [reflexivity|]. split; [reflexivity|]. apply buf_ok_nil; [lia|reflexivity].
Qed.
(** The hash.Hash contract is false: New(); Write(5 bytes); Write(5 bytes) panics when cap = len. *)
Theorem C51_jh_write_split_refuted : exists p q : list N, isbytes (p ++ q) /\ jrun jh_new [JWrite p []; JWrite q []] = None.
Proof.
  exists [1;2;3;4;5]%N, [6;7;8;9;10]%N. split; [repeat constructor|]. rewrite C51_jh_histories_exact by (repeat constructor; reflexivity). reflexivity.
Qed.
(** ... and so does Write(nil) after a partial block. *)
Theorem C51_jh_write_empty_refuted : jrun jh_new [JWrite [1]%N []; JWrite [] []] = None.
Proof. rewrite C51_jh_histories_exact by (repeat constructor; reflexivity). reflexivity. Qed.
(** Whole-block Writes never panic, whatever the capacities, and one last Write of any length is fine. *)
Lemma jexpect_aligned : forall ps m last ilast, Forall (fun ps => length (fst ps) mod 64 = 0) ps -> length m mod 64 = 0 ->
  exists os, jexpect m (map (fun ps => JWrite (fst ps) (snd ps)) ps ++ [JWrite last []; JSum ilast]) = Some (os ++ [Summed (ilast ++ jh_hash 32 (m ++ concat (map fst ps) ++ last))]).
Proof.
  induction ps as [|[p sl] ps IH]; intros m last i Hp Hm.
  - cbn [map app jexpect concat]. rewrite Hm. cbn [Nat.eqb orb option_map]. exists [Wrote (length last)]. reflexivity.
  - inversion Hp as [|? ? H1 H2]; subst. cbn [fst] in H1. cbn [map app jexpect fst snd concat]. rewrite Hm. cbn [Nat.eqb orb].
    destruct (IH (m ++ p) last i H2) as [os E]; [rewrite app_length, Nat.add_mod, Hm, H1 by lia; reflexivity|]. rewrite E. cbn [option_map]. exists (Wrote (length p) :: os). cbn [app]. rewrite <- !app_assoc. reflexivity.
Qed.
Theorem C51_jh_aligned_writes : forall ps last i, Forall (fun ps => length (fst ps) mod 64 = 0) ps -> isbytes (concat (map fst ps) ++ last) ->
  (N.of_nat (length (concat (map fst ps) ++ last)) < 2 ^ 61)%N ->
  exists os, jrun jh_new (map (fun ps => JWrite (fst ps) (snd ps)) ps ++ [JWrite last []; JSum i]) = Some (os ++ [Summed (i ++ jh_hash 32 (concat (map fst ps) ++ last))]).
Proof.
  intros ps last i Ha Hb HT. rewrite C51_jh_histories_exact.
  - destruct (jexpect_aligned ps [] last i Ha eq_refl) as [os E]. exists os. exact E.
  - apply isbytes_app in Hb. destruct Hb as [Hb1 Hb2]. apply Forall_app. split; [|repeat constructor; exact Hb2].
    clear - Hb1. induction ps as [|a ps IH]; cbn [map concat] in *; [constructor|]. apply isbytes_app in Hb1. constructor; [apply Hb1|now apply IH].
  - clear - HT. rewrite app_length in HT. assert (E : jtotal (map (fun ps => JWrite (fst ps) (snd ps)) ps ++ [JWrite last []; JSum i]) = (N.of_nat (length (concat (map fst ps))) + N.of_nat (length last))%N).
    { clear HT. induction ps as [|a ps IH]; cbn [map app concat jtotal]; [cbn [length]; lia|]. rewrite IH, app_length. lia. }
    rewrite E. lia.
Qed.
(** The one-shot function Sum(data) (/repo/jh/jh.go:13-19: New, one Write, checkSum) and any capacity. *)
Theorem C51_jh_Sum : forall m sl, isbytes m -> (N.of_nat (length m) < 2 ^ 61)%N -> exists d, jh_write jh_new m sl = Some (d, length m) /\ jh_checkSum d = jh_hash 32 m.
Proof.
  intros m sl Hm HT. pose proof (jh_write_exact jh_new [] m sl Hm HT) as W. cbn in W. destruct W as (d & E & HR); [|exists d; split; [exact E|now apply jh_checkSum_ok]].
  split; [constructor|]. split; [reflexivity|]. split; [reflexivity|]. split; [reflexivity|]. apply buf_ok_nil; [lia|reflexivity].
Qed.
(** Non-vacuity: with capacity to spare the same two Writes work. *)
Example jh_history_ok : jrun jh_new [JWrite [1;2;3;4;5]%N []; JWrite [6;7]%N (zeros 57); JReset; JSum []] = Some [Wrote 5; Wrote 2; Summed (jh_hash 32 [])].
Proof. rewrite C51_jh_histories_exact by (repeat constructor; reflexivity). reflexivity. Qed.
Transparent jh2_block jh_f8 jh2_C jh_rc.
(** Known answer (JH-256 of the empty message) computed by the model of jh2, hence the value of [jh_hash]. *)
Example jh256_empty : jh_hash 32 [] = be_bytes 32 0x46e64619c18bb0a92a5e87185a47eef83ca747b8fcc8e1412921357e326df434.
Proof. rewrite <- (C81_jh2_Sum 32 jh2_initVal256) by ((right; left; reflexivity) || constructor || reflexivity). vm_compute. reflexivity. Qed.
