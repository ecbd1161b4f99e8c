(** PropMd6.v -- properties C50, C82, C83, C84: package md6. *)
From Coq Require Import List NArith ZArith Arith Lia Bool.
From Verif Require Import Base Words Refine Buf HashAPI Ascon SpecMd6 Md6 Md6P.
Import ListNotations.
Local Open Scope nat_scope.

(** ** What the package computes
    Not the tree of the MD6 report: the j-th 512-byte block (from 1) is compressed together with the previous
    chaining value, as if it were at level j of the tree, and the last, possibly empty, block is compressed once more.
    The compression function takes 64 data words; a chaining value (16 words) and a block (64 words) are 80. *)
Definition pad384 (b : list N) : nat := if length b <=? 384 then 384 else 768.
Definition md6_link (P : md6_par) (j : nat) (C : list N) (b : list N) (final : bool) (total : N) : list N :=
  let size := if j <=? md_L P then 512 else pad384 b in
  let z := if j <=? md_L P then (if final && (512 <? total)%N then 0%N else 1%N) else if final then 1%N else 0%N in
  let p := if final then md6_padbits size b else 0%N in
  md6_call P (N.of_nat j mod 256) 0 z p (firstn 64 (C ++ words64 (md6_padded size b) ++ repeat 0%N 64)).
Fixpoint md6_links (P : md6_par) (j : nat) (C : list N) (bl : list (list N)) : list N :=
  match bl with [] => C | b :: t => md6_links P (j + 1) (md6_link P j C b false 0) t end.
Definition md6_chain (P : md6_par) (m : list N) : list N :=
  let bl := chunks 512 m in
  md6_link P (length bl + 1) (md6_links P 1 [] bl) (rest 512 m) true (N.of_nat (length m)).
(** The last (d + 7) / 8 bytes, the unused low bits of the last one cleared. *)
Definition md6_cut (d : nat) (c : list N) : list N :=
  let h := skipn (length c - (d + 7) / 8) c in
  if d mod 8 =? 0 then h else firstn (length h - 1) h ++ map (fun x => (x - x mod 2 ^ (8 - N.of_nat (d mod 8)))%N) (skipn (length h - 1) h).
Definition md6_actual (P : md6_par) (m : list N) : list N := md6_cut (md_d P) (concat (map (be_bytes 8) (md6_chain P m))).

(** Positions of a message that never reach the compression function: the last 128 bytes of every 512-byte block but the first. *)
Definition ignored (i : nat) : Prop := 512 <= i /\ 384 <= i mod 512.

(** ** Proofs *)
Lemma val_be : forall a b, is32 a -> is32 b -> val (a, b) = (a * 2 ^ 32 + b)%N.
Proof. intros a b Ha Hb. unfold val. cbn [fst snd]. rewrite N.add_comm, add_shift_lor by exact Hb. now rewrite N.lor_comm. Qed.
Lemma be4_is32 : forall l, isbytes l -> length l <= 4 -> is32 (be_val l).
Proof.
  intros l H L. unfold be_val. assert (K : isbytes (rev l)) by (apply Forall_rev; exact H). pose proof (le_val_lt (rev l) K) as B. rewrite rev_length in B.
  eapply N.lt_le_trans; [exact B|]. apply N.pow_le_mono_r; lia.
Qed.
Lemma be_val_app' : forall a b, be_val (a ++ b) = (be_val a * 2 ^ N.of_nat (8 * length b) + be_val b)%N.
Proof. intros a b. unfold be_val. rewrite rev_app_distr, le_val_app, rev_length. apply N.add_comm. Qed.
Lemma toWord_ok : forall M, isbytes M -> map val (m6_toWord M) = words64 M /\ Forall okW (m6_toWord M).
Proof.
  intros M HM. unfold m6_toWord, words64. rewrite map_map. pose proof (chunks_blk_ok 8 M ltac:(lia) HM) as B. rewrite Forall_forall in B.
  assert (K : forall c, In c (chunks 8 M) -> is32 (be_val (firstn 4 c)) /\ is32 (be_val (firstn 4 (skipn 4 c))) /\ be_val c = (be_val (firstn 4 c) * 2 ^ 32 + be_val (firstn 4 (skipn 4 c)))%N).
  { intros c Hc. destruct (B c Hc) as [Lc Bc]. split; [|split].
    - apply be4_is32; [now apply isbytes_firstn|rewrite firstn_length; lia].
    - apply be4_is32; [now apply isbytes_firstn, isbytes_skipn|rewrite firstn_length; lia].
    - rewrite <- (firstn_skipn 4 c) at 1. rewrite be_val_app', skipn_length, Lc. change (N.of_nat (8 * (8 - 4))) with 32%N.
      rewrite (firstn_all2 (n := 4) (skipn 4 c)) by (rewrite skipn_length; lia). reflexivity. }
  split.
  - apply map_ext_in. intros c Hc. destruct (K c Hc) as (A1 & A2 & ->). now rewrite val_be.
  - apply Forall_forall. intros w Hw. apply in_map_iff in Hw. destruct Hw as (c & <- & Hc). destruct (K c Hc) as (A1 & A2 & _). split; assumption.
Qed.
Lemma words64_length : forall M, length (words64 M) = length M / 8.
Proof. intros. unfold words64. rewrite map_length. apply chunks_length. Qed.
Lemma fromWord_ok : forall l, Forall okW l -> m6_fromWord l = concat (map (be_bytes 8) (map val l)).
Proof.
  intros l F. unfold m6_fromWord. rewrite map_map. f_equal. apply map_ext_in. intros w Hw. rewrite Forall_forall in F. destruct (F w Hw) as [A B].
  destruct w as [a b]. cbn [fst snd] in *. rewrite val_be by assumption. change 8 with (4 + 4). rewrite be_bytes_app. f_equal.
  - f_equal. change (8 * N.of_nat 4)%N with 32%N. rewrite N.shiftr_div_pow2, N.div_add_l by discriminate. rewrite N.div_small by exact B. symmetry. apply N.add_0_r.
  - rewrite <- (be_bytes4_w32 (a * 2 ^ 32 + b)). rewrite <- (be_bytes4_w32 b). f_equal. unfold w32. change 4294967295%N with (N.ones 32). rewrite !N.land_ones. rewrite N.add_comm, N.mod_add by discriminate. reflexivity.
Qed.
(** The padding loops. *)
Lemma padloop_ok : forall k t fuel M P target, 0 < k -> t < fuel -> length M + t = target -> target mod k = 0 -> 0 < target -> (t < k \/ (t = k /\ length M = 0)) ->
  m6_padloop fuel k M P = (M ++ zeros t, (P + N.of_nat (8 * t))%N).
Proof.
  intros k. induction t as [|t IH]; intros fuel M P target Hk Hf E Et Hp Hm; (destruct fuel as [|fuel]; [lia|]); cbn [m6_padloop].
  - replace (length M) with target by lia. rewrite Et. destruct (Nat.ltb_spec target 1); [lia|]. cbn. rewrite app_nil_r, N.add_0_r. reflexivity.
  - assert (C : (length M <? 1) || (0 <? length M mod k) = true).
    { destruct (Nat.ltb_spec (length M) 1); [reflexivity|]. cbn [orb]. apply Nat.ltb_lt. apply Nat.neq_0_lt_0. intros Z.
      assert (D : (length M + S t) mod k = 0) by (rewrite E; exact Et). rewrite Nat.add_mod, Z in D by lia. rewrite Nat.add_0_l, Nat.mod_mod in D by lia. rewrite Nat.mod_small in D by lia. lia. }
    rewrite C. rewrite (IH fuel (M ++ [0%N]) (P + 8)%N target); auto; try lia.
    + rewrite <- app_assoc. cbn [app]. f_equal. lia.
    + rewrite app_length. cbn. lia.
Qed.
Lemma lor_add : forall a b k, (b < 2 ^ k)%N -> N.lor (N.shiftl a k) b = (a * 2 ^ k + b)%N.
Proof. intros. rewrite N.lor_comm, <- add_shift_lor by assumption. apply N.add_comm. Qed.
Lemma mask : forall x k, (x < 2 ^ k)%N -> N.land x (N.ones k) = x.
Proof. intros. rewrite N.land_ones. now apply N.mod_small. Qed.
Lemma shl32_small : forall a n, (a * 2 ^ n < 2 ^ 32)%N -> shl32 a n = N.shiftl a n.
Proof. intros. unfold shl32. apply w32_eq. unfold is32. now rewrite N.shiftl_mul_pow2. Qed.

Record cfg_ok (c : m6_cfg) (P : md6_par) : Prop := {
  k_d : c_d c = md_d P; k_L : c_L c = md_L P; k_r : c_r c = md_r P; k_k : c_k c = length (md_key P);
  k_K : map val (c_K c) = words64 (md_key P ++ zeros (64 - length (md_key P))); k_O : Forall okW (c_K c); k_len : length (c_K c) = 8;
  k_bd : md_d P < 4096; k_bL : md_L P < 256; k_br : 1 <= md_r P < 4096; k_bk : length (md_key P) <= 64 }.
Lemma U_ok : forall ell, let U := (N.lor (shl32 (N.land (w32 (N.of_nat ell)) 0xFF) 24) (N.land (0 / 0xFFFFFFFF) 0xFFFFFF), N.land 0 0xFFFFFFFF)%N in
  okW U /\ val U = (N.of_nat ell mod 256 * 2 ^ 56 + 0)%N.
Proof.
  intros ell. cbv zeta. change (N.land (0 / 0xFFFFFFFF) 0xFFFFFF) with 0%N. rewrite N.lor_0_r. change (N.land 0 0xFFFFFFFF) with 0%N.
  assert (E : N.land (w32 (N.of_nat ell)) 255 = (N.of_nat ell mod 256)%N).
  { unfold w32. rewrite <- N.land_assoc. change (N.land 4294967295 255) with (N.ones 8). apply N.land_ones. }
  rewrite E. pose proof (N.mod_lt (N.of_nat ell) 256 ltac:(discriminate)) as B. set (e := (N.of_nat ell mod 256)%N) in *. clearbody e.
  rewrite shl32_small by lia. assert (A : is32 (N.shiftl e 24)) by (unfold is32; rewrite N.shiftl_mul_pow2; lia). split; [split; [exact A|reflexivity]|].
  rewrite val_be by (auto; reflexivity). rewrite N.shiftl_mul_pow2. lia.
Qed.
Lemma V_ok : forall r L z p k d, (r < 4096)%N -> (L < 256)%N -> (z < 16)%N -> (p < 65536)%N -> (k < 256)%N -> (d < 4096)%N ->
  let V := (N.lor (N.lor (N.lor (shl32 (N.land (w32 r) 0xFFF) 16) (shl32 (N.land (w32 L) 0xFF) 8)) (shl32 (N.land z 0xF) 4)) (N.shiftr (N.land p 0xF000) 12),
            N.lor (N.lor (shl32 (N.land p 0xFFF) 20) (shl32 (N.land (w32 k) 0xFF) 12)) (N.land (w32 d) 0xFFF))%N in
  okW V /\ val V = (r * 2 ^ 48 + L * 2 ^ 40 + z * 2 ^ 36 + p * 2 ^ 20 + k * 2 ^ 12 + d)%N.
Proof.
  intros r L z p k d Hr HL Hz Hp Hk Hd. cbv zeta.
  rewrite (w32_eq r), (w32_eq L), (w32_eq k), (w32_eq d) by (unfold is32; lia).
  change 0xFFF%N with (N.ones 12). change 0xFF%N with (N.ones 8). change 0xF%N with (N.ones 4).
  rewrite (mask r 12), (mask L 8), (mask z 4), (mask k 8), (mask d 12) by assumption.
  rewrite N.shiftr_land. change (N.shiftr 0xF000 12) with (N.ones 4). rewrite N.shiftr_div_pow2, !N.land_ones. change (2 ^ 12)%N with 4096%N.
  pose proof (N.div_mod p 4096 ltac:(discriminate)) as DM. pose proof (N.mod_lt p 4096 ltac:(discriminate)) as B2.
  assert (B1 : (p / 4096 < 16)%N) by (apply N.div_lt_upper_bound; [discriminate|lia]).
  change (2 ^ 4)%N with 16%N. rewrite (N.mod_small (p / 4096) 16) by exact B1. set (p1 := (p / 4096)%N) in *. set (p0 := (p mod 4096)%N) in *. clearbody p1 p0.
  rewrite !shl32_small by lia. rewrite <- !N.lor_assoc. change (2 ^ 12)%N with 4096%N in *.
  rewrite (lor_add z p1 4) by (change (2 ^ 4)%N with 16%N; lia). rewrite (lor_add L _ 8) by (change (2 ^ 4)%N with 16%N; change (2 ^ 8)%N with 256%N; lia).
  rewrite (lor_add r _ 16) by (change (2 ^ 4)%N with 16%N; change (2 ^ 8)%N with 256%N; change (2 ^ 16)%N with 65536%N; lia).
  rewrite (lor_add k d 12) by (change (2 ^ 12)%N with 4096%N; lia). rewrite (lor_add p0 _ 20) by (change (2 ^ 12)%N with 4096%N; change (2 ^ 20)%N with 1048576%N; lia).
  match goal with |- okW (?a, ?b) /\ _ => assert (A : is32 a) by (unfold is32; lia); assert (B : is32 b) by (unfold is32; lia) end.
  split; [split; assumption|]. rewrite val_be by assumption. lia.
Qed.
Lemma Q_ok : map val m6_Q = md6_Q /\ Forall okW m6_Q.
Proof. split; [reflexivity|]. unfold m6_Q. repeat constructor. Qed.
Lemma Forall_firstn : forall A (Q : A -> Prop) n l, Forall Q l -> Forall Q (firstn n l).
Proof. intros A Q n l H. rewrite Forall_forall in *. intros x Hx. apply H. rewrite <- (firstn_skipn n l). apply in_or_app. now left. Qed.
Lemma mid_ok : forall c P ell B C z p, cfg_ok c P -> Forall okW C -> Forall okW B -> (z < 16)%N -> (p < 65536)%N ->
  map val (m6_mid c ell B C 0 p z) = md6_call P (N.of_nat ell mod 256) 0 z p (firstn 64 (map val C ++ map val B ++ repeat 0%N 64)) /\
  Forall okW (m6_mid c ell B C 0 p z) /\ length (m6_mid c ell B C 0 p z) = 16.
Proof.
  intros c P ell B C z p H OC OB Hz Hp. unfold m6_mid, md6_call. cbv zeta.
  destruct (U_ok ell) as [OU EU]. set (U := (N.lor (shl32 (N.land (w32 (N.of_nat ell)) 255) 24) _, _)) in *.
  rewrite (k_r _ _ H), (k_L _ _ H), (k_k _ _ H), (k_d _ _ H).
  destruct (V_ok (N.of_nat (md_r P)) (N.of_nat (md_L P)) z p (N.of_nat (length (md_key P))) (N.of_nat (md_d P))) as [OV EV]; try assumption;
    try (pose proof (k_bd _ _ H); pose proof (k_bL _ _ H); pose proof (k_br _ _ H); pose proof (k_bk _ _ H); lia).
  set (V := (N.lor (N.lor (N.lor (shl32 (N.land (w32 (N.of_nat (md_r P))) 4095) 16) _) _) _, _)) in *. clearbody U V.
  rewrite <- EU, <- EV. destruct Q_ok as [EQ OQ]. rewrite <- EQ, <- (k_K _ _ H). change [val U; val V] with (map val ([U] ++ [V])).
  assert (Ez : repeat 0%N 64 = map val (repeat (0, 0)%N 64)) by reflexivity. rewrite Ez.
  rewrite <- !map_app, firstn_map, <- !map_app. rewrite (app_assoc C B).
  set (pre := m6_Q ++ c_K c ++ [U] ++ [V]). assert (Lp : length pre = 25) by (unfold pre; rewrite !app_length, (k_len _ _ H); reflexivity).
  assert (E1 : m6_Q ++ c_K c ++ [U] ++ [V] ++ C ++ B = pre ++ (C ++ B)) by (unfold pre; rewrite <- !app_assoc; reflexivity).
  set (data := firstn 64 ((C ++ B) ++ repeat (0, 0)%N 64)).
  assert (E2 : m6_Q ++ c_K c ++ ([U] ++ [V]) ++ data = pre ++ data) by (unfold pre; rewrite <- !app_assoc; reflexivity).
  assert (Op : Forall okW pre) by (unfold pre; rewrite !Forall_app; repeat split; auto; try apply (k_O _ _ H)).
  rewrite E1, E2. clearbody pre. clear E1 E2 Ez.
  assert (Od : Forall okW data) by (unfold data; apply Forall_firstn; rewrite !Forall_app; repeat split; auto; apply Forall_forall; intros x Hx; apply repeat_spec in Hx; subst; split; reflexivity).
  assert (Ld : length data = 64) by (unfold data; rewrite firstn_length, app_length, repeat_length; lia).
  apply f_ok; [|rewrite Forall_app; auto|apply (k_br _ _ H)].
  exists 64. split; [|rewrite app_length; lia]. rewrite <- app_assoc, (firstn_app 89), Lp, (firstn_all2 (n := 89) pre) by lia. reflexivity.
Qed.
Definition okC (C : list W) : Prop := Forall okW C.
Lemma padded_len : forall n b, length b <= n -> length (md6_padded n b) = n.
Proof. intros n b H. unfold md6_padded, zeros. rewrite app_length, repeat_length. lia. Qed.
Lemma isbytes_padded : forall n b, isbytes b -> isbytes (md6_padded n b).
Proof. intros n b H. unfold md6_padded. apply isbytes_app. split; [exact H|]. unfold zeros. apply Forall_forall. intros x Hx. apply repeat_spec in Hx. subst. reflexivity. Qed.
Lemma process_ok : forall c P ell C b len final, cfg_ok c P -> okC C -> isbytes b -> length b <= 512 ->
  exists C', m6_process c ell C b len final = (ell + 1, C') /\ okC C' /\ length C' = 16 /\ map val C' = md6_link P (ell + 1) (map val C) b final len.
Proof.
  intros c P ell C b len final H OC Bb Lb. unfold m6_process. eexists. split; [reflexivity|].
  unfold md6_link. rewrite (k_L _ _ H). rewrite Nat.ltb_antisym. set (par := ell + 1 <=? md_L P).
  set (z := if par then (if final && _ then _ else _) else _). set (size := if par then 512 else pad384 b). set (p := if final then md6_padbits size b else 0%N).
  assert (Hs : length b <= size <= 768) by (unfold size, pad384; destruct par; [lia|]; destruct (Nat.leb_spec (length b) 384); lia).
  assert (EP : (if negb par then m6_seq c (ell + 1) C b final else m6_par c (ell + 1) C b len final) = m6_mid c (ell + 1) (m6_toWord (md6_padded size b)) C 0 p z).
  { unfold p, z, size, md6_padbits, md6_padded. destruct par; cbn [negb].
    - unfold m6_par. rewrite (padloop_ok 512 (512 - length b) 513 b 0 512) by (try lia; try reflexivity; destruct (Nat.eq_dec (length b) 0); lia).
      cbv beta iota zeta. rewrite N.add_0_l. f_equal. destruct final; [|reflexivity]. apply w32_eq. unfold is32. lia.
    - unfold m6_seq, pad384. destruct (Nat.leb_spec (length b) 384) as [G|G].
      + rewrite (padloop_ok 384 (384 - length b) 385 b 0 384) by (try lia; try reflexivity; destruct (Nat.eq_dec (length b) 0); lia).
        cbv beta iota zeta. rewrite N.add_0_l. destruct final; [|reflexivity]. f_equal. apply w32_eq. unfold is32. lia.
      + rewrite (padloop_ok 384 (768 - length b) 385 b 0 768) by (try lia; reflexivity).
        cbv beta iota zeta. rewrite N.add_0_l. destruct final; [|reflexivity]. f_equal. apply w32_eq. unfold is32. lia. }
  rewrite EP. clear EP.
  destruct (toWord_ok (md6_padded size b) ltac:(now apply isbytes_padded)) as [ET OT]. rewrite <- ET.
  destruct (mid_ok c P (ell + 1) (m6_toWord (md6_padded size b)) C z p H OC OT) as (E & O & L).
  - unfold z. destruct par, final; cbn [andb]; try destruct (512 <? len)%N; reflexivity.
  - unfold p, md6_padbits. destruct final; [lia|reflexivity].
  - split; [exact O|]. split; [exact L|exact E].
Qed.
Lemma links_app : forall P bl1 bl2 j C, md6_links P j C (bl1 ++ bl2) = md6_links P (j + length bl1) (md6_links P j C bl1) bl2.
Proof.
  intros P. induction bl1 as [|b t IH]; intros bl2 j C; cbn [app md6_links length]; [now rewrite Nat.add_0_r|]. rewrite IH. f_equal. lia.
Qed.
(** The objects that Writes reach, and the message they stand for. *)
Definition mrel (P : md6_par) (d : m6_st) (m : list N) : Prop :=
  isbytes m /\ m_ell d = length (chunks 512 m) /\ okC (m_C d) /\ map val (m_C d) = md6_links P 1 [] (chunks 512 m) /\
  m_len d = w64 (N.of_nat (length m)) /\ buf_ok 512 512 (m_x d) (m_nx d) m.
Lemma link_len : forall P j C b t t', md6_link P j C b false t = md6_link P j C b false t'.
Proof. intros. unfold md6_link. cbn [andb]. reflexivity. Qed.
Lemma write_rel : forall c P d m p, cfg_ok c P -> isbytes p -> mrel P d m -> mrel P (fst (m6_write c d p)) (m ++ p) /\ snd (m6_write c d p) = length p.
Proof.
  intros c P d m p H Bp (Bm & He & HC & HE & Hl & Hb).
  set (I := fun (s : nat * list W * N) (m : list N) => isbytes m -> let '(ell, C, len) := s in
    ell = length (chunks 512 m) /\ okC C /\ map val C = md6_links P 1 [] (chunks 512 m) /\ len = w64 (N.of_nat (length m))).
  unfold m6_write. set (step := fun (s : nat * list W * N) (b : list N) (xx : nat) => _).
  destruct (writeA_ok 512 512 step I ltac:(lia) ltac:(lia)) with (s := (m_ell d, m_C d, m_len d)) (x := m_x d) (nx := m_nx d) (p := p) (m := m) as (s' & x' & nx' & r & c' & E & Ep & HI & Hlt & Hb').
  - intros [[ell C] len] m0 b x HI Lx Fx Lr B0. apply isbytes_app in B0. destruct B0 as [B0 B1]. specialize (HI B0). cbv beta iota in HI. destruct HI as (I1 & I2 & I3 & I4).
    assert (Ex : x = rest 512 m0 ++ b) by (rewrite <- Fx; symmetry; apply firstn_all2; lia).
    assert (Bx : isbytes x) by (rewrite Ex; apply isbytes_app; split; [now apply isbytes_rest|exact B1]).
    unfold step. destruct (process_ok c P ell C x (add64 len (N.of_nat (length b))) false H I2 Bx ltac:(lia)) as (C' & EC & O' & _ & EL). rewrite EC. cbv beta iota zeta.
    assert (Ech : chunks 512 (m0 ++ b) = chunks 512 m0 ++ [x]) by (rewrite chunks_app by lia; f_equal; rewrite Ex; apply chunks_one; [lia|rewrite app_length; lia]).
    rewrite Ech. split; [rewrite app_length, I1; reflexivity|]. split; [exact O'|]. split.
    + rewrite EL, links_app, <- I3, I1. cbn [md6_links]. rewrite (Nat.add_comm 1 (length (chunks 512 m0))). apply link_len.
    + rewrite I4. unfold add64. rewrite app_length, Nat2N.inj_add. unfold w64. change 18446744073709551615%N with (N.ones 64). rewrite !N.land_ones. apply N.add_mod_idemp_l. discriminate.
  - intros _. auto.
  - exact Hb.
  - rewrite E. destruct s' as [[ell C] len]. cbn [fst snd]. split; [|reflexivity].
    assert (Bp' : isbytes c' /\ isbytes r) by (apply isbytes_app; rewrite <- Ep; exact Bp).
    assert (Bc : isbytes (m ++ c')) by (apply isbytes_app; tauto). specialize (HI Bc). cbv beta iota in HI. destruct HI as (I1 & I2 & I3 & I4).
    assert (Ech : chunks 512 (m ++ p) = chunks 512 (m ++ c')).
    { rewrite Ep, app_assoc, chunks_app by lia. rewrite (chunks_short N 512 (rest 512 (m ++ c') ++ r)) by (rewrite app_length; lia). apply app_nil_r. }
    unfold mrel. cbn [m_x m_nx m_len m_ell m_C]. rewrite Ech. repeat split; auto; try apply Hb'.
    + apply isbytes_app. auto.
    + rewrite I4, Ep, app_assoc. unfold add64. rewrite (app_length (m ++ c') r), Nat2N.inj_add. unfold w64. change 18446744073709551615%N with (N.ones 64). rewrite !N.land_ones. apply N.add_mod_idemp_l. discriminate.
Qed.

Lemma new_rel : forall P, mrel P m6_new [].
Proof.
  intros P. unfold mrel. cbn [m6_new m_x m_nx m_len m_ell m_C]. rewrite (chunks_short N 512 []) by (cbn; lia). do 5 (split; [first [constructor|reflexivity]|]). apply buf_ok_nil; [lia|reflexivity].
Qed.
Lemma mask_ok : forall x r, isbyte x -> 0 < r < 8 -> N.land x (N.land (N.shiftl 0xFF (8 - N.of_nat r)) 0xFF) = (x - x mod 2 ^ (8 - N.of_nat r))%N.
Proof.
  intros x r Hx Hr.
  assert (T : forallb (fun r => forallb (fun x => N.eqb (N.land x (N.land (N.shiftl 0xFF (8 - N.of_nat r)) 0xFF)) (x - x mod 2 ^ (8 - N.of_nat r))) (map N.of_nat (seq 0 256))) (seq 1 7) = true) by (vm_compute; reflexivity).
  rewrite forallb_forall in T. specialize (T r ltac:(apply in_seq; lia)). rewrite forallb_forall in T. specialize (T x). apply N.eqb_eq. apply T.
  apply in_map_iff. exists (N.to_nat x). split; [apply N2Nat.id|]. apply in_seq. unfold isbyte in Hx. lia.
Qed.
Lemma crop_ok : forall d h, isbytes h -> (d + 7) / 8 <= length h -> m6_crop d h = Some (md6_cut d h).
Proof.
  intros d h Bh L. unfold m6_crop, md6_cut. cbv zeta. set (n := (d + 7) / 8) in *. destruct (Nat.ltb_spec (length h) n) as [G|_]; [lia|]. f_equal.
  set (g := skipn (length h - n) h). assert (Lg : length g = n) by (unfold g; rewrite skipn_length; lia).
  assert (Bg : isbytes g) by (unfold g; now apply isbytes_skipn). clearbody g.
  destruct (Nat.eqb_spec (d mod 8) 0) as [E|E]; [rewrite E; reflexivity|]. destruct (Nat.ltb_spec 0 (d mod 8)) as [_|G]; [|lia].
  assert (Hn : 1 <= n) by (unfold n; clear - E; pose proof (Nat.div_mod d 8 ltac:(lia)); apply Nat.div_le_lower_bound; [lia|]; destruct d; [now cbn in E|lia]).
  rewrite Lg. rewrite upd_split by lia. f_equal. replace (S (n - 1)) with n by lia. rewrite (skipn_all2 (n := n) g) by lia.
  assert (Es : skipn (n - 1) g = [at_ g (n - 1)]).
  { pose proof (firstn_skipn (n - 1) g) as S1. destruct (skipn (n - 1) g) as [|y [|y' t]] eqn:Eq; pose proof (f_equal (@length N) Eq) as Lq; rewrite skipn_length, Lg in Lq; cbn [length] in Lq; try lia.
    f_equal. unfold at_. rewrite <- S1. rewrite app_nth2; rewrite firstn_length; [|lia]. replace (n - 1 - Nat.min (n - 1) (length g)) with 0 by lia. reflexivity. }
  rewrite Es. cbn [map]. f_equal. apply mask_ok; [|pose proof (Nat.mod_upper_bound d 8 ltac:(lia)); lia].
  unfold isbytes in Bg. rewrite Forall_forall in Bg. apply Bg. unfold at_. apply nth_In. lia.
Qed.
Lemma fromWord_len : forall l, length (m6_fromWord l) = length l * 8.
Proof. intros l. unfold m6_fromWord. induction l as [|w t IH]; [reflexivity|]. cbn [map concat length]. rewrite !app_length, !be_bytes_length, IH. lia. Qed.
Lemma fromWord_bytes : forall l, isbytes (m6_fromWord l).
Proof. intros l. unfold m6_fromWord. induction l as [|w t IH]; [constructor|]. cbn [map concat]. apply isbytes_app; split; [apply isbytes_app; split; apply be_bytes_isbytes|exact IH]. Qed.
Lemma checkSum_ok : forall c P d m, cfg_ok c P -> md_d P <= 1024 -> (N.of_nat (length m) < 2 ^ 64)%N -> mrel P d m -> m6_checkSum c d = Some (md6_actual P m).
Proof.
  intros c P d m H Hd Hm (Bm & He & HC & HE & Hl & (Lx & En & Ex)). unfold m6_checkSum. rewrite Ex.
  destruct (process_ok c P (m_ell d) (m_C d) (rest 512 m) (m_len d) true H HC (isbytes_rest _ _ Bm)) as (C' & EC & O' & L' & EL).
  { pose proof (rest_length_lt _ 512 m ltac:(lia)). lia. }
  rewrite EC. cbv beta iota. rewrite (k_d _ _ H). rewrite crop_ok; [|apply fromWord_bytes|].
  2:{ rewrite fromWord_len, L'. apply Nat.lt_succ_r, Nat.div_lt_upper_bound; lia. }
  f_equal. unfold md6_actual, md6_chain. rewrite fromWord_ok by exact O'. rewrite EL, He, HE, Hl. rewrite w64_eq by exact Hm. reflexivity.
Qed.
(** The constructor. *)
Lemma keypad_ok : forall t fuel own back key, length key + t = 64 -> t < fuel -> snd (m6_keypad fuel own back key) = key ++ zeros t.
Proof.
  induction t as [|t IH]; intros fuel own back key L Hf; (destruct fuel as [|fuel]; [lia|]); cbn [m6_keypad].
  - destruct (Nat.ltb_spec (length key) 64); [lia|]. symmetry. apply app_nil_r.
  - destruct (Nat.ltb_spec (length key) 64); [|lia].
    assert (K : forall o b, snd (m6_keypad fuel o b (key ++ [0%N])) = key ++ zeros (S t)) by (intros; rewrite IH; [rewrite <- app_assoc; reflexivity|rewrite app_length; cbn; lia|lia]).
    destruct (own || (length back =? length key)); apply K.
Qed.
Lemma newcfg_ok : forall size back kl L, kl <= length back -> isbytes back -> size <= 1024 -> L < 256 ->
  cfg_ok (fst (m6_newcfg size back kl L)) (md6_default size (firstn 64 (firstn kl back)) L).
Proof.
  intros size back kl L Hkl Bb Hs HL. unfold m6_newcfg. set (key := if 64 <? length (firstn kl back) then firstn 64 (firstn kl back) else firstn kl back).
  assert (Ek : firstn 64 (firstn kl back) = key) by (unfold key; destruct (Nat.ltb_spec 64 (length (firstn kl back))); [reflexivity|apply firstn_all2; lia]).
  rewrite Ek. assert (Lk : length key <= 64) by (rewrite <- Ek, firstn_length; lia).
  assert (Bk : isbytes key) by (rewrite <- Ek; now apply isbytes_firstn, isbytes_firstn). clearbody key.
  pose proof (keypad_ok (64 - length key) 65 false back key ltac:(lia) ltac:(lia)) as E. destruct (m6_keypad 65 false back key) as [back' key']. cbn [snd] in E. subst key'.
  assert (Bz : isbytes (key ++ zeros (64 - length key))) by (apply isbytes_app; split; [exact Bk|unfold zeros; apply Forall_forall; intros x Hx; apply repeat_spec in Hx; subst; reflexivity]).
  destruct (toWord_ok _ Bz) as [ET OT].
  assert (Hd4 : size / 4 <= 256) by (apply Nat.div_le_upper_bound; lia).
  split; cbn [fst c_d c_L c_r c_k c_K md6_default md_d md_L md_key md_r]; auto; try lia.
  - unfold md6_rounds, m6_tmax. destruct (Nat.ltb_spec 0 (length key)); [|destruct (Nat.ltb_spec (40 + size / 4) 0); [lia|reflexivity]].
    destruct (Nat.ltb_spec (40 + size / 4) 80); lia.
  - unfold m6_toWord. rewrite map_length, chunks_length, app_length. unfold zeros. rewrite repeat_length. replace (length key + (64 - length key)) with 64 by lia. reflexivity.
  - unfold md6_rounds. destruct (0 <? length key); lia.
Qed.

(** ** C82 -- every cut of the message gives the same digest, for every digest size up to 1024 bits, key and number
    of levels; for messages of less than one block it is MD6. *)
Theorem C82_md6_histories : forall size back kl L, kl <= length back -> isbytes back -> size <= 1024 -> L < 256 ->
  forall ops, Forall op_bytes ops -> (ops_total ops < 2 ^ 64)%N ->
  run (m6_impl (fst (m6_newcfg size back kl L))) m6_new ops = ideal_run (md6_actual (md6_default size (firstn 64 (firstn kl back)) L)) [] ops.
Proof.
  intros size back kl L Hkl Bb Hs HL ops Ho Ht. pose proof (newcfg_ok size back kl L Hkl Bb Hs HL) as H. set (P := md6_default size (firstn 64 (firstn kl back)) L) in *. set (c := fst (m6_newcfg size back kl L)) in *.
  assert (HdP : md_d P <= 1024) by exact Hs. clearbody c P.
  apply (run_refines_total _ (m6_impl c) (md6_actual P) (mrel P) (2 ^ 64)%N); auto.
  - intros d m p Bp _ R. exact (proj1 (write_rel c P d m p H Bp R)).
  - intros d m p Bp _ R. exact (proj2 (write_rel c P d m p H Bp R)).
  - intros d m i Bm R. cbn [m6_impl i_sum snd]. unfold m6_sum. rewrite (checkSum_ok c P d m) by auto. reflexivity.
  - intros d m _. apply new_rel.
  - apply new_rel.
Qed.
Lemma round_length : forall k h, length (snd (md6_round (k, h))) = 16 + length h.
Proof. intros k h. unfold md6_round, md6_shifts. cbn [snd fold_left]. rewrite !step_length. reflexivity. Qed.
Lemma f_length : forall r l, 1 <= r -> length (md6_f r l) = 16.
Proof.
  intros r l Hr. unfold md6_f. rewrite rev_length, firstn_length. apply Nat.min_l. destruct r as [|r]; [lia|].
  change (Nat.iter (S r) md6_round (81985529216486895%N, rev l)) with (md6_round (Nat.iter r md6_round (81985529216486895%N, rev l))).
  destruct (Nat.iter r md6_round (81985529216486895%N, rev l)) as [k h]. rewrite round_length. lia.
Qed.
(** MD6 itself on short messages. *)
Lemma concat8_length : forall l, length (concat (map (be_bytes 8) l)) = length l * 8.
Proof. intros. apply concat_be_length. Qed.
Theorem C82_md6_short_is_MD6 : forall P m, 1 <= md_L P -> 1 <= md_r P -> md_d P mod 8 = 0 -> length m < 512 -> md6_actual P m = md6 P m.
Proof.
  intros P m HL Hr Hd Hm. unfold md6_actual, md6, md6_chain. rewrite (chunks_short N 512 m) by exact Hm. rewrite (rest_short N 512 m) by exact Hm.
  cbn [md6_links length]. change (0 + 1) with 1. cbn [md6_tree]. destruct (Nat.eqb_spec 1 (md_L P + 1)) as [E|_]; [lia|].
  assert (EB : md6_blocks 512 m = [m]).
  { unfold md6_blocks. rewrite (chunks_short N 512 m), (rest_short N 512 m) by exact Hm. destruct (Nat.ltb_spec 0 (length m)); [reflexivity|]. destruct (Nat.eqb_spec (length m) 0); [reflexivity|lia]. }
  assert (ELk : md6_link P 1 [] m true (N.of_nat (length m)) = md6_call P 1 0 1 (md6_padbits 512 m) (words64 (md6_padded 512 m))).
  { unfold md6_link. destruct (Nat.leb_spec 1 (md_L P)); [|lia]. destruct (N.ltb_spec 512 (N.of_nat (length m))); [lia|]. cbn [andb app].
    change (N.of_nat 1 mod 256)%N with 1%N. f_equal. assert (Lw : length (words64 (md6_padded 512 m)) = 64) by (rewrite words64_length, padded_len by lia; reflexivity).
    apply firstn_app_len. exact Lw. }
  rewrite ELk. assert (EPr : md6_PAR P 1 m = concat (map (be_bytes 8) (md6_call P 1 0 1 (md6_padbits 512 m) (words64 (md6_padded 512 m))))).
  { unfold md6_PAR. rewrite EB. cbn [length Nat.eqb seq combine map fst snd]. change (N.of_nat 0) with 0%N. change (N.of_nat 1) with 1%N. cbn [concat]. apply app_nil_r. }
  rewrite EPr. set (C := md6_call P 1 0 1 (md6_padbits 512 m) (words64 (md6_padded 512 m))).
  assert (LC : length C = 16) by (unfold C, md6_call; now apply f_length). clearbody C. cbv zeta. rewrite concat8_length, LC. cbn [Nat.mul Nat.add Nat.eqb].
  unfold md6_cut, md6_last. rewrite Hd. cbn [Nat.eqb]. f_equal. f_equal. pose proof (Nat.div_mod (md_d P) 8 ltac:(lia)) as DM. rewrite Hd in DM.
  rewrite DM at 1. rewrite Nat.add_0_r, (Nat.mul_comm 8), Nat.div_add_l by lia. change (7 / 8) with 0. lia.
Qed.
(** From one block on it is something else: 512 zero bytes, the default 256-bit digest. *)
Theorem C82_md6_one_block_refuted : nth 1 (run (m6_impl (fst (m6_newcfg 256 [] 0 64))) m6_new [Write (zeros 512); Sum []]) (Wrote 0) <> Summed (md6 (md6_default 256 [] 64) (zeros 512)).
Proof. vm_compute. discriminate. Qed.
(** With levels = 0 (the sequential mode) even a one-byte message is wrong. *)
Theorem C82_md6_sequential_refuted : nth 1 (run (m6_impl (fst (m6_newcfg 16 [] 0 0))) m6_new [Write [1%N]; Sum []]) (Wrote 0) <> Summed (md6 (md6_default 16 [] 0) [1%N]).
Proof. vm_compute. discriminate. Qed.

(** ** C50 -- FALSE: every byte of the message past the first block at an offset of at least 384 in its block is ignored. *)
Lemma call_data : forall P lv z p C C' X X', C = C' -> firstn 48 X = firstn 48 X' -> length C = 16 -> md6_call P lv 0 z p (firstn 64 (C ++ X)) = md6_call P lv 0 z p (firstn 64 (C' ++ X')).
Proof.
  intros P lv z p C C' X X' <- E L. f_equal. rewrite !firstn_app, L, (firstn_all2 (n := 64) C) by lia. f_equal. exact E.
Qed.
Lemma firstn_chunks : forall (l : list N) k, firstn k (chunks 8 l) = chunks 8 (firstn (8 * k) l).
Proof.
  intros l. pattern l. apply (chunk_ind N 8); [lia| |].
  - intros h Hh k. rewrite (chunks_short N 8 h) by exact Hh. rewrite firstn_nil. symmetry. apply chunks_short. rewrite firstn_length. lia.
  - intros h Hh IH k. destruct k as [|k]; [reflexivity|]. rewrite (chunks_cons N 8 h) by lia. cbn [firstn]. rewrite IH.
    rewrite (chunks_cons N 8 (firstn (8 * S k) h)) by (try lia; rewrite firstn_length; lia). rewrite firstn_firstn, Nat.min_l by lia. f_equal.
    rewrite skipn_firstn_comm. f_equal. replace (8 * S k - 8) with (8 * k) by lia. reflexivity.
Qed.
Lemma words_first : forall X X' zs, firstn 384 X = firstn 384 X' -> 384 <= length X -> 384 <= length X' -> firstn 48 (words64 X ++ zs) = firstn 48 (words64 X' ++ zs).
Proof.
  intros X X' zs E L L'.
  assert (K : forall Y, 384 <= length Y -> firstn 48 (words64 Y ++ zs) = map be_val (chunks 8 (firstn 384 Y))).
  { intros Y HY. rewrite firstn_app. assert (Lw : 48 <= length (words64 Y)) by (rewrite words64_length; apply (Nat.div_le_lower_bound (length Y) 8 48); lia).
    replace (48 - length (words64 Y)) with 0 by lia. rewrite firstn_O, app_nil_r. unfold words64. rewrite firstn_map, (firstn_chunks Y 48). reflexivity. }
  rewrite !K by assumption. now rewrite E.
Qed.
Definition same384 (b b' : list N) : Prop := length b = length b' /\ firstn 384 b = firstn 384 b'.
Lemma link_same : forall P j C b b' final t, length C = 16 -> length b <= 512 -> same384 b b' -> md6_link P j C b final t = md6_link P j C b' final t.
Proof.
  intros P j C b b' final t LC Lb [L E]. unfold md6_link, pad384, md6_padbits. rewrite <- L.
  set (size := if j <=? md_L P then 512 else if length b <=? 384 then 384 else 768).
  assert (Hs : length b <= size /\ 384 <= size) by (unfold size; destruct (j <=? md_L P); [lia|]; destruct (Nat.leb_spec (length b) 384); lia).
  apply call_data; auto. apply words_first; [|rewrite padded_len; lia|rewrite padded_len; lia].
  unfold md6_padded. rewrite !firstn_app, <- L. f_equal. exact E.
Qed.
Lemma link_length : forall P j C b final t, 1 <= md_r P -> length (md6_link P j C b final t) = 16.
Proof. intros. unfold md6_link, md6_call. now apply f_length. Qed.
Lemma links_same : forall P, 1 <= md_r P -> forall bl bl', Forall2 same384 bl bl' -> Forall (fun b => length b <= 512) bl -> forall j C, length C = 16 -> md6_links P j C bl = md6_links P j C bl'.
Proof.
  intros P Hr bl bl' F. induction F as [|b b' t t' S F IH]; intros B j C LC; [reflexivity|]. inversion B; subst. cbn [md6_links]. rewrite (link_same P j C b b') by assumption.
  apply IH; auto. now apply link_length.
Qed.
Lemma links_length : forall P, 1 <= md_r P -> forall bl j C, length C = 16 -> length (md6_links P j C bl) = 16.
Proof. intros P Hr. induction bl as [|b t IH]; intros j C LC; [exact LC|]. cbn [md6_links]. apply IH. now apply link_length. Qed.
Lemma F2len : forall a b, Forall2 same384 a b -> length a = length b.
Proof. intros a b F. induction F; cbn [length]; auto. Qed.
Lemma nth_agree : forall (a b : list N), length a = length b -> (forall i, i < length a -> nth i a 0%N = nth i b 0%N) -> a = b.
Proof. intros a b L H. apply (nth_ext _ _ 0%N 0%N); auto. Qed.
Lemma nth_firstn_lt : forall (l : list N) k i, i < k -> nth i (firstn k l) 0%N = nth i l 0%N.
Proof. induction l as [|x l IH]; intros [|k] [|i] H; try lia; try reflexivity. cbn [firstn nth]. apply IH. lia. Qed.
Lemma nth_skipn_add : forall (l : list N) k i, nth i (skipn k l) 0%N = nth (k + i) l 0%N.
Proof. induction l as [|x l IH]; intros [|k] i; try reflexivity; [now destruct i|]. cbn [skipn nth Nat.add]. apply IH. Qed.
(** all blocks but the first *)
Lemma tails_same : forall m m' q, length m = length m' -> (forall i, i mod 512 < 384 -> nth (q + i) m 0%N = nth (q + i) m' 0%N) -> 
  Forall2 same384 (chunks 512 (skipn q m)) (chunks 512 (skipn q m')) /\ same384 (rest 512 (skipn q m)) (rest 512 (skipn q m')).
Proof.
  intros m m' q L. remember (length m) as n eqn:En. revert q. 
  assert (G : forall f q, length m - q < f -> (forall i, i mod 512 < 384 -> nth (q + i) m 0%N = nth (q + i) m' 0%N) ->
    Forall2 same384 (chunks 512 (skipn q m)) (chunks 512 (skipn q m')) /\ same384 (rest 512 (skipn q m)) (rest 512 (skipn q m'))).
  { induction f as [|f IH]; intros q Hf H; [lia|].
    assert (S384 : forall k, k <= 512 -> same384 (firstn k (skipn q m)) (firstn k (skipn q m'))).
    { intros k Hk. split; [rewrite !firstn_length, !skipn_length; lia|]. rewrite !firstn_firstn. apply nth_agree; [rewrite !firstn_length, !skipn_length; lia|].
      intros i Hi. rewrite firstn_length, skipn_length in Hi. rewrite !nth_firstn_lt, !nth_skipn_add by lia. apply H. rewrite Nat.mod_small; lia. }
    destruct (Nat.ltb_spec (length (skipn q m)) 512) as [G|G]; rewrite skipn_length in G.
    - rewrite (chunks_short N 512 (skipn q m)), (chunks_short N 512 (skipn q m')), (rest_short N 512 (skipn q m)), (rest_short N 512 (skipn q m')) by (rewrite skipn_length; lia).
      split; [constructor|]. specialize (S384 512 ltac:(lia)). rewrite !firstn_all2 in S384 by (rewrite skipn_length; lia). exact S384.
    - rewrite (chunks_cons N 512 (skipn q m)), (chunks_cons N 512 (skipn q m')), (rest_cons N 512 (skipn q m)), (rest_cons N 512 (skipn q m')) by (try lia; rewrite skipn_length; lia).
      rewrite !skipn_skipn. destruct (IH (q + 512) ltac:(lia)) as [F R].
      { intros i Hi. replace (q + 512 + i) with (q + (i + 512)) by lia. apply H. replace (i + 512) with (i + 1 * 512) by lia. rewrite Nat.mod_add by lia. exact Hi. }
      split; [constructor; [apply S384; lia|exact F]|exact R]. }
  intros q. apply (G (S (length m))). lia.
Qed.
Theorem C50_md6_ignored_bytes : forall P m m', 1 <= md_r P -> length m = length m' -> (forall i, ~ ignored i -> nth i m 0%N = nth i m' 0%N) -> md6_actual P m = md6_actual P m'.
Proof.
  intros P m m' Hr L H. unfold md6_actual. do 3 f_equal. unfold md6_chain. rewrite <- L.
  assert (F512 : firstn 512 m = firstn 512 m').
  { apply nth_agree; [rewrite !firstn_length; lia|]. intros i Hi. rewrite firstn_length in Hi. rewrite !nth_firstn_lt by lia. apply H. unfold ignored. lia. }
  destruct (Nat.ltb_spec (length m) 512) as [G|G].
  - rewrite !firstn_all2 in F512 by lia. subst m'. reflexivity.
  - rewrite (chunks_cons N 512 m), (chunks_cons N 512 m'), (rest_cons N 512 m), (rest_cons N 512 m') by lia. rewrite <- F512. cbn [length md6_links].
    destruct (tails_same m m' 512 L) as [F R].
    { intros i Hi. apply H. unfold ignored. intros [_ K]. replace (512 + i) with (i + 1 * 512) in K by lia. rewrite Nat.mod_add in K by lia. lia. }
    rewrite (F2len _ _ F). set (C1 := md6_link P 1 [] (firstn 512 m) false 0). assert (L1 : length C1 = 16) by now apply link_length.
    rewrite (links_same P Hr _ _ F) by (auto; apply Forall_forall; intros b Hb; pose proof (proj1 (Forall_forall _ _) (chunks_all_length N 512 (skipn 512 m) ltac:(lia)) b Hb) as K; cbv beta in K; lia).
    apply link_same; [now apply links_length| |exact R]. pose proof (rest_length_lt N 512 (skipn 512 m) ltac:(lia)). lia.
Qed.

(** Any two histories whose messages differ in such bytes only are answered alike. *)
Theorem C50_md6_bytes_ignored_refuted : forall size back kl L, kl <= length back -> isbytes back -> size <= 1024 -> L < 256 ->
  exists m m', isbytes m /\ isbytes m' /\ m <> m' /\
    run (m6_impl (fst (m6_newcfg size back kl L))) m6_new [Write m; Sum []] = run (m6_impl (fst (m6_newcfg size back kl L))) m6_new [Write m'; Sum []].
Proof.
  intros size back kl L H1 H2 H3 H4. exists (zeros 896 ++ zeros 1), (zeros 896 ++ [1%N]).
  assert (Bz : forall n, isbytes (zeros n)) by (intros n; unfold zeros; apply Forall_forall; intros x Hx; apply repeat_spec in Hx; subst; reflexivity).
  assert (B1 : isbytes (zeros 896 ++ zeros 1)) by (apply isbytes_app; split; apply Bz).
  assert (B2 : isbytes (zeros 896 ++ [1%N])) by (apply isbytes_app; split; [apply Bz|repeat constructor]).
  split; [exact B1|]. split; [exact B2|]. split; [intros E; apply app_inv_head in E; discriminate E|].
  assert (T1 : (ops_total [Write (zeros 896 ++ zeros 1); Sum []] < 2 ^ 64)%N) by reflexivity.
  assert (T2 : (ops_total [Write (zeros 896 ++ [1%N]); Sum []] < 2 ^ 64)%N) by reflexivity.
  rewrite (C82_md6_histories size back kl L H1 H2 H3 H4 [Write (zeros 896 ++ zeros 1); Sum []] ltac:(constructor; [exact B1|constructor; [exact I|constructor]]) T1).
  rewrite (C82_md6_histories size back kl L H1 H2 H3 H4 [Write (zeros 896 ++ [1%N]); Sum []] ltac:(constructor; [exact B2|constructor; [exact I|constructor]]) T2).
  assert (E : md6_actual (md6_default size (firstn 64 (firstn kl back)) L) (zeros 896 ++ zeros 1) = md6_actual (md6_default size (firstn 64 (firstn kl back)) L) (zeros 896 ++ [1%N])).
  { apply C50_md6_ignored_bytes; [cbn [md6_default md_r]; unfold md6_rounds; destruct (0 <? _); lia|reflexivity|].
    intros i Hi. destruct (Nat.lt_ge_cases i 896) as [G|G]; [rewrite !app_nth1 by (unfold zeros; rewrite repeat_length; exact G); reflexivity|].
    destruct (Nat.eq_dec i 896) as [->|G2]; [exfalso; apply Hi; unfold ignored; split; [lia|]; change (896 mod 512) with 384; lia|].
    rewrite !nth_overflow by (rewrite app_length; unfold zeros; rewrite !repeat_length; cbn [length]; lia). reflexivity. }
  cbn [ideal_run app]. rewrite E. rewrite !app_length. reflexivity.
Qed.

(** ** C83 -- FALSE: NewWithKey may write into the caller's memory, past the end of the key it was given. *)
Lemma keypad_back : forall t fuel key tail, length key + t = 64 -> t < fuel ->
  fst (m6_keypad fuel false (key ++ tail) key) = key ++ zeros (Nat.min t (length tail)) ++ skipn t tail.
Proof.
  assert (Own : forall fuel back key, fst (m6_keypad fuel true back key) = back).
  { induction fuel as [|fuel IH]; intros back key; [reflexivity|]. cbn [m6_keypad orb]. destruct (length key <? 64); [apply IH|reflexivity]. }
  induction t as [|t IH]; intros fuel key tail L Hf; (destruct fuel as [|fuel]; [lia|]); cbn [m6_keypad].
  - destruct (Nat.ltb_spec (length key) 64); [lia|]. reflexivity.
  - destruct (Nat.ltb_spec (length key) 64); [|lia]. cbn [orb]. rewrite app_length. destruct tail as [|y tail].
    + rewrite Nat.add_0_r, Nat.eqb_refl. rewrite Own. cbn. reflexivity.
    + destruct (Nat.eqb_spec (length key + length (y :: tail)) (length key)) as [E|_]; [cbn [length] in E; lia|]. cbn [length]. rewrite upd_app_at.
      replace (key ++ 0%N :: tail) with ((key ++ [0%N]) ++ tail) by (rewrite <- app_assoc; reflexivity). rewrite IH; [|rewrite app_length; cbn; lia|lia].
      rewrite <- app_assoc. reflexivity.
Qed.
Lemma keypad_full : forall fuel own back key, length key = 64 -> m6_keypad fuel own back key = (back, key).
Proof. intros [|fuel] own back key L; [reflexivity|]. cbn [m6_keypad]. rewrite L. reflexivity. Qed.
(** Exactly: the bytes of the backing array between the end of the key and offset 64 are set to zero. *)
Theorem C83_md6_key_memory_exact : forall size back kl L, kl <= length back ->
  snd (m6_newcfg size back kl L) = if kl <? 64 then firstn kl back ++ zeros (Nat.min (64 - kl) (length back - kl)) ++ skipn 64 back else back.
Proof.
  intros size back kl L H. unfold m6_newcfg. assert (Lk : length (firstn kl back) = kl) by (rewrite firstn_length; lia). rewrite Lk.
  destruct (Nat.ltb_spec kl 64) as [G|G].
  - destruct (Nat.ltb_spec 64 kl); [lia|]. pose proof (keypad_back (64 - kl) 65 (firstn kl back) (skipn kl back) ltac:(lia) ltac:(lia)) as K. rewrite firstn_skipn in K.
    destruct (m6_keypad 65 false back (firstn kl back)) as [b k]. cbn [fst snd] in *. rewrite K. rewrite skipn_length, skipn_skipn. do 3 f_equal. lia.
  - set (key := if 64 <? kl then firstn 64 (firstn kl back) else firstn kl back). assert (L64 : length key = 64) by (unfold key; destruct (Nat.ltb_spec 64 kl); [rewrite firstn_length|]; lia).
    clearbody key. rewrite keypad_full by exact L64. reflexivity.
Qed.
Theorem C83_md6_key_memory_refuted : exists back kl, kl <= length back /\ snd (m6_newcfg 256 back kl 64) <> back.
Proof. exists [1; 2; 3; 4]%N, 2. split; [cbn; lia|]. vm_compute. discriminate. Qed.
(** It is unchanged when the key slice has no spare capacity, or at least 64 bytes. *)
Theorem C83_md6_key_memory_full : forall size back kl L, kl = length back \/ 64 <= kl <= length back -> snd (m6_newcfg size back kl L) = back.
Proof.
  intros size back kl L H. rewrite C83_md6_key_memory_exact by lia. destruct (Nat.ltb_spec kl 64) as [G|G]; [|reflexivity]. assert (kl = length back) as -> by lia.
  rewrite firstn_all, Nat.sub_diag, Nat.min_0_r, (skipn_all2 (n := 64) back) by lia. apply app_nil_r.
Qed.

Lemma inner_len : forall K i l A, length (fold_left (m6_inner K i) l A) = length A.
Proof. intros K i l. induction l as [|s l IH]; intros A; [reflexivity|]. rewrite fold_left_cons, IH. apply upd_length. Qed.
Lemma outer_len : forall KA j, length (snd (m6_outer KA j)) = length (snd KA).
Proof. intros [K A] j. exact (inner_len K (m6_n + 16 * j) (seq 0 16) A). Qed.
Lemma outers_len : forall l KA, length (snd (fold_left m6_outer l KA)) = length (snd KA).
Proof. induction l as [|j l IH]; intros KA; [reflexivity|]. rewrite fold_left_cons, IH. apply outer_len. Qed.
Lemma f_len : forall r input, 1 <= r -> length (m6_f r input) = 16.
Proof.
  intros r input Hr. unfold m6_f. cbv zeta. rewrite skipn_length, outers_len. unfold snd. rewrite copy_at_length by lia. rewrite repeat_length. unfold m6_n. lia.
Qed.
Lemma process_len : forall c ell C M len final, 1 <= c_r c -> length (snd (m6_process c ell C M len final)) = 16.
Proof.
  intros c ell C M len final Hr. unfold m6_process. cbn [snd]. destruct (c_L c <? ell + 1).
  - unfold m6_seq. destruct (m6_padloop 385 384 M 0) as [M' P']. destruct final; apply f_len; exact Hr.
  - unfold m6_par. destruct (m6_padloop 513 512 M 0) as [M' P']. apply f_len; exact Hr.
Qed.
Lemma newcfg_d : forall size back kl L, c_d (fst (m6_newcfg size back kl L)) = size.
Proof. intros. unfold m6_newcfg. generalize (if 64 <? length (firstn kl back) then firstn 64 (firstn kl back) else firstn kl back). intros key. destruct (m6_keypad 65 false back key) as [b k]. reflexivity. Qed.
Lemma newcfg_r : forall size back kl L, 1 <= c_r (fst (m6_newcfg size back kl L)).
Proof.
  intros. unfold m6_newcfg. generalize (if 64 <? length (firstn kl back) then firstn 64 (firstn kl back) else firstn kl back). intros key. destruct (m6_keypad 65 false back key) as [b k]. cbn [fst c_r]. unfold m6_tmax.
  destruct (0 <? length key); [destruct (Nat.ltb_spec (40 + size / 4) 80); lia|]. destruct (Nat.ltb_spec (40 + size / 4) 0); lia.
Qed.
Lemma crop_none : forall size h, length h = 128 -> (m6_crop size h = None <-> 1024 < size).
Proof.
  intros size h Lh. unfold m6_crop. cbv zeta. rewrite Lh.
  destruct (Nat.ltb_spec 128 ((size + 7) / 8)) as [G|G].
  - split; [intros _|reflexivity]. apply Nat.lt_nge. intros K. assert ((size + 7) / 8 < 129) by (apply Nat.div_lt_upper_bound; lia). lia.
  - split; [discriminate|]. intros K. assert (129 <= (size + 7) / 8) by (apply Nat.div_le_lower_bound; lia). lia.
Qed.
Lemma sum_none : forall c d i, 1 <= c_r c -> (m6_sum c d i = None <-> 1024 < c_d c).
Proof.
  intros c d i Hr. unfold m6_sum, m6_checkSum. pose proof (process_len c (m_ell d) (m_C d) (firstn (m_nx d) (m_x d)) (m_len d) true Hr) as L.
  destruct (m6_process c (m_ell d) (m_C d) (firstn (m_nx d) (m_x d)) (m_len d) true) as [e C]. cbn [snd] in L.
  pose proof (crop_none (c_d c) (m6_fromWord C) ltac:(rewrite fromWord_len, L; reflexivity)) as K. destruct (m6_crop (c_d c) (m6_fromWord C)); [|exact K].
  split; [discriminate|]. intros G. apply K in G. discriminate G.
Qed.
(** ** C84 -- the constructors accept any size; Sum panics, in every reachable state, exactly for sizes above 1024. *)
Theorem C84_md6_sum_panics_iff : forall size back kl L ops i, let c := fst (m6_newcfg size back kl L) in
  m6_sum c (exec (m6_impl c) m6_new ops) i = None <-> 1024 < size.
Proof.
  intros size back kl L ops i c. rewrite <- (newcfg_d size back kl L). apply sum_none. apply newcfg_r.
Qed.
(** The model agrees with the project's test vector, and a non-trivial history meets the hypotheses. *)
Example md6_model_kat : run (m6_impl (fst (m6_newcfg 256 [] 0 64))) m6_new [Write [0x6d; 0x64]%N; Write [0x36; 0x20; 0x46; 0x54; 0x57]%N; Sum []]
  = [Wrote 2; Wrote 5; Summed (be_bytes 32 0x7bfaa624f661a683be2a3b2007493006a30a7845ee1670e499927861a8e74cce)].
Proof. vm_compute. reflexivity. Qed.
Example md6_key_meets : 3 <= length [7; 8; 9; 1; 1; 1]%N /\ isbytes [7; 8; 9; 1; 1; 1]%N /\ snd (m6_newcfg 256 [7; 8; 9; 1; 1; 1]%N 3 64) = [7; 8; 9; 0; 0; 0]%N.
Proof. split; [cbn; lia|]. split; [repeat constructor|]. vm_compute. reflexivity. Qed.
