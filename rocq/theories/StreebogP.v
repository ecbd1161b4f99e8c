(** StreebogP.v -- refinement proofs for the streebog package (model in Gost3411.v). *)
From Coq Require Import String List NArith Arith Lia Bool.
From Verif Require Import Base Words HashAPI Buf MD Refine Kupyna StreebogTab SpecStreebog Gost3411 Gost3411P.
Import ListNotations.
Opaque st_mulA gs_cache_tab sb_T st_pi gs_pi gs_c st_C.

Definition w8s (w : list N) : Prop := length w = 8 /\ Forall is64 w.
Lemma kwm : forall b, kwords b = map le_val (chunks 8 b).
Proof.
  intros. unfold kwords, chunks. rewrite map_map. apply map_ext. intros i. unfold slice. replace (8 * i + 8 - 8 * i) with 8 by lia. now rewrite (Nat.mul_comm i 8).
Qed.
Lemma kbytes_len : forall w, length (kbytes w) = 8 * length w.
Proof. intros. unfold kbytes. rewrite concat_le_length. lia. Qed.
Lemma kbytes_bytes : forall w, isbytes (kbytes w).
Proof. intros. unfold kbytes. induction w as [|x w IH]; [constructor|]. cbn [map concat]. apply isbytes_app. split; [apply le_bytes_isbytes|exact IH]. Qed.
Lemma at_kbytes : forall w j i, j < length w -> i < 8 -> at_ (kbytes w) (8 * j + i) = at_ (le_bytes 8 (at_ w j)) i.
Proof.
  induction w as [|x w IH]; intros j i Hj Hi; [simpl in Hj; lia|]. unfold kbytes. cbn [map concat]. fold (kbytes w).
  pose proof (le_bytes_length 8 x) as L. set (b := le_bytes 8 x) in *. unfold at_ at 1. destruct j as [|j].
  - rewrite app_nth1 by lia. rewrite Nat.mul_0_r, Nat.add_0_l. reflexivity.
  - rewrite app_nth2 by lia. replace (8 * S j + i - length b) with (8 * j + i) by lia. cbn [length] in Hj. apply (IH j i); lia.
Qed.
Lemma kbytes_kwords : forall m n, length m = 8 * n -> isbytes m -> kbytes (kwords m) = m.
Proof.
  intros m n L H. rewrite kwm. unfold kbytes. rewrite map_map.
  rewrite (map_ext_in _ (fun c => c)). 2:{ intros c Hc. assert (Lc : length c = 8).
    { pose proof (chunks_all_length _ 8 m ltac:(lia)) as F. rewrite Forall_forall in F. now apply F. }
    rewrite <- Lc at 1. apply le_bytes_le_val. unfold chunks in Hc. apply in_map_iff in Hc. destruct Hc as (i & <- & _). now apply isbytes_firstn, isbytes_skipn. }
  rewrite map_id. pose proof (chunks_concat _ 8 m ltac:(lia)) as E. rewrite rest_0 in E by (first [lia | rewrite L, Nat.mul_comm; apply Nat.mod_mul; lia]). rewrite app_nil_r in E. exact E.
Qed.
Lemma kwords_w8s : forall m, length m = 64 -> isbytes m -> w8s (kwords m).
Proof.
  intros m L H. rewrite kwm. split; [rewrite map_length, chunks_length, L; reflexivity|].
  apply Forall_map, Forall_forall. intros c Hc. assert (Lc : length c = 8).
  { pose proof (chunks_all_length _ 8 m ltac:(lia)) as F. rewrite Forall_forall in F. now apply F. }
  unfold chunks in Hc. apply in_map_iff in Hc. destruct Hc as (i & <- & _).
  assert (Bc : isbytes (firstn 8 (skipn (i * 8) m))) by (now apply isbytes_firstn, isbytes_skipn).
  pose proof (le_val_lt _ Bc) as K. rewrite Lc in K. exact K.
Qed.
Lemma kwords_kbytes : forall w, Forall is64 w -> kwords (kbytes w) = w.
Proof.
  intros w H. rewrite kwm. induction w as [|x w IH]; [reflexivity|]. unfold kbytes. cbn [map concat]. fold (kbytes w).
  rewrite chunks_cons by (rewrite ?app_length, ?le_bytes_length; lia). rewrite firstn_app_len, skipn_app_len by apply le_bytes_length.
  cbn [map]. rewrite IH by (now apply Forall_inv_tail in H). f_equal. rewrite le_val_le_bytes. apply N.mod_small. apply (Forall_inv H).
Qed.
Lemma at_is64 : forall w i, Forall is64 w -> is64 (at_ w i).
Proof.
  intros w i H. unfold at_. destruct (Nat.lt_ge_cases i (length w)) as [Hl|Hl].
  - rewrite Forall_forall in H. apply H, nth_In, Hl. - rewrite nth_overflow by exact Hl. reflexivity.
Qed.
Lemma sb_xor_ok : forall a b, length a = 8 -> length b = 8 -> kbytes (sb_xor a b) = st_xor (kbytes a) (kbytes b).
Proof.
  intros a b La Lb. apply list_eq_at.
  { rewrite kbytes_len, st_xor_len. unfold sb_xor. now rewrite map_length, seq_length. }
  rewrite kbytes_len. unfold sb_xor at 1. rewrite map_length, seq_length. intros i Hi. unfold st_xor. rewrite at_map_seq by exact Hi.
  pose proof (Nat.div_mod i 8 ltac:(lia)) as E. pose proof (Nat.mod_upper_bound i 8 ltac:(lia)) as Hm.
  assert (Hd : i / 8 < 8) by (apply Nat.div_lt_upper_bound; lia). rewrite E. set (j := i / 8) in *. set (k := i mod 8) in *. clearbody j k.
  rewrite !at_kbytes by (first [lia | unfold sb_xor; rewrite map_length, seq_length; lia]).
  unfold sb_xor. rewrite at_map_seq by exact Hd. rewrite !at_le_bytes by exact Hm. apply w8_shiftr_lxor.
Qed.
Lemma sb_xor_w8s : forall a b, w8s a -> w8s b -> w8s (sb_xor a b).
Proof.
  intros a b [_ Ha] [_ Hb]. split; [unfold sb_xor; now rewrite map_length, seq_length|]. unfold sb_xor. apply Forall_map, Forall_forall. intros i _.
  apply lxor_is64; now apply at_is64.
Qed.
Lemma sb_lps_ok : forall w, length w = 8 -> kbytes (sb_lps w) = st_LPS (kbytes w) /\ w8s (sb_lps w).
Proof.
  intros w Lw. pose proof (kbytes_len w) as Lx. rewrite Lw in Lx. pose proof (kbytes_bytes w) as Bx. unfold sb_lps. cbv zeta. set (x := kbytes w) in *. clearbody x.
  assert (G : forall i, i < 8 ->
    (let t j := at_ (nth j sb_T []) (N.to_nat (at_ x (8 * j + i))) in
     N.lxor (N.lxor (N.lxor (N.lxor (N.lxor (N.lxor (N.lxor (t 0) (t 1)) (t 2)) (t 3)) (t 4)) (t 5)) (t 6)) (t 7))
    = st_mulA (le_val (slice (st_P (st_S x)) (8 * i) (8 * i + 8)))).
  { intros i Hi. cbv zeta. rewrite slice8 by (rewrite st_P_len; lia).
    rewrite le_val8 by (repeat constructor; apply at_isbyte, st_PS_bytes).
    assert (P : forall k, k < 8 -> at_ (st_P (st_S x)) (8 * i + k) = at_ st_pi (N.to_nat (at_ x (8 * k + i)))).
    { intros k Hk. unfold st_P. rewrite at_map_seq by lia. rewrite (Nat.mul_comm 8 i), (Nat.add_comm (i * 8)), Nat.mod_add, Nat.div_add, Nat.mod_small, Nat.div_small by lia. rewrite Nat.add_0_l.
      unfold st_S, at_ at 1. rewrite (nth_indep _ 0%N ((fun b => at_ st_pi (N.to_nat b)) 0%N)) by (rewrite map_length; lia).
      rewrite (map_nth (fun b => at_ st_pi (N.to_nat b))). reflexivity. }
    rewrite !P by lia. rewrite !mulA_lxor, !T_ok by (try lia; apply at_isbyte; exact Bx). reflexivity. }
  split.
  - unfold st_LPS, st_L. rewrite (chunks_seq _ 8) by apply st_P_len. unfold kbytes. rewrite !map_map. f_equal. apply map_ext_in. intros i Hi. apply in_seq in Hi. f_equal. apply (G i). lia.
  - split; [now rewrite map_length, seq_length|]. apply Forall_map, Forall_forall. intros i Hi. apply in_seq in Hi.
    pose proof (G i ltac:(lia)) as E. cbv zeta in E. rewrite E. apply mulA_is64.
Qed.
Lemma st_xor_comm : forall a b, st_xor a b = st_xor b a.
Proof. intros. unfold st_xor. apply map_ext. intros. apply N.lxor_comm. Qed.
Opaque st_LPS sb_lps.
Lemma sb_e_ok : forall K m, w8s K -> length m = 64 -> isbytes m -> kbytes (sb_e K m) = st_E (kbytes K) m /\ w8s (sb_e K m).
Proof.
  intros K m HK Lm Bm. unfold sb_e, st_E. pose proof (kbytes_kwords m 8 Lm Bm) as Em. pose proof (kwords_w8s m Lm Bm) as Hw. set (w := kwords m) in *. rewrite <- Em. clearbody w. clear m Lm Bm Em.
  destruct rc_check as [Rc Rl]. assert (Lr : length sb_RC = 12) by reflexivity.
  assert (G : forall (r : list (list N)) (cs : list N) K k tmp mm n, (forall i, i < length r -> nth (n + i) sb_RC [] = nth i r []) -> map kbytes r = map st_num cs -> Forall w8s r -> w8s K -> w8s tmp -> kbytes tmp = k -> kbytes K = st_xor k mm ->
    let o := fold_left (fun '(K, tmp) i => let K := sb_lps K in let tmp := sb_xor tmp (nth i sb_RC []) in let tmp := sb_lps tmp in (sb_xor K tmp, tmp)) (seq n (length r)) (K, tmp) in
    let q := fold_left (fun '(k, m) c => (st_LPS (st_xor k (st_num c)), st_LPS (st_xor k m))) cs (k, mm) in
    kbytes (fst o) = st_xor (fst q) (snd q) /\ w8s (fst o)).
  { induction r as [|c r IH]; intros cs K0 k0 t0 m0 n Hn Ec Fr HK0 Ht0 Ek0 EK0; (destruct cs as [|c' cs]; [try (exfalso; apply (f_equal (@length _)) in Ec; rewrite !map_length in Ec; discriminate Ec)|try (exfalso; apply (f_equal (@length _)) in Ec; rewrite !map_length in Ec; discriminate Ec)]).
    - cbn [length seq fold_left fst snd]. auto.
    - cbn [length]. rewrite seq_cons. cbv zeta. rewrite !fold_left_cons. cbv beta iota zeta.
      apply map_eq_cons in Ec. destruct Ec as (c0 & cs0 & Ecs & E1 & E2). injection Ecs as <- <-.
      pose proof (Forall_inv Fr) as Hc. apply Forall_inv_tail in Fr.
      pose proof (Hn 0 ltac:(simpl; lia)) as H0. rewrite Nat.add_0_r in H0. cbn [nth] in H0. rewrite H0.
      pose proof (sb_xor_w8s t0 c Ht0 Hc) as Hx.
      destruct (sb_lps_ok K0 (proj1 HK0)) as [A1 A2]. destruct (sb_lps_ok (sb_xor t0 c) (proj1 Hx)) as [B1 B2].
      apply IH; auto.
      + intros i Hi. replace (S n + i) with (n + S i) by lia. apply (Hn (S i)). simpl. lia.
      + now apply sb_xor_w8s.
      + rewrite B1, sb_xor_ok by (apply Ht0 || apply Hc). rewrite Ek0, <- E1. reflexivity.
      + rewrite sb_xor_ok by (apply A2 || apply B2). rewrite A1, B1, sb_xor_ok, EK0, Ek0, <- E1 by (apply Ht0 || apply Hc). apply st_xor_comm. }
  assert (Fr : Forall w8s sb_RC).
  { apply Forall_forall. intros r Hr. rewrite forallb_forall in Rl. specialize (Rl r Hr). apply andb_true_iff in Rl. destruct Rl as [R1 R2]. apply Nat.eqb_eq in R1. split; [exact R1|].
    apply Forall_forall. intros x Hx. rewrite forallb_forall in R2. apply N.ltb_lt, R2, Hx. }
  specialize (G sb_RC st_C (sb_xor K w) (kbytes K) K (kbytes w) 0). rewrite Lr in G. cbv zeta in G.
  destruct (G (fun i _ => eq_refl) Rc Fr (sb_xor_w8s K w HK Hw) HK eq_refl (sb_xor_ok K w (proj1 HK) (proj1 Hw))) as [G1 G2].
  destruct (fold_left _ st_C _) as [k' m']. split; [exact G1|exact G2].
Qed.
Opaque sb_e st_E.
Lemma sb_gN_ok : forall h m n, w8s h -> length m = 64 -> isbytes m -> is64 n -> kbytes (sb_gN h m n) = st_g n (kbytes h) m /\ w8s (sb_gN h m n).
Proof.
  intros h m n Hh Lm Bm Hn. unfold sb_gN. cbv zeta.
  set (hN := upd h 0 _).
  assert (EN : kbytes hN = st_xor (kbytes h) (st_num n)).
  { destruct Hh as [Lh _]. unfold hN. rewrite (num_small n Hn). change (le_bytes 8 n ++ zeros 56) with (kbytes (n :: zeros 7)).
    rewrite <- sb_xor_ok by (auto; reflexivity). f_equal. do 8 (destruct h as [|? h]; [discriminate|]). destruct h; [|discriminate].
    unfold sb_xor, at_. cbn [seq map nth upd zeros repeat]. rewrite !N.lxor_0_r. reflexivity. }
  assert (LN : length hN = 8) by (unfold hN; rewrite upd_length; apply Hh). clearbody hN.
  destruct (sb_lps_ok hN LN) as [A1 A2]. destruct (sb_e_ok (sb_lps hN) m A2 Lm Bm) as [B1 B2].
  pose proof (kwords_w8s m Lm Bm) as Hw. pose proof (sb_xor_w8s _ _ Hh B2) as Hx.
  split; [|now apply sb_xor_w8s].
  rewrite sb_xor_ok by (apply Hx || apply Hw). rewrite sb_xor_ok by (apply Hh || apply B2). rewrite (kbytes_kwords m 8 Lm Bm), B1, A1, EN.
  Transparent st_g. unfold st_g. Opaque st_g. f_equal. apply st_xor_comm.
Qed.
Lemma lossy_words_len : forall a b c, length a = length b -> length (lossy_words c a b) = length a.
Proof. induction a as [|x a IH]; intros [|y b] c L; try discriminate; [reflexivity|]. cbn [lossy_words length]. f_equal. apply IH. simpl in L. lia. Qed.
Lemma sb_addm_ok : forall m s, w8s s -> length m = 64 -> isbytes m -> kbytes (sb_addm m s) = lossy_add (kbytes s) m /\ w8s (sb_addm m s).
Proof.
  intros m s Hs Lm Bm. unfold lossy_add, words64. rewrite <- !kwm. rewrite kwords_kbytes by apply Hs.
  unfold sb_addm. cbv zeta. pose proof (kwords_w8s m Lm Bm) as Hw. set (w := kwords m) in *. clearbody w.
  set (body := fun '(carry, out) (i : nat) => _).
  assert (G : forall k i c out, i + k = 8 -> (c < 2)%N ->
    snd (fold_left body (seq i k) (c, out)) = out ++ lossy_words c (skipn i s) (skipn i w)).
  { destruct Hs as [Ls Fs]. destruct Hw as [Lw Fw]. induction k as [|k IH]; intros i c out Hi Hc.
    - rewrite !skipn_all2 by lia. cbn [seq fold_left snd lossy_words]. now rewrite app_nil_r.
    - rewrite seq_cons, fold_left_cons. unfold body at 2. cbv zeta beta iota.
      assert (Sk : forall x : list N, i < length x -> skipn i x = at_ x i :: skipn (S i) x).
      { clear. intros x. revert i. induction x as [|y x IH]; intros i H; [simpl in H; lia|]. destruct i; [reflexivity|]. simpl in H. cbn [skipn]. rewrite IH by lia. reflexivity. }
      rewrite (Sk s), (Sk w) by lia. cbn [lossy_words].
      pose proof (at_is64 s i Fs) as Ha. pose proof (at_is64 w i Fw) as Hb. set (a := at_ s i) in *. set (b := at_ w i) in *. clearbody a b. unfold is64 in *.
      assert (Eo : ((add64 a b <? a) || (add64 a b <? b))%N = (2 ^ 64 <=? a + b)%N).
      { unfold add64. rewrite w64_mod. change 18446744073709551616%N with (2 ^ 64)%N. destruct (N.leb_spec (2 ^ 64) (a + b)) as [H|H].
        - assert (E : ((a + b) mod 2 ^ 64 = a + b - 2 ^ 64)%N).
          { replace (a + b)%N with (a + b - 2 ^ 64 + 1 * 2 ^ 64)%N at 1 by lia. rewrite N.mod_add by lia. apply N.mod_small. lia. }
          rewrite E. apply orb_true_iff. left. apply N.ltb_lt. lia.
        - rewrite N.mod_small by exact H. apply orb_false_iff. split; apply N.ltb_ge; lia. }
      rewrite Eo. rewrite IH by (first [lia | destruct (2 ^ 64 <=? a + b)%N; lia]). rewrite <- app_assoc. cbn [app]. f_equal. f_equal.
      unfold add64. rewrite w64_add_l, w64_mod. reflexivity. }
  pose proof (G 8 0 0%N [] eq_refl ltac:(lia)) as E. cbn [app skipn] in E. change (skipn 0 s) with s in E. change (skipn 0 w) with w in E. rewrite E. clear E G.
  assert (Ll : length (lossy_words 0 s w) = 8) by (rewrite lossy_words_len; [apply Hs|destruct Hs, Hw; congruence]).
  split; [reflexivity|]. split; [exact Ll|].
  assert (F : forall a b c, Forall is64 (lossy_words c a b)).
  { clear. induction a as [|x a IH]; intros [|y b] c; try constructor. - unfold is64. apply N.mod_lt. lia. - apply IH. }
  apply F.
Qed.
Opaque sb_gN sb_addm st_g.

(** ** the object *)
Definition sbrel_st (s : sb_st) (q : list N * N * list N) : Prop :=
  let '(h, sg, len) := s in let '(h', n, sg') := q in
  kbytes h = h' /\ kbytes sg = sg' /\ w8s h /\ w8s sg /\ len = w64 n.
Definition sb_iv (hs : nat) : sb_st := (if hs =? 512 then sb_iv512 else sb_iv256, zeros 8, 0%N).
Lemma sb_iv_ok : forall hs, hs = 256 \/ hs = 512 -> sbrel_st (sb_iv hs) (st_init (hs / 8)).
Proof.
  intros hs [-> | ->]; unfold sb_iv, st_init, sbrel_st, w8s;
    (split; [vm_compute; reflexivity|]); (split; [vm_compute; reflexivity|]);
    (split; [split; [reflexivity|]|split; [split; [reflexivity|]|reflexivity]]); apply Forall_forall; intros x Hx;
    vm_compute in Hx; repeat (destruct Hx as [<-|Hx]; [reflexivity|]); destruct Hx.
Qed.
Lemma sb_step_ok : forall s q b, sbrel_st s q -> length b = 64 -> isbytes b -> (snd (fst q) < 2 ^ 64)%N -> sbrel_st (sb_step s b) (st_step lossy_add q b).
Proof.
  intros [[h sg] len] [[h' n] sg'] b (E1 & E2 & H1 & H2 & E3) Lb Bb Hn. cbn [fst snd] in Hn. cbn [sb_step st_step sbrel_st].
  rewrite w64_eq in E3 by exact Hn. subst len h' sg'.
  destruct (sb_gN_ok h b n H1 Lb Bb Hn) as [A1 A2]. destruct (sb_addm_ok b sg H2 Lb Bb) as [B1 B2]. auto.
Qed.
Lemma sb_fold_ok : forall bs s q, sbrel_st s q -> Forall (fun b => length b = 64 /\ isbytes b) bs -> (snd (fst q) + 512 * N.of_nat (length bs) <= 2 ^ 64)%N ->
  sbrel_st (fold_left sb_step bs s) (fold_left (st_step lossy_add) bs q).
Proof.
  induction bs as [|b bs IH]; intros s q H HF Hn; [exact H|]. rewrite !fold_left_cons. pose proof (Forall_inv HF) as [Lb Bb]. cbn [length] in Hn.
  apply IH; [|now apply Forall_inv_tail in HF|].
  - apply sb_step_ok; auto. lia.
  - destruct q as [[h n] c]. cbn [st_step fst snd] in *. lia.
Qed.
Definition sbrel (hs : nat) (d : dig sb_st) (m : list N) : Prop := dig_rel 64 sb_step (sb_iv hs) 0 d m /\ isbytes m.
Lemma chunks_good : forall m, isbytes m -> Forall (fun b => length b = 64 /\ isbytes b) (chunks 64 m).
Proof.
  intros m Hm. apply Forall_forall. intros c Hc. split.
  - pose proof (chunks_all_length _ 64 m ltac:(lia)) as F. rewrite Forall_forall in F. now apply F.
  - unfold chunks in Hc. apply in_map_iff in Hc. destruct Hc as (i & <- & _). now apply isbytes_firstn, isbytes_skipn.
Qed.
Lemma copy0_all : forall (a b : list N), length a = length b -> copy_at a 0 b = b.
Proof. intros a b L. rewrite copy_at_full by lia. rewrite Nat.sub_0_r, L. cbn [firstn app]. apply firstn_all. Qed.
Lemma skip_kbytes : forall w k, skipn (8 * k) (kbytes w) = kbytes (skipn k w).
Proof.
  induction w as [|x w IH]; intros k; [now rewrite !skipn_nil|]. destruct k as [|k]; [rewrite Nat.mul_0_r; reflexivity|].
  cbn [skipn]. rewrite <- IH. unfold kbytes at 1. cbn [map concat]. fold (kbytes w). replace (8 * S k) with (8 + 8 * k) by lia.
  rewrite <- (skipn_skipn _ _ (8 * k) 8). rewrite (skipn_app_len _ 8) by apply le_bytes_length. reflexivity.
Qed.
Lemma sb_checkSum_ok : forall hs d m, hs = 256 \/ hs = 512 -> (N.of_nat (length m) < 2 ^ 61)%N -> sbrel hs d m ->
  sb_checkSum hs d = st_hash_with lossy_add (hs / 8) m.
Proof.
  intros hs d m Hhs HB [(Es & (Lx & En & Ex) & _) Bm].
  assert (Hn0 : (snd (fst (st_init (hs / 8))) + 512 * N.of_nat (length (chunks 64 m)) <= 2 ^ 64)%N).
  { cbn [st_init fst snd]. rewrite chunks_length. pose proof (Nat.div_mod (length m) 64 ltac:(lia)). change (2 ^ 64)%N with (8 * 2 ^ 61)%N. lia. }
  pose proof (sb_fold_ok (chunks 64 m) _ _ (sb_iv_ok hs Hhs) (chunks_good m Bm) Hn0) as HR.
  pose proof (st_fold_n lossy_add (chunks 64 m) (st_init (hs / 8))) as Hn.
  rewrite <- Es in HR. clear Es. unfold sb_checkSum, st_hash_with. fold (st_init (hs / 8)).
  destruct (ds d) as [[h sg] len]. destruct (fold_left _ (chunks 64 m) (st_init _)) as [[h' n] sg'].
  cbn [fst snd st_init] in Hn. rewrite N.add_0_l, chunks_length in Hn.
  destruct HR as (E1 & E2 & H1 & H2 & E3).
  pose proof (rest_length_lt _ 64 m ltac:(lia)) as Lr. pose proof (isbytes_rest 64 m Bm) as Br.
  assert (Hbits : (n + 8 * N.of_nat (length (rest 64 m)) = 8 * N.of_nat (length m))%N).
  { rewrite Hn, rest_length by lia. pose proof (Nat.div_mod (length m) 64 ltac:(lia)). lia. }
  set (r := rest 64 m) in *. clearbody r. rewrite En in Ex. subst len h' sg'. rewrite En. cbv zeta.
  assert (I1 : is64 n) by (unfold is64; change (2 ^ 64)%N with (8 * 2 ^ 61)%N; lia).
  rewrite (w64_eq n) by exact I1.
  assert (EX : copy_at (upd (dx d) (length r) 1%N) (length r + 1) (zeros 64) = r ++ 1%N :: zeros (63 - length r)).
  { rewrite <- (firstn_skipn (length r) (dx d)), Ex.
    assert (Lk : length (skipn (length r) (dx d)) = 64 - length r) by (rewrite skipn_length; lia).
    destruct (skipn (length r) (dx d)) as [|y t]; cbn [length] in Lk; [lia|]. rewrite upd_app_at.
    rewrite copy_at_full by (rewrite ?app_length, ?zeros_length; cbn [length]; lia).
    change (r ++ 1%N :: t) with (r ++ [1%N] ++ t). rewrite app_assoc, firstn_app_len by (rewrite app_length; reflexivity).
    rewrite <- app_assoc. cbn [app]. f_equal. f_equal. rewrite firstn_zeros. f_equal. rewrite !app_length. cbn [length]. lia. }
  rewrite EX. set (x := r ++ 1%N :: zeros (63 - length r)) in *.
  assert (Lxx : length x = 64) by (unfold x; rewrite app_length; cbn [length]; rewrite zeros_length; lia).
  assert (Bx : isbytes x) by (unfold x; apply isbytes_app; split; [exact Br|constructor; [reflexivity|apply zeros_isbytes]]).
  clearbody x. rewrite (copy0_all x (zeros 64)) by (rewrite zeros_length; exact Lxx).
  rewrite Nat.add_sub.
  assert (En2 : add64 n (mul64 (N.of_nat (length r)) 8) = (n + 8 * N.of_nat (length r))%N).
  { unfold mul64, add64. rewrite w64_add_r, (N.mul_comm _ 8). apply w64_small. change 18446744073709551616%N with (8 * 2 ^ 61)%N. lia. }
  rewrite En2. set (nn := (n + 8 * N.of_nat (length r))%N) in *.
  assert (I2 : is64 nn) by (unfold is64; change (2 ^ 64)%N with (8 * 2 ^ 61)%N; lia). clearbody nn.
  rewrite (num_copy nn I2).
  destruct (sb_gN_ok h x n H1 Lxx Bx I1) as [A1 A2]. destruct (sb_addm_ok x sg H2 Lxx Bx) as [B1 B2].
  assert (Ln : length (st_num nn) = 64) by apply le_bytes_length. assert (Bn : isbytes (st_num nn)) by apply le_bytes_isbytes.
  destruct (sb_gN_ok _ (st_num nn) 0%N A2 Ln Bn ltac:(reflexivity)) as [C1 C2].
  assert (Ls : length (kbytes (sb_addm x sg)) = 64) by (rewrite kbytes_len, (proj1 B2); reflexivity).
  rewrite (copy0_all (st_num nn)) by congruence.
  destruct (sb_gN_ok _ (kbytes (sb_addm x sg)) 0%N C2 Ls (kbytes_bytes _) ltac:(reflexivity)) as [D1 D2].
  rewrite B1 in D1 at 2. rewrite C1, A1 in D1. rewrite <- D1. rewrite <- skip_kbytes.
  assert (E : 8 * (8 - hs / 64) = 64 - hs / 8) by (destruct Hhs as [-> | ->]; reflexivity). rewrite E.
  apply firstn_all2. rewrite skipn_length, kbytes_len, (proj1 D2). destruct Hhs as [-> | ->]; cbn; lia.
Qed.
Lemma sb_run : forall hs, hs = 256 \/ hs = 512 -> forall ops, Forall op_bytes ops -> (ops_total ops < 2 ^ 61)%N ->
  run (sb_impl hs) (sb_new_hs hs) ops = ideal_run (st_hash_with lossy_add (hs / 8)) [] ops.
Proof.
  intros hs Hhs ops HF HB.
  assert (Hd : sbrel hs (sb_new_hs hs) []) by (split; [apply dig_rel_new; [lia|apply zeros_length]|constructor]).
  apply (run_refines_total _ (sb_impl hs) (st_hash_with lossy_add (hs / 8)) (sbrel hs) (2 ^ 61)%N); auto.
  - intros d m p Hp _ [H Bm]. split; [|now apply isbytes_app]. apply (write_nolen_rel 64 sb_step ltac:(lia)). exact H.
  - intros d m p _ _ _. apply write_nolen_count.
  - intros d m i HL H. cbn [i_sum sb_impl snd]. now rewrite (sb_checkSum_ok hs d m Hhs HL H).
Qed.

(** ** when no carry is lost the faulty addition is the right one *)
Lemma le_val_kbytes_cons : forall x w, is64 x -> le_val (kbytes (x :: w)) = (x + 2 ^ 64 * le_val (kbytes w))%N.
Proof.
  intros x w Hx. unfold kbytes. cbn [map concat]. rewrite le_val_app, le_bytes_length, le_val_le_bytes.
  rewrite N.mod_small by exact Hx. change (2 ^ N.of_nat (8 * 8))%N with (2 ^ 64)%N. lia.
Qed.
Lemma lossy_ok : forall a b c, length a = length b -> Forall is64 a -> Forall is64 b -> (c < 2)%N -> no_lost_carry c a b ->
  kbytes (lossy_words c a b) = le_bytes (8 * length a) (le_val (kbytes a) + le_val (kbytes b) + c).
Proof.
  induction a as [|x a IH]; intros [|y b] c L Fa Fb Hc HN; try discriminate; [reflexivity|].
  cbn [lossy_words no_lost_carry] in *. destruct HN as [H1 H2]. cbn [length] in L |- *.
  pose proof (Forall_inv Fa) as Hx. apply Forall_inv_tail in Fa. pose proof (Forall_inv Fb) as Hy. apply Forall_inv_tail in Fb.
  rewrite !le_val_kbytes_cons by assumption. unfold is64 in Hx, Hy. unfold kbytes at 1. cbn [map concat].
  fold (kbytes (lossy_words (if (2 ^ 64 <=? x + y)%N then 1%N else 0%N) a b)).
  rewrite IH by (first [lia | assumption | destruct (2 ^ 64 <=? x + y)%N; lia]).
  replace (8 * S (length a)) with (8 + 8 * length a) by lia. rewrite le_bytes_app.
  assert (E : (x + 2 ^ 64 * le_val (kbytes a) + (y + 2 ^ 64 * le_val (kbytes b)) + c = (x + y + c) + (le_val (kbytes a) + le_val (kbytes b)) * 2 ^ 64)%N) by lia.
  rewrite E. f_equal.
  - rewrite <- (le_bytes8_w64 ((x + y + c) + _)), w64_mod. change 18446744073709551616%N with (2 ^ 64)%N. now rewrite N.mod_add by lia.
  - f_equal. rewrite N.shiftr_div_pow2. change (8 * N.of_nat 8)%N with 64%N. rewrite N.div_add by lia.
    destruct (N.leb_spec (2 ^ 64) (x + y)) as [H|H].
    + replace (x + y + c)%N with (x + y + c - 2 ^ 64 + 1 * 2 ^ 64)%N by lia. rewrite N.div_add by lia. rewrite N.div_small by lia. lia.
    + rewrite N.div_small by lia. lia.
Qed.
Lemma lossy_add_ok : forall a b, length a = 64 -> length b = 64 -> isbytes a -> isbytes b -> no_lost_carry 0 (words64 a) (words64 b) -> lossy_add a b = st_add a b.
Proof.
  intros a b La Lb Ha Hb HN. unfold lossy_add. unfold words64 in *. rewrite <- !kwm in *.
  destruct (kwords_w8s a La Ha) as [L1 F1]. destruct (kwords_w8s b Lb Hb) as [L2 F2].
  fold (kbytes (lossy_words 0 (kwords a) (kwords b))). rewrite lossy_ok by (first [congruence | assumption | reflexivity]).
  rewrite L1, (kbytes_kwords a 8 La Ha), (kbytes_kwords b 8 Lb Hb), N.add_0_r. reflexivity.
Qed.
Lemma st_fold_lossy : forall ms h n sg, length sg = 64 -> isbytes sg -> Forall (fun b => length b = 64 /\ isbytes b) ms -> no_lost_carries sg ms ->
  fold_left (st_step lossy_add) ms (h, n, sg) = fold_left (st_step st_add) ms (h, n, sg).
Proof.
  induction ms as [|m ms IH]; intros h n sg Ls Bs HF HN; [reflexivity|]. rewrite !fold_left_cons. cbn [st_step]. destruct HN as [H1 H2].
  pose proof (Forall_inv HF) as [Lm Bm]. apply Forall_inv_tail in HF. rewrite (lossy_add_ok sg m Ls Lm Bs Bm H1).
  apply IH; [apply st_add_len|apply st_add_bytes|exact HF|exact H2].
Qed.
Lemma no_lost_app : forall a sg b, no_lost_carries sg (a ++ b) -> no_lost_carries sg a /\ no_lost_carries (snd (fold_left (st_step st_add) a (@nil N, 0%N, sg))) b.
Proof.
  assert (G : forall a h n h' n' sg, snd (fold_left (st_step st_add) a (h, n, sg)) = snd (fold_left (st_step st_add) a (h', n', sg))).
  { induction a as [|x a IH]; intros; [reflexivity|]. rewrite !fold_left_cons. cbn [st_step]. apply IH. }
  induction a as [|x a IH]; intros sg b H; [split; [exact I|exact H]|]. cbn [app no_lost_carries] in *. destruct H as [H1 H2]. destruct (IH _ _ H2) as [A B].
  split; [split; assumption|]. rewrite fold_left_cons. cbn [st_step]. erewrite G. exact B.
Qed.
Lemma snd_fold_indep : forall a h n h' n' sg, snd (fold_left (st_step st_add) a (h, n, sg)) = snd (fold_left (st_step st_add) a (h', n', sg)).
Proof. induction a as [|x a IH]; intros; [reflexivity|]. rewrite !fold_left_cons. cbn [st_step]. apply IH. Qed.
Lemma lossless : forall size m, isbytes m -> no_lost_carries (zeros 64) (st_blocks m) -> st_hash_with lossy_add size m = st_hash_with st_add size m.
Proof.
  intros size m Bm HN. unfold st_blocks in HN. apply no_lost_app in HN. destruct HN as [H1 H2].
  unfold st_hash_with. fold (st_init size). unfold st_init at 1.
  rewrite (st_fold_lossy (chunks 64 m)) by (auto using zeros_length, zeros_isbytes, chunks_good). fold (st_init size).
  assert (Hok : st_ok (fold_left (st_step st_add) (chunks 64 m) (st_init size))).
  { generalize (st_init_ok size). generalize (st_init size). clear. induction (chunks 64 m) as [|b l IH]; intros s H; [exact H|]. rewrite fold_left_cons. apply IH. now apply st_step_ok. }
  rewrite (snd_fold_indep _ _ _ (repeat (if size =? 32 then 1%N else 0%N) 64) 0%N) in H2. fold (st_init size) in H2.
  destruct (fold_left _ (chunks 64 m) (st_init size)) as [[h n] sg]. cbn [snd] in H2. destruct Hok as (_ & Ls & Bs). cbv zeta.
  cbn [no_lost_carries] in H2. destruct H2 as [H2 _].
  rewrite (lossy_add_ok sg); auto.
  - pose proof (rest_length_lt _ 64 m ltac:(lia)). rewrite app_length. cbn [length]. rewrite zeros_length. lia.
  - apply isbytes_app. split; [now apply isbytes_rest|]. constructor; [reflexivity|apply zeros_isbytes].
Qed.
