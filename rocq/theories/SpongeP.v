(** SpongeP.v -- the buffered sponge of K12.v absorbs the concatenation of its Writes and squeezes one byte stream
    (no model definitions here). *)
From Coq Require Import List NArith Arith Lia Bool.
From Verif Require Import Base Words Buf Stream StreebogP SpecK12 K12.
Import ListNotations.

Local Notation R := 168.
Section SpongeP.
Variable F : list N -> list N.
Hypothesis HF : forall a, length a = 25 -> length (F a) = 25.

Definition srel (d : sp) (m : list N) : Prop :=
  sp_sq d = false /\ sp_a d = sp_absorb F (zeros 25) (chunks R m) /\ length (sp_st d) = R /\
  sp_n d = length (rest R m) /\ firstn (sp_n d) (sp_st d) = rest R m /\ sp_i d = 0.

Lemma srel_new : forall ds, srel (sp_new ds) [].
Proof. intros ds. repeat split. Qed.
Lemma xorIn_xor : forall a b, xorIn a b = sp_xor a b.
Proof. reflexivity. Qed.
Lemma sp_xor_length : forall a b, length (sp_xor a b) = 25.
Proof. intros. unfold sp_xor. now rewrite map_length, seq_length. Qed.
Lemma absorb_length : forall bs a, length a = 25 -> length (sp_absorb F a bs) = 25.
Proof. induction bs as [|b bs IH]; intros a L; [exact L|]. cbn [sp_absorb fold_left]. apply IH, HF, sp_xor_length. Qed.
Lemma absorb_app : forall a x y, sp_absorb F a (x ++ y) = sp_absorb F (sp_absorb F a x) y.
Proof. intros. apply fold_left_app. Qed.
Lemma absorb_one : forall a b, sp_absorb F a [b] = F (sp_xor a b).
Proof. reflexivity. Qed.
Lemma srel_len : forall d m, srel d m -> length (sp_a d) = 25 /\ sp_n d < R.
Proof.
  intros d m (_ & A & _ & Hn & _). split; [rewrite A; now apply absorb_length|]. rewrite Hn. apply rest_length_lt. lia.
Qed.
Lemma srel_Reset : forall d m, length (sp_a d) = 25 -> length (sp_st d) = R -> m = [] -> srel (sp_Reset d) m.
Proof. intros d m L K ->. unfold srel, sp_Reset. cbn [sp_sq sp_a sp_st sp_n sp_i]. rewrite L. repeat split; auto. Qed.
Lemma srel_set : forall d m ds, srel d m -> srel (sp_set_ds d ds) m.
Proof. intros d m ds H. exact H. Qed.

Lemma sp_wloop_ok : forall fuel d p m, srel d m -> length p < fuel ->
  srel (sp_wloop F fuel d p) (m ++ p) /\ sp_ds (sp_wloop F fuel d p) = sp_ds d.
Proof.
  induction fuel as [|fuel IH]; intros d p m HR HL; [lia|]. cbn [sp_wloop]. destruct (Nat.eqb_spec (length p) 0) as [E|E].
  { apply length_zero_iff_nil in E. subst p. now rewrite app_nil_r. }
  destruct (srel_len _ _ HR) as [LA Hn]. destruct HR as (Hsq & HA & HS & HN & HB & HI).
  unfold K_rate in *. destruct (Nat.eqb_spec (sp_n d) 0) as [Z|Z]; cbn [andb].
  - assert (R0 : rest R m = []) by (apply length_zero_iff_nil; lia).
    destruct (Nat.leb_spec R (length p)) as [G|G].
    + replace (m ++ p) with ((m ++ firstn R p) ++ skipn R p) by (now rewrite <- app_assoc, firstn_skipn).
      match goal with |- srel (sp_wloop _ _ ?D _) _ /\ _ => destruct (IH D (skipn R p) (m ++ firstn R p)) as [A B] end; [|rewrite skipn_length; lia|split; [exact A|exact B]].
      assert (LB : length (firstn R p) = R) by (rewrite firstn_length; lia).
      unfold srel. cbn [sp_sq sp_a sp_st sp_n sp_i]. rewrite chunks_app, rest_app, R0 by lia. cbn [app]. rewrite (chunks_one _ R (firstn R p)), (rest_one _ R (firstn R p)) by (lia || exact LB).
      rewrite absorb_app, absorb_one, <- HA, xorIn_xor, Z. repeat split; auto.
    + rewrite Z, Nat.sub_0_r. destruct (Nat.ltb_spec (length p) R) as [G2|G2]; [|lia].
      cbn [sp_n]. destruct (Nat.eqb_spec (0 + length p) R) as [G3|G3]; [lia|]. rewrite firstn_all, skipn_all2 by lia.
      match goal with |- srel (sp_wloop _ _ ?D _) _ /\ _ => destruct (IH D [] (m ++ p)) as [A B] end; [|cbn [length]; lia|rewrite app_nil_r in A; split; [exact A|exact B]].
      unfold srel. cbn [sp_sq sp_a sp_st sp_n sp_i]. rewrite chunks_app, rest_app, R0 by lia. cbn [app]. rewrite (chunks_short _ R p), (rest_short _ R p), app_nil_r by lia.
      repeat split; auto; [rewrite copy_at_length; lia|]. pose proof (copy_at_firstn _ (sp_st d) 0 p) as K. cbn [firstn app Nat.add] in K. apply K; lia.
  - destruct (Nat.ltb_spec (length p) (R - sp_n d)) as [G|G].
    + cbn [sp_n]. destruct (Nat.eqb_spec (sp_n d + length p) R) as [G3|G3]; [lia|]. rewrite firstn_all, skipn_all2 by lia.
      match goal with |- srel (sp_wloop _ _ ?D _) _ /\ _ => destruct (IH D [] (m ++ p)) as [A B] end; [|cbn [length]; lia|rewrite app_nil_r in A; split; [exact A|exact B]].
      unfold srel. cbn [sp_sq sp_a sp_st sp_n sp_i]. rewrite chunks_app, rest_app by lia. rewrite (chunks_short _ R (rest R m ++ p)), (rest_short _ R (rest R m ++ p)), app_nil_r by (rewrite app_length; lia).
      rewrite app_length, <- HN. repeat split; auto; [rewrite copy_at_length; lia|]. rewrite copy_at_firstn by lia. now rewrite HB.
    + set (t := R - sp_n d). assert (Ht : t = R - sp_n d) by reflexivity. clearbody t. cbn [sp_n].
      assert (LT : length (firstn t p) = t) by (rewrite firstn_length; lia).
      destruct (Nat.eqb_spec (sp_n d + t) R) as [G3|G3]; [|lia]. unfold sp_permute. cbn [sp_sq sp_a sp_st sp_n sp_i sp_ds]. rewrite Hsq.
      replace (m ++ p) with ((m ++ firstn t p) ++ skipn t p) by (now rewrite <- app_assoc, firstn_skipn).
      match goal with |- srel (sp_wloop _ _ ?D _) _ /\ _ => destruct (IH D (skipn t p) (m ++ firstn t p)) as [A B] end; [|rewrite skipn_length; lia|split; [exact A|exact B]].
      assert (LB : length (rest R m ++ firstn t p) = R) by (rewrite app_length; lia).
      unfold srel. cbn [sp_sq sp_a sp_st sp_n sp_i]. rewrite chunks_app, rest_app by lia. rewrite (chunks_one _ R (rest R m ++ firstn t p)), (rest_one _ R (rest R m ++ firstn t p)) by (lia || exact LB).
      assert (CS : copy_at (sp_st d) (sp_n d) (firstn t p) = rest R m ++ firstn t p).
      { rewrite <- HB, <- (copy_at_firstn _ (sp_st d) (sp_n d) (firstn t p)) by lia. symmetry. apply firstn_all2. rewrite copy_at_length; lia. }
      rewrite absorb_app, absorb_one, <- HA, xorIn_xor, CS. repeat split; auto.
Qed.
Lemma sp_Write_ok : forall d p m, srel d m ->
  srel (fst (sp_Write F d p)) (m ++ p) /\ snd (sp_Write F d p) = length p /\ sp_ds (fst (sp_Write F d p)) = sp_ds d.
Proof.
  intros d p m H. unfold sp_Write. pose proof H as (Hsq & _). rewrite Hsq. cbn [fst snd].
  destruct (sp_wloop_ok (S (length p)) d p m H ltac:(lia)) as [A B]. auto.
Qed.

(** ** Squeezing *)
Definition blk (S0 : list N) (q : nat) : list N := firstn R (sp_bytes (Nat.iter q F S0)).
Lemma iter_length : forall q S0, length S0 = 25 -> length (Nat.iter q F S0) = 25.
Proof. induction q; intros; [assumption|]. cbn [Nat.iter nat_rect]. now apply HF, IHq. Qed.
Lemma sp_bytes_length : forall A, length A = 25 -> length (sp_bytes A) = 200.
Proof. intros A L. unfold sp_bytes. rewrite concat_le_length, L. reflexivity. Qed.
Lemma blk_length : forall S0 q, length S0 = 25 -> length (blk S0 q) = R.
Proof. intros. unfold blk. rewrite firstn_length, sp_bytes_length by now apply iter_length. reflexivity. Qed.
Definition fin (ds : N) (m : list N) : list N := sp_absorb F (zeros 25) (chunks R (sp_pad ds m)).
Lemma sponge_sbyte : forall ds m j, sponge F ds m j = sbyte R (blk (fin ds m)) j.
Proof.
  intros ds m j. unfold sponge, sbyte, blk, fin, sp_rate, at_. symmetry.
  set (Z := sp_bytes _). rewrite <- (firstn_skipn R Z) at 2. assert (Hj := Nat.mod_upper_bound j R ltac:(lia)).
  assert (LZ : length (firstn R Z) = R).
  { rewrite firstn_length. unfold Z. rewrite sp_bytes_length; [reflexivity|]. apply iter_length, absorb_length, repeat_length. }
  now rewrite app_nth1 by lia.
Qed.
Definition qrel (d : sp) (S0 : list N) (pos : nat) : Prop :=
  sp_sq d = true /\ sp_n d = R /\ sp_i d < R /\ exists q, sp_a d = Nat.iter q F S0 /\ sp_st d = blk S0 q /\ pos = R * q + sp_i d.

Lemma upd_end : forall (l : list N) v, l <> [] -> upd l (length l - 1) v = removelast l ++ [v].
Proof.
  intros l v H. destruct (exists_last H) as (l' & x & ->). rewrite removelast_last, app_length. cbn [length]. rewrite Nat.add_sub. apply upd_app_at.
Qed.
Lemma at_end : forall (l : list N), at_ l (length l - 1) = last l 0%N.
Proof.
  intros l. destruct l as [|y l]; [reflexivity|]. destruct (@exists_last _ (y :: l)) as (l' & x & ->); [discriminate|]. rewrite app_length. cbn [length].
  rewrite Nat.add_sub, last_last. unfold at_. rewrite app_nth2, Nat.sub_diag by lia. reflexivity.
Qed.
Lemma zero_tail : forall k (a t : list N), k = length t ->
  fold_left (fun st j => upd st j 0%N) (seq (length a) k) (a ++ t) = a ++ zeros k.
Proof.
  induction k as [|k IH]; intros a [|x t] H; try discriminate H; [reflexivity|]. cbn [seq fold_left]. rewrite upd_app_at.
  specialize (IH (a ++ [0%N]) t). rewrite app_length in IH. cbn [length] in IH. rewrite Nat.add_1_r in IH.
  replace (a ++ 0%N :: t) with ((a ++ [0%N]) ++ t) by (now rewrite <- app_assoc). rewrite IH by (cbn [length] in H; lia). rewrite <- app_assoc. reflexivity.
Qed.
Lemma pad_ok : forall d m, srel d m -> qrel (padAndPermute F d) (fin (sp_ds d) m) 0.
Proof.
  intros d m HR. destruct (srel_len _ _ HR) as [LA Hn]. destruct HR as (Hsq & HA & HS & HN & HB & HI).
  unfold padAndPermute, K_rate. set (z := rest R m ++ sp_ds d :: zeros (R - S (sp_n d))).
  assert (E1 : fold_left (fun st j => upd st j 0%N) (seq (S (sp_n d)) (R - S (sp_n d))) (upd (sp_st d) (sp_n d) (sp_ds d)) = z).
  { rewrite upd_split by lia. rewrite HB.
    pose proof (zero_tail (R - S (sp_n d)) (rest R m ++ [sp_ds d]) (skipn (S (sp_n d)) (sp_st d)) ltac:(rewrite skipn_length; lia)) as K.
    rewrite app_length in K. cbn [length] in K. rewrite <- HN, Nat.add_1_r in K. rewrite <- !app_assoc in K. exact K. }
  rewrite E1. assert (LZ : length z = R) by (unfold z; rewrite app_length; cbn [length]; rewrite zeros_length; lia).
  assert (NZ : z <> []) by (intros K; rewrite K in LZ; discriminate LZ).
  replace (R - 1) with (length z - 1) by (rewrite LZ; reflexivity). rewrite at_end, upd_end by exact NZ.
  set (b := removelast z ++ [N.lxor (last z 0%N) 128]).
  assert (LB : length b = R).
  { unfold b. rewrite app_length. pose proof (app_removelast_last 0%N NZ) as K. apply (f_equal (@length N)) in K. rewrite app_length in K. cbn [length] in *. lia. }
  assert (EF : fin (sp_ds d) m = F (sp_xor (sp_a d) b)).
  { unfold fin, sp_pad, sp_rate. assert (LR : length (rest R m) = length m mod R) by (apply rest_length; lia).
    rewrite removelast_app by discriminate.
    assert (EL : last (m ++ sp_ds d :: zeros (R - 1 - length m mod R)) 0%N = last z 0%N).
    { assert (NE : sp_ds d :: zeros (R - 1 - length m mod R) <> []) by discriminate.
      unfold z. replace (R - S (sp_n d)) with (R - 1 - length m mod R) by lia.
      destruct (exists_last NE) as (l' & x & ->). rewrite !app_assoc, !last_last. reflexivity. }
    rewrite EL, <- app_assoc, chunks_app by lia.
    assert (EB : rest R m ++ removelast (sp_ds d :: zeros (R - 1 - length m mod R)) ++ [N.lxor (last z 0%N) 128] = b).
    { unfold b. unfold z at 2. rewrite removelast_app by discriminate. rewrite <- app_assoc. replace (R - S (sp_n d)) with (R - 1 - length m mod R) by lia. reflexivity. }
    rewrite EB, (chunks_one _ R b) by (lia || exact LB). now rewrite absorb_app, absorb_one, <- HA. }
  unfold sp_permute. cbn [sp_sq sp_a sp_st sp_n sp_i sp_ds]. rewrite Hsq. cbn [sp_sq sp_a sp_st sp_n sp_i sp_ds]. rewrite xorIn_xor, <- EF.
  unfold qrel. cbn [sp_sq sp_a sp_st sp_n sp_i]. rewrite HI. split; [reflexivity|]. split; [reflexivity|]. split; [lia|].
  exists 0. split; [reflexivity|]. split; [|reflexivity]. unfold copyOut, K_rate. change (concat (map (le_bytes 8) (fin (sp_ds d) m))) with (sp_bytes (Nat.iter 0 F (fin (sp_ds d) m))).
  change (firstn R (sp_bytes (Nat.iter 0 F (fin (sp_ds d) m)))) with (blk (fin (sp_ds d) m) 0). apply copy0_all. rewrite LB. symmetry. apply blk_length, absorb_length, repeat_length.
Qed.
Lemma sp_rloop_ok : forall fuel d n S0 pos, length S0 = 25 -> qrel d S0 pos -> n < fuel ->
  snd (sp_rloop F fuel d n) = squeeze (sbyte R (blk S0)) pos n /\ qrel (fst (sp_rloop F fuel d n)) S0 (pos + n).
Proof.
  induction fuel as [|fuel IH]; intros d n S0 pos LS HQ HL; [lia|]. cbn [sp_rloop]. destruct (Nat.eqb_spec n 0) as [E|E].
  { subst n. cbn [fst snd]. rewrite Nat.add_0_r. auto. }
  destruct HQ as (Hsq & Hn & Hi & q & HA & HS & HP). unfold slice. rewrite Hn.
  set (c := Nat.min n (R - sp_i d)). set (o := firstn n (firstn (R - sp_i d) (skipn (sp_i d) (sp_st d)))).
  assert (EO : o = squeeze (sbyte R (blk S0)) pos c).
  { unfold o, squeeze. rewrite firstn_firstn. fold c. rewrite HP, sbyte_part; [now rewrite HS| lia | intros; now apply blk_length | lia]. }
  assert (LO : length o = c) by (rewrite EO; unfold squeeze; now rewrite map_length, seq_length).
  clearbody o. rewrite LO. cbn [sp_i]. unfold K_rate.
  match goal with |- context [if _ =? R then _ else ?D] => set (D0 := D) end.
  assert (HQ' : qrel (if sp_i d + c =? R then sp_permute F D0 else D0) S0 (pos + c)).
  { destruct (Nat.eqb_spec (sp_i d + c) R) as [G|G].
    - unfold sp_permute, D0. cbn [sp_sq sp_a sp_st sp_n sp_i sp_ds]. rewrite Hsq. unfold qrel. cbn [sp_sq sp_a sp_st sp_n sp_i]. repeat split; auto; [lia|].
      exists (S q). rewrite HA. split; [reflexivity|]. split; [|lia]. unfold K_rate.
      change (copyOut (F (Nat.iter q F S0)) R) with (blk S0 (S q)). apply copy0_all. now rewrite HS, !blk_length.
    - unfold qrel, D0. cbn [sp_sq sp_a sp_st sp_n sp_i]. repeat split; auto; [lia|]. exists q. repeat split; auto. lia. }
  set (d1 := if sp_i d + c =? R then _ else _) in *. clearbody d1.
  destruct (IH d1 (n - c) S0 (pos + c) LS HQ' ltac:(lia)) as [A B]. destruct (sp_rloop F fuel d1 (n - c)) as [d2 r]. cbn [fst snd] in *.
  split; [|replace (pos + n) with (pos + c + (n - c)) by lia; exact B]. rewrite EO, A. unfold squeeze. rewrite <- map_app, <- seq_app. replace (c + (n - c)) with n by lia. reflexivity.
Qed.
(** The first Read pads; the output is the beginning of the stream. *)
Lemma squeeze_ext : forall f g p n, (forall j, f j = g j) -> squeeze f p n = squeeze g p n.
Proof. intros. apply map_ext. auto. Qed.
Lemma fin_length : forall ds m, length (fin ds m) = 25.
Proof. intros. apply absorb_length, repeat_length. Qed.
Lemma sp_Read_first : forall d m n, srel d m ->
  snd (sp_Read F d n) = squeeze (sponge F (sp_ds d) m) 0 n /\ qrel (fst (sp_Read F d n)) (fin (sp_ds d) m) n.
Proof.
  intros d m n H. unfold sp_Read. pose proof H as (Hsq & _). rewrite Hsq.
  destruct (sp_rloop_ok (S n) _ n _ 0 (fin_length (sp_ds d) m) (pad_ok d m H) ltac:(lia)) as [A B]. split; [|exact B].
  rewrite A. apply squeeze_ext. intros j. symmetry. apply sponge_sbyte.
Qed.
Lemma sp_Read_next : forall d ds m pos n, qrel d (fin ds m) pos ->
  snd (sp_Read F d n) = squeeze (sponge F ds m) pos n /\ qrel (fst (sp_Read F d n)) (fin ds m) (pos + n).
Proof.
  intros d ds m pos n H. unfold sp_Read. pose proof H as (Hsq & _). rewrite Hsq.
  destruct (sp_rloop_ok (S n) _ n _ pos (fin_length ds m) H ltac:(lia)) as [A B]. split; [|exact B].
  rewrite A. apply squeeze_ext. intros j. symmetry. apply sponge_sbyte.
Qed.
Lemma qrel_Reset : forall d S0 pos, length S0 = 25 -> qrel d S0 pos -> srel (sp_Reset d) [].
Proof.
  intros d S0 pos L (_ & _ & _ & q & HA & HS & _). apply srel_Reset; auto; [rewrite HA; now apply iter_length|rewrite HS; now apply blk_length].
Qed.
Lemma srel_Reset' : forall d m, srel d m -> srel (sp_Reset d) [].
Proof. intros d m H. destruct (srel_len _ _ H) as [A _]. destruct H as (_ & _ & B & _). now apply srel_Reset. Qed.
End SpongeP.
