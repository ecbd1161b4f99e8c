(** PropPanama.v -- package panama (C92). *)
From Coq Require Import List NArith Arith Lia Bool.
From Verif Require Import Base Words HashAPI Buf MD Bytes Kupyna Gost3411P ShaviteP SpecPanama Panama LshP Pad.
Import ListNotations.

Ltac list17 x H := do 17 (destruct x as [|? x]; [discriminate H|]); destruct x as [|? x]; [|discriminate H].
Lemma gpt_ok : forall s, length s = 17 -> pan_gpt s = pan_theta (pan_pi (pan_gamma s)).
Proof. intros s H. list17 s H. reflexivity. Qed.
(** The pointers, for bufferPtr = 8k: stage j is stored at 8*((k+j) mod 32). *)
Lemma ptrs : forall k, k < 32 -> let p := N.of_nat (8 * k) in
  N.land (w32 (p + (2 ^ 32 - 64))) 248 = N.of_nat (8 * ((k + 24) mod 32)) /\ N.land (w32 (p + (2 ^ 32 - 8))) 248 = N.of_nat (8 * ((k + 31) mod 32)) /\
  N.lxor p 128 = N.of_nat (8 * ((k + 16) mod 32)) /\ N.land (w32 (p + 32)) 248 = N.of_nat (8 * ((k + 4) mod 32)).
Proof.
  intros k Hk p.
  assert (H : forallb (fun k => let p := N.of_nat (8 * k) in (N.land (w32 (p + (2 ^ 32 - 64))) 248 =? N.of_nat (8 * ((k + 24) mod 32)))%N && (N.land (w32 (p + (2 ^ 32 - 8))) 248 =? N.of_nat (8 * ((k + 31) mod 32)))%N &&
     (N.lxor p 128 =? N.of_nat (8 * ((k + 16) mod 32)))%N && (N.land (w32 (p + 32)) 248 =? N.of_nat (8 * ((k + 4) mod 32)))%N) (seq 0 32) = true) by (vm_compute; reflexivity).
  rewrite forallb_forall in H. specialize (H k). rewrite in_seq in H. specialize (H ltac:(lia)). cbv zeta in H. rewrite !andb_true_iff, !N.eqb_eq in H. fold p in H. tauto.
Qed.
(** The eight pairs of updates, read at any index. *)
Lemma at_upd : forall l i v k, i < length l -> at_ (upd l i v) k = if k =? i then v else at_ l k.
Proof. intros l i v k H. unfold at_. destruct (Nat.eqb_spec k i) as [->|E]; [now apply nth_upd_same|apply nth_upd_other; lia]. Qed.
Lemma bufstep_all : forall P Q q b, length b = 256 -> P + 8 <= 256 -> Q + 8 <= 256 -> (P + 8 <= Q \/ Q + 8 <= P) ->
  let b' := fold_left (pan_bufstep (N.of_nat P) (N.of_nat Q) q) pan_order b in
  length b' = 256 /\ (forall i, i < 8 -> at_ b' (P + i) = N.lxor (at_ b (P + i)) (at_ b (Q + (i + 2) mod 8))) /\
  (forall i, i < 8 -> at_ b' (Q + i) = N.lxor (at_ b (Q + i)) (q i)) /\
  (forall j, (j < P \/ P + 8 <= j) -> (j < Q \/ Q + 8 <= j) -> at_ b' j = at_ b j).
Proof.
  intros P Q q b L HP HQ HD. cbv zeta.
  assert (G : forall l b0, length b0 = 256 -> Forall (fun ok => fst ok < 8 /\ snd ok < 8) l -> NoDup (map fst l) -> NoDup (map snd l) ->
    let b' := fold_left (pan_bufstep (N.of_nat P) (N.of_nat Q) q) l b0 in length b' = 256 /\
    (forall o k, In (o, k) l -> at_ b' (P + o) = N.lxor (at_ b0 (P + o)) (at_ b0 (Q + k)) /\ at_ b' (Q + k) = N.lxor (at_ b0 (Q + k)) (q k)) /\
    (forall o, o < 8 -> ~ In o (map fst l) -> at_ b' (P + o) = at_ b0 (P + o)) /\ (forall k, k < 8 -> ~ In k (map snd l) -> at_ b' (Q + k) = at_ b0 (Q + k)) /\
    (forall j, (j < P \/ P + 8 <= j) -> (j < Q \/ Q + 8 <= j) -> at_ b' j = at_ b0 j)).
  { induction l as [|[o k] l IH]; intros b0 L0 HF N1 N2; cbv zeta.
    - cbn [fold_left]. split; [exact L0|]. split; [intros o k []|]. repeat split; auto.
    - rewrite fold_left_cons. inversion HF as [|? ? [Ho Hk] HF']; subst. cbn [map fst snd] in N1, N2, Ho, Hk. inversion N1; subst. inversion N2; subst.
      set (b1 := pan_bufstep _ _ q b0 (o, k)).
      assert (S : length b1 = 256 /\ forall j, at_ b1 j = if j =? Q + k then N.lxor (at_ b0 (Q + k)) (q k) else if j =? P + o then N.lxor (at_ b0 (P + o)) (at_ b0 (Q + k)) else at_ b0 j).
      { unfold b1, pan_bufstep, bat. rewrite !Nnat.Nat2N.id. split; [now rewrite !upd_length|]. intro j. rewrite at_upd by (rewrite upd_length; lia). rewrite at_upd by lia.
        replace (Q + k =? P + o) with false by (symmetry; apply Nat.eqb_neq; lia). destruct (j =? Q + k); [reflexivity|]. now rewrite at_upd by lia. }
      destruct S as [L1 S]. clearbody b1.
      destruct (IH b1 L1 HF') as (A & B & C & D & E); try assumption. set (b' := fold_left _ l b1) in *. clearbody b'.
      assert (NI : forall o' k', In (o', k') l -> o' <> o /\ k' <> k /\ o' < 8 /\ k' < 8).
      { intros o' k' HI. rewrite Forall_forall in HF'. specialize (HF' _ HI). cbn [fst snd] in HF'. apply (in_map fst) in HI as H1'. apply (in_map snd) in HI as H2'. cbn [fst snd] in *. repeat split; try tauto; intro; subst; tauto. }
      split; [exact A|]. split; [|split; [|split]].
      + intros o' k' [HI|HI].
        * injection HI as <- <-. rewrite C, D by assumption. rewrite !S, Nat.eqb_refl. replace (P + o =? Q + k) with false by (symmetry; apply Nat.eqb_neq; lia). rewrite Nat.eqb_refl. split; reflexivity.
        * destruct (NI _ _ HI) as (n1 & n2 & l1 & l2). destruct (B _ _ HI) as [B1 B2]. rewrite B1, B2, !S.
          replace (P + o' =? Q + k) with false by (symmetry; apply Nat.eqb_neq; lia). replace (P + o' =? P + o) with false by (symmetry; apply Nat.eqb_neq; lia).
          replace (Q + k' =? Q + k) with false by (symmetry; apply Nat.eqb_neq; lia). replace (Q + k' =? P + o) with false by (symmetry; apply Nat.eqb_neq; lia). split; reflexivity.
      + intros o' Ho' Hn. cbn [map fst In] in Hn. rewrite C by tauto. rewrite S. replace (P + o' =? Q + k) with false by (symmetry; apply Nat.eqb_neq; lia). replace (P + o' =? P + o) with false by (symmetry; apply Nat.eqb_neq; intro; apply Hn; lia). reflexivity.
      + intros k' Hk' Hn. cbn [map snd In] in Hn. rewrite D by tauto. rewrite S. replace (Q + k' =? Q + k) with false by (symmetry; apply Nat.eqb_neq; intro; apply Hn; lia). replace (Q + k' =? P + o) with false by (symmetry; apply Nat.eqb_neq; lia). reflexivity.
      + intros j J1 J2. rewrite E by assumption. rewrite S. replace (j =? Q + k) with false by (symmetry; apply Nat.eqb_neq; lia). replace (j =? P + o) with false by (symmetry; apply Nat.eqb_neq; lia). reflexivity. }
  destruct (G pan_order b L) as (A & B & C & D & E).
  { repeat constructor. } { repeat constructor; cbn; intuition lia. } { repeat constructor; cbn; intuition lia. }
  set (b' := fold_left _ _ _) in *. clearbody b'. split; [exact A|]. split; [|split; [|exact E]].
  - intros i Hi. apply (B i ((i + 2) mod 8)). unfold pan_order. do 8 (destruct i as [|i]; [cbn; tauto|]). lia.
  - intros i Hi. apply (B ((i + 6) mod 8) i). unfold pan_order. do 8 (destruct i as [|i]; [cbn; tauto|]). lia.
Qed.
(** The circular buffer represents the shift register. *)
Definition buf_rep (k : nat) (b : list N) (B : list (list N)) : Prop :=
  k < 32 /\ length b = 256 /\ length B = 32 /\ Forall (fun s => length s = 8) B /\ forall j i, j < 32 -> i < 8 -> at_ b (8 * ((k + j) mod 32) + i) = at_ (stage B j) i.
Definition pan_rep (d : pst) (st : list N * list (list N)) : Prop :=
  p_s d = fst st /\ length (fst st) = 17 /\ exists k, p_ptr d = N.of_nat (8 * k) /\ buf_rep k (p_buf d) (snd st).
Lemma mod32 : forall k j, k < 32 -> j < 32 -> (k + j) mod 32 = if k + j <? 32 then k + j else k + j - 32.
Proof.
  intros k j Hk Hj. destruct (Nat.ltb_spec (k + j) 32); [now apply Nat.mod_small|]. replace (k + j) with (k + j - 32 + 1 * 32) at 1 by lia. rewrite Nat.mod_add by lia. apply Nat.mod_small. lia.
Qed.
Lemma lambda_rep : forall k b B q, buf_rep k b B ->
  let b' := fold_left (pan_bufstep (N.of_nat (8 * ((k + 24) mod 32))) (N.of_nat (8 * ((k + 31) mod 32))) (at_ q)) pan_order b in
  buf_rep ((k + 31) mod 32) b' (pan_lambda B q) /\
  (forall j i, j <> 24 -> j <> 31 -> j < 32 -> i < 8 -> at_ b' (8 * ((k + j) mod 32) + i) = at_ (stage B j) i).
Proof.
  intros k b B q (Hk & Lb & LB & HF & HR). cbv zeta.
  pose proof (mod32 k 24 Hk ltac:(lia)) as M24. pose proof (mod32 k 31 Hk ltac:(lia)) as M31.
  destruct (bufstep_all (8 * ((k + 24) mod 32)) (8 * ((k + 31) mod 32)) (at_ q) b Lb) as (A & P1 & P2 & P3).
  { destruct (k + 24 <? 32) eqn:E; [apply Nat.ltb_lt in E|]; lia. } { destruct (k + 31 <? 32) eqn:E; [apply Nat.ltb_lt in E|]; lia. }
  { destruct (Nat.ltb_spec (k + 24) 32), (Nat.ltb_spec (k + 31) 32); lia. }
  set (b' := fold_left _ _ _) in *. clearbody b'.
  assert (ST : forall j i, j <> 24 -> j <> 31 -> j < 32 -> i < 8 -> at_ b' (8 * ((k + j) mod 32) + i) = at_ (stage B j) i).
  { intros j i n1 n2 Hj Hi. rewrite P3; [now apply HR| |]; rewrite (mod32 k j) by assumption; destruct (Nat.ltb_spec (k + 24) 32), (Nat.ltb_spec (k + 31) 32), (Nat.ltb_spec (k + j) 32); lia. }
  split; [|exact ST].
  split; [apply Nat.mod_upper_bound; lia|]. split; [exact A|]. split; [unfold pan_lambda; now rewrite map_length, seq_length|]. split.
  - unfold pan_lambda. apply Forall_map, Forall_forall. intros j Hj. rewrite in_seq in Hj. destruct (j =? 0); [unfold pan_words; now rewrite map_length, seq_length|]. destruct (j =? 25); [unfold pan_words; now rewrite map_length, seq_length|].
    rewrite Forall_forall in HF. apply HF. unfold stage. apply nth_In. lia.
  - intros j i Hj Hi. unfold stage at 1. unfold pan_lambda.
    rewrite (nth_indep _ [] ((fun j => if j =? 0 then pan_words (fun i => N.lxor (at_ (stage B 31) i) (at_ q i)) 8 else if j =? 25 then pan_words (fun i => N.lxor (at_ (stage B 24) i) (at_ (stage B 31) ((i + 2) mod 8))) 8 else stage B (j - 1)) 0)) by (rewrite map_length, seq_length; exact Hj).
    rewrite (map_nth (fun j => if j =? 0 then pan_words (fun i => N.lxor (at_ (stage B 31) i) (at_ q i)) 8 else if j =? 25 then pan_words (fun i => N.lxor (at_ (stage B 24) i) (at_ (stage B 31) ((i + 2) mod 8))) 8 else stage B (j - 1)) (seq 0 32) 0 j).
    rewrite seq_nth by exact Hj. cbn [Nat.add].
    destruct (Nat.eqb_spec j 0) as [->|J0].
    + rewrite Nat.add_0_r, Nat.mod_mod by lia. rewrite P2 by exact Hi. unfold pan_words. rewrite at_map_seq by exact Hi. now rewrite HR by lia.
    + assert (EJ : ((k + 31) mod 32 + j) mod 32 = (k + (j - 1)) mod 32) by (rewrite Nat.add_mod_idemp_l by lia; replace (k + 31 + j) with (k + (j - 1) + 1 * 32) by lia; apply Nat.mod_add; lia).
      rewrite EJ. destruct (Nat.eqb_spec j 25) as [->|J25].
      * change (25 - 1) with 24. rewrite P1 by exact Hi. unfold pan_words. rewrite at_map_seq by exact Hi. rewrite HR by lia. now rewrite HR by (lia || (apply Nat.mod_upper_bound; lia)).
      * apply ST; lia.
Qed.
Lemma step_rep : forall d st inp q l, pan_rep d st ->
  q = match inp with Some w => w | None => slice (fst st) 1 9 end -> l = match inp with Some w => w | None => stage (snd st) 4 end ->
  pan_rep (pan_oneStep d inp) (pan_iter q l st).
Proof.
  intros d [a B] inp q l (Es & La & k & Ep & HB) Hq Hl. cbn [fst snd] in *. unfold pan_oneStep. cbv zeta. rewrite Ep. destruct HB as (Hk & HB'). pose proof (conj Hk HB' : buf_rep k (p_buf d) B) as HB. 
  destruct (ptrs k Hk) as (E24 & E31 & E16 & E4). cbv zeta in *. rewrite E24, E31, E16, E4. clear E24 E31 E16 E4.
  assert (EQ : fold_left (pan_bufstep (N.of_nat (8 * ((k + 24) mod 32))) (N.of_nat (8 * ((k + 31) mod 32))) (fun k => match inp with Some w => at_ w k | None => at_ (p_s d) (k + 1) end)) pan_order (p_buf d)
    = fold_left (pan_bufstep (N.of_nat (8 * ((k + 24) mod 32))) (N.of_nat (8 * ((k + 31) mod 32))) (at_ q)) pan_order (p_buf d)).
  { apply fold_left_ext_in. intros b [o i] HI. unfold pan_bufstep. cbv zeta. do 2 f_equal. subst q. destruct inp as [w|]; [reflexivity|]. rewrite Es.
    assert (Hi : i < 8) by (unfold pan_order in HI; cbn [In] in HI; repeat (destruct HI as [HI|HI]; [injection HI as <- <-; lia|]); destruct HI).
    clear - La Hi. list17 a La. do 8 (destruct i as [|i]; [reflexivity|]). lia. }
  rewrite EQ. clear EQ. destruct (lambda_rep k (p_buf d) B q HB) as [HB2 ST]. cbv zeta in HB2, ST. set (b' := fold_left _ _ _) in *. clearbody b'.
  split; [|split].
  - cbn [p_s]. rewrite Es. rewrite gpt_ok by exact La. unfold pan_iter. cbn [fst]. set (t := pan_theta _). unfold bat. rewrite !Nnat.Nat2N.id.
    assert (E16 : forall i, i < 8 -> at_ b' (8 * ((k + 16) mod 32) + i) = at_ (stage B 16) i) by (intros; apply ST; lia).
    assert (EL : forall i, i < 8 -> (match inp with Some w => at_ w i | None => at_ b' (8 * ((k + 4) mod 32) + i) end) = at_ l i) by (intros i Hi; subst l; destruct inp; [reflexivity|apply ST; lia]).
    rewrite !E16 by lia. rewrite !EL by lia. reflexivity.
  - unfold pan_iter. cbn [fst]. unfold pan_sigma, pan_words. now rewrite map_length, seq_length.
  - exists ((k + 31) mod 32). split; [reflexivity|]. exact HB2.
Qed.
Lemma block_rep : forall d st p, pan_rep d st -> length p = 32 -> pan_rep (pan_block d p) (pan_push st p).
Proof.
  intros d st p H L. unfold pan_block, pan_push. assert (E : pan_u32s p = map le_val (chunks 4 p)).
  { unfold pan_u32s, chunks. rewrite map_map. apply map_ext. intro i. unfold slice. now replace (i * 4 + 4 - i * 4) with 4 by lia. }
  rewrite E. now apply step_rep.
Qed.
Lemma blocks_rep : forall bl d st, pan_rep d st -> Forall (fun b => length b = 32) bl -> pan_rep (fold_left pan_block bl d) (fold_left pan_push bl st).
Proof. induction bl as [|b bl IH]; intros d st H HF; [exact H|]. inversion HF; subst. rewrite !fold_left_cons. apply IH; [|assumption]. now apply block_rep. Qed.
Lemma pulls_rep : forall n d st, pan_rep d st -> pan_rep (Nat.iter n (fun st => pan_oneStep st None) d) (Nat.iter n pan_pull st).
Proof. induction n as [|n IH]; intros d st H; [exact H|]. cbn [Nat.iter nat_rect]. apply step_rep; [now apply IH|reflexivity|reflexivity]. Qed.
Definition pan_iv : pst := mkpst (zeros 17) (zeros 256) 0.
Lemma iv_rep : pan_rep pan_iv (zeros 17, repeat (zeros 8) 32).
Proof.
  split; [reflexivity|]. split; [reflexivity|]. exists 0. split; [reflexivity|]. split; [lia|]. split; [reflexivity|]. split; [reflexivity|]. split; [repeat constructor|].
  intros j i Hj Hi. cbn [p_buf pan_iv snd]. unfold at_, stage, zeros.
  rewrite (nth_indep _ [] (repeat 0%N 8)) by (rewrite repeat_length; lia). rewrite !nth_repeat. reflexivity.
Qed.
Definition prel (d : dig pst) (m : list N) : Prop := dig_rel 32 pan_block pan_iv 0 d m.
Lemma pan_checkSum_ok : forall d m, prel d m -> pan_checkSum d = panama m.
Proof.
  intros d m (Hs & Hb & _). unfold pan_checkSum. cbv zeta. destruct (pad_block_v 1%N 32 (dx d) (dnx d) m ltac:(lia) Hb) as (A & LP & _). cbv zeta in A, LP. set (pad := upd _ _ _) in *. clearbody pad.
  assert (E : pan_block (ds d) pad = fold_left pan_block (chunks 32 m ++ [pad]) pan_iv) by (rewrite fold_left_app, <- Hs; reflexivity). rewrite E, <- A. unfold panama, pan_pad. change (32 - 1 - length m mod 32) with (31 - length m mod 32).
  assert (HR : pan_rep (fold_left pan_block (chunks 32 (m ++ 1%N :: zeros (31 - length m mod 32))) pan_iv) (fold_left pan_push (chunks 32 (m ++ 1%N :: zeros (31 - length m mod 32))) (zeros 17, repeat (zeros 8) 32))).
  { apply blocks_rep; [exact iv_rep|]. apply chunks_all_length. lia. }
  apply (pulls_rep 32) in HR. set (x := Nat.iter 32 _ _) in *. set (y := Nat.iter 32 pan_pull _) in *. clearbody x y. destruct HR as (Hx & Ly & _). rewrite Hx.
  assert (L : length (concat (map (le_bytes 4) (skipn 9 (fst y)))) = 32) by (rewrite concat_le_length, skipn_length, Ly; reflexivity).
  rewrite firstn_all2 by lia. rewrite copy_at_over by (rewrite L, zeros_length; lia). rewrite L, zeros_skip. change (zeros (32 - 32)) with (@nil N). apply app_nil_r.
Qed.
Lemma pan_new_rel : prel pan_new [].
Proof. apply (dig_rel_new 32 pan_block ltac:(lia)). reflexivity. Qed.
(** C92: every history. *)
Theorem C92_panama_histories : forall ops, run pan_impl pan_new ops = ideal_run panama [] ops.
Proof.
  intros ops. apply (run_refines _ pan_impl panama prel); cbn [i_write i_sum i_reset pan_impl]; auto.
  - intros d' m' p H. apply (write_nolen_rel 32 pan_block ltac:(lia)). exact H.
  - intros. apply (write_nolen_count 32 pan_block).
  - intros d' m' i H. unfold pan_sum. cbn [snd]. apply f_equal. now apply pan_checkSum_ok.
  - intros. exact pan_new_rel.
  - exact pan_new_rel.
Qed.
Lemma panama_length : forall m, length (panama m) = 32.
Proof.
  intro m. unfold panama. cbv zeta. rewrite concat_le_length, skipn_length.
  assert (G : forall n st, length (fst st) = 17 -> length (fst (Nat.iter n pan_pull st)) = 17).
  { intros [|n] st H; [exact H|]. cbn [Nat.iter nat_rect]. destruct (nat_rect _ _ _ n) as [a B]. unfold pan_pull, pan_iter. cbn [fst snd]. unfold pan_sigma, pan_words. now rewrite map_length, seq_length. }
  rewrite G; [reflexivity|]. assert (F : forall bl st, length (fst st) = 17 -> length (fst (fold_left pan_push bl st)) = 17).
  { induction bl as [|b bl IH]; intros [a B] H; [exact H|]. rewrite fold_left_cons. apply IH. unfold pan_push, pan_iter. cbn [fst]. unfold pan_sigma, pan_words. now rewrite map_length, seq_length. }
  apply F. reflexivity.
Qed.
Theorem C92_panama_oneshot : forall m, pan_oneshot m = panama m.
Proof.
  intro m. unfold pan_oneshot, pan_sum. cbn [snd app]. rewrite (pan_checkSum_ok _ m).
  2:{ apply (write_nolen_rel 32 pan_block ltac:(lia) _ pan_new []). exact pan_new_rel. }
  pose proof (panama_length m) as L. rewrite firstn_all2 by lia. rewrite copy_at_over by (rewrite L, zeros_length; lia). rewrite L, zeros_skip. change (zeros (32 - 32)) with (@nil N). apply app_nil_r.
Qed.

(** Known answers (panama_test.go) and a concrete history. *)
Example panama_empty : panama [] = be_bytes 32 0xaa0cc954d757d7ac7779ca3342334ca471abd47d5952ac91ed837ecd5b16922b.
Proof. vm_compute. reflexivity. Qed.
Example panama_T : panama [0x54%N] = be_bytes 32 0x049d698307d8541f22870dfa0a551099d3d02bc6d57c610a06a4585ed8d35ff8.
Proof. vm_compute. reflexivity. Qed.
Example panama_history : run pan_impl pan_new [Write (zeros 70); Sum [3%N]; Reset; Write []; Write [0x54%N]; Sum [7%N]] =
  [Wrote 70; Summed (3%N :: panama (zeros 70)); Wrote 0; Wrote 1; Summed (7%N :: be_bytes 32 0x049d698307d8541f22870dfa0a551099d3d02bc6d57c610a06a4585ed8d35ff8)].
Proof. rewrite C92_panama_histories. cbn [ideal_run app length]. rewrite panama_T. reflexivity. Qed.
