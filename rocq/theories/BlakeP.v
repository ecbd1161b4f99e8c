(** BlakeP.v -- facts shared by the two BLAKE models: how the padded message splits into blocks, and what one
    Write does to a buffer that it does not overfill. *)
From Coq Require Import List NArith Arith Lia Bool.
From Verif Require Import Base Words HashAPI Buf MD SpecBlake.
Import ListNotations.

Section Push.
Context {St : Type}.
Variable bs : nat.
Variable f : St -> list N -> St.
Hypothesis Hbs : 0 < bs.
Lemma push_any : forall st x nx len r p, length r < bs -> buf_ok bs bs x nx r ->
  exists x' nx', fst (write_pre bs f (mkdig st x nx len) p) = mkdig (fold_left f (chunks bs (r ++ p)) st) x' nx' (add64 len (N.of_nat (length p))) /\ buf_ok bs bs x' nx' (r ++ p).
Proof.
  intros st x nx len r p Lr Hb. unfold write_pre. cbn [ds dx dnx dlen].
  destruct (writeA_plain _ f bs st r p x nx Hbs Hb) as (x' & nx' & q & E & Hb'). rewrite (chunks_short _ bs r Lr) in E. cbn [fold_left] in E. rewrite E. cbn [fst]. eauto.
Qed.
Lemma push_part : forall st x nx len r p, length r + length p < bs -> buf_ok bs bs x nx r ->
  exists x' nx', fst (write_pre bs f (mkdig st x nx len) p) = mkdig st x' nx' (add64 len (N.of_nat (length p))) /\ buf_ok bs bs x' nx' (r ++ p).
Proof.
  intros st x nx len r p L Hb. destruct (push_any st x nx len r p ltac:(lia) Hb) as (x' & nx' & E & Hb'). rewrite chunks_short in E by (rewrite app_length; lia). eauto.
Qed.
Lemma push_full : forall st x nx len r p, length r < bs -> length r + length p = bs -> buf_ok bs bs x nx r ->
  exists x', fst (write_pre bs f (mkdig st x nx len) p) = mkdig (f st (r ++ p)) x' 0 (add64 len (N.of_nat (length p))) /\ buf_ok bs bs x' 0 [].
Proof.
  intros st x nx len r p Lr L Hb. destruct (push_any st x nx len r p ltac:(lia) Hb) as (x' & nx' & E & Hb'). rewrite chunks_one in E by (rewrite ?app_length; lia).
  destruct Hb' as (A & B & C). rewrite rest_one in B, C by (rewrite ?app_length; lia). cbn [length] in B. subst nx'. exists x'. split; [exact E|].
  apply buf_ok_nil; assumption.
Qed.
Lemma buf_rest : forall x nx m, buf_ok bs bs x nx m -> buf_ok bs bs x nx (rest bs m).
Proof. intros x nx m (A & B & C). unfold buf_ok. rewrite rest_short by (apply rest_length_lt; lia). auto. Qed.
End Push.

Section Split.
Variable wb : nat.
Variable C : list N -> list N -> N -> list N -> list N.   (* salt, chain, counter, block *)
Hypothesis Hwb : 0 < wb.
Notation bs := (16 * wb).

Lemma combine_app_seq : forall (l1 l2 : list (list N)), combine (seq 0 (length (l1 ++ l2))) (l1 ++ l2) = combine (seq 0 (length l1)) l1 ++ combine (seq (length l1) (length l2)) l2.
Proof.
  intros l1 l2. rewrite app_length, seq_app. cbn [plus]. generalize (seq (length l1) (length l2)). generalize 0. induction l1 as [|a l1 IH]; intros n l; [reflexivity|]. cbn [length seq combine app]. f_equal. apply IH.
Qed.

(** blocks of the padded message beyond the complete blocks of the message *)
Definition one_block (flag : N) (m : list N) : list N :=
  let r := rest bs m in let k := bs - 2 * wb - length r in
  r ++ (if k =? 1 then [(128 + flag)%N] else [128%N] ++ zeros (k - 2) ++ [flag]) ++ be_bytes (2 * wb) (8 * N.of_nat (length m)).
Definition two_blocks (flag : N) (m : list N) : list N * list N :=
  let r := rest bs m in
  (r ++ [128%N] ++ zeros (bs - 1 - length r), zeros (bs - 2 * wb - 1) ++ [flag] ++ be_bytes (2 * wb) (8 * N.of_nat (length m))).

Lemma rest_mod : forall m : list N, length (rest bs m) = length m mod bs.
Proof. intros. apply rest_length. lia. Qed.
Lemma padlen_one : forall m, length (rest bs m) < bs - 2 * wb -> blake_padlen wb m = bs - 2 * wb - length (rest bs m).
Proof.
  intros m H. unfold blake_padlen. cbv zeta. rewrite <- Nat.add_mod_idemp_l by lia. rewrite <- rest_mod. rewrite Nat.mod_small by lia. lia.
Qed.
Lemma padlen_two : forall m, bs - 2 * wb <= length (rest bs m) -> blake_padlen wb m = 2 * bs - 2 * wb - length (rest bs m).
Proof.
  intros m H. pose proof (rest_length_lt _ bs m ltac:(lia)). unfold blake_padlen. cbv zeta. rewrite <- Nat.add_mod_idemp_l by lia. rewrite <- rest_mod.
  replace (length (rest bs m) + 2 * wb) with ((length (rest bs m) + 2 * wb - bs) + 1 * bs) by lia. rewrite Nat.mod_add, Nat.mod_small by lia. lia.
Qed.
Lemma one_block_len : forall flag m, length (rest bs m) < bs - 2 * wb -> length (one_block flag m) = bs.
Proof.
  intros flag m H. unfold one_block. cbv zeta. set (k := bs - 2 * wb - length (rest bs m)). rewrite !app_length, be_bytes_length. destruct (Nat.eqb_spec k 1) as [E|E].
  - cbn [length]. lia.
  - rewrite !app_length, zeros_length. cbn [length]. lia.
Qed.
Lemma blocks_one : forall flag m, length (rest bs m) < bs - 2 * wb ->
  chunks bs (blake_pad wb flag m) = chunks bs m ++ [one_block flag m].
Proof.
  intros flag m H. unfold blake_pad. cbv zeta. rewrite padlen_one by exact H. rewrite chunks_app by lia. f_equal. apply chunks_one; [lia|]. exact (one_block_len flag m H).
Qed.
Lemma blocks_two : forall flag m, bs - 2 * wb <= length (rest bs m) ->
  chunks bs (blake_pad wb flag m) = chunks bs m ++ [fst (two_blocks flag m); snd (two_blocks flag m)].
Proof.
  intros flag m H. pose proof (rest_length_lt _ bs m ltac:(lia)) as L. unfold blake_pad. cbv zeta. rewrite padlen_two by exact H. rewrite chunks_app by lia. f_equal.
  destruct (Nat.eqb_spec (2 * bs - 2 * wb - length (rest bs m)) 1) as [E|E]; [lia|]. unfold two_blocks. cbv zeta. cbn [fst snd].
  set (r := rest bs m) in *. set (lb := be_bytes _ _). assert (Llb : length lb = 2 * wb) by apply be_bytes_length.
  replace (2 * bs - 2 * wb - length r - 2) with ((bs - 1 - length r) + (bs - 2 * wb - 1)) by lia. rewrite <- zeros_app.
  replace (r ++ ([128%N] ++ (zeros (bs - 1 - length r) ++ zeros (bs - 2 * wb - 1)) ++ [flag]) ++ lb) with ((r ++ [128%N] ++ zeros (bs - 1 - length r)) ++ (zeros (bs - 2 * wb - 1) ++ [flag] ++ lb)) by (rewrite <- !app_assoc; reflexivity).
  rewrite chunks_app by lia. rewrite rest_one by (rewrite ?app_length, ?zeros_length; cbn [length]; lia).
  rewrite (chunks_one _ bs (r ++ _)) by (rewrite ?app_length, ?zeros_length; cbn [length]; lia). cbn [app].
  rewrite chunks_one by (rewrite ?app_length, ?zeros_length; cbn [length]; lia). reflexivity.
Qed.

Lemma len_div : forall m : list N, length m = length (chunks bs m) * bs + length (rest bs m).
Proof. intros m. rewrite chunks_length, rest_mod. rewrite (Nat.div_mod (length m) bs) at 1 by lia. lia. Qed.

Lemma counter_full : forall m i, i < length (chunks bs m) -> blake_counter wb m i = (8 * N.of_nat ((i + 1) * bs))%N.
Proof.
  intros m i Hi. unfold blake_counter. cbv zeta. pose proof (len_div m). assert ((i + 1) * bs <= length (chunks bs m) * bs) by (apply Nat.mul_le_mono_r; lia).
  destruct (Nat.ltb_spec (i * bs) (length m)); [|lia]. rewrite Nat.min_r by lia. reflexivity.
Qed.
Lemma counter_last : forall m, rest bs m <> [] -> blake_counter wb m (length (chunks bs m)) = (8 * N.of_nat (length m))%N.
Proof.
  intros m Hr. unfold blake_counter. cbv zeta. pose proof (len_div m). pose proof (rest_length_lt _ bs m ltac:(lia)). assert (0 < length (rest bs m)) by (destruct (rest bs m); [congruence|cbn [length]; lia]).
  destruct (Nat.ltb_spec (length (chunks bs m) * bs) (length m)); [|lia]. rewrite Nat.min_l by lia. reflexivity.
Qed.
Lemma counter_none : forall m, rest bs m = [] -> blake_counter wb m (length (chunks bs m)) = 0%N.
Proof.
  intros m Hr. unfold blake_counter. cbv zeta. pose proof (len_div m) as E. rewrite Hr in E. cbn [length] in E.
  destruct (Nat.ltb_spec (length (chunks bs m) * bs) (length m)); [lia|]. reflexivity.
Qed.
Lemma counter_beyond : forall m, blake_counter wb m (S (length (chunks bs m))) = 0%N.
Proof.
  intros m. unfold blake_counter. cbv zeta. pose proof (len_div m) as E. pose proof (rest_length_lt _ bs m ltac:(lia)).
  destruct (Nat.ltb_spec (S (length (chunks bs m)) * bs) (length m)); [lia|]. reflexivity.
Qed.

(** the folded chain, stepwise *)
Definition chain (cnt : nat -> N) (salt : list N) (bl : list (list N)) (i0 : nat) (h : list N) : list N :=
  fold_left (fun h '(i, b) => C salt h (cnt i) b) (combine (seq i0 (length bl)) bl) h.
Lemma chain_ext : forall c1 c2 s bl i0 h, (forall i, i0 <= i < i0 + length bl -> c1 i = c2 i) -> chain c1 s bl i0 h = chain c2 s bl i0 h.
Proof.
  intros c1 c2 s bl. induction bl as [|b bl IH]; intros i0 h H; [reflexivity|]. unfold chain. cbn [length seq combine fold_left].
  rewrite H by (cbn [length]; lia). apply IH. intros. apply H. cbn [length]. lia.
Qed.
Lemma chain_app : forall c s l1 l2 h, chain c s (l1 ++ l2) 0 h = chain c s l2 (length l1) (chain c s l1 0 h).
Proof. intros. unfold chain. rewrite combine_app_seq, fold_left_app. reflexivity. Qed.
Lemma chain_snoc : forall c s l b h, chain c s (l ++ [b]) 0 h = C s (chain c s l 0 h) (c (length l)) b.
Proof. intros. rewrite chain_app. reflexivity. Qed.

Definition fullcnt (i : nat) : N := (8 * N.of_nat ((i + 1) * bs))%N.

Lemma chain_cases : forall flag salt iv m,
  chain (blake_counter wb m) salt (chunks bs (blake_pad wb flag m)) 0 iv
  = let h := chain fullcnt salt (chunks bs m) 0 iv in
    let n8 := (8 * N.of_nat (length m))%N in
    if length (rest bs m) <? bs - 2 * wb then C salt h (if length (rest bs m) =? 0 then 0%N else n8) (one_block flag m)
    else C salt (C salt h n8 (fst (two_blocks flag m))) 0%N (snd (two_blocks flag m)).
Proof.
  intros flag salt iv m. cbv zeta. rewrite <- (chain_ext (blake_counter wb m) fullcnt salt (chunks bs m) 0 iv) by (intros; apply counter_full; lia).
  destruct (Nat.ltb_spec (length (rest bs m)) (bs - 2 * wb)) as [H|H].
  - rewrite blocks_one by exact H. rewrite chain_snoc. destruct (Nat.eqb_spec (length (rest bs m)) 0) as [E|E].
    + rewrite counter_none by (now apply length_zero_iff_nil). reflexivity.
    + rewrite counter_last by (intros K; apply E; now rewrite K). reflexivity.
  - rewrite blocks_two by exact H. rewrite chain_app. unfold chain at 1. cbn [length seq combine fold_left]. rewrite counter_beyond, counter_last; [reflexivity|].
    intros K. rewrite K in H. cbn [length] in H. lia.
Qed.
End Split.

(** ** Words stay words *)
Section Width.
Variable wb : nat.
Variable add rotr : N -> N -> N.
Variable r1 r2 r3 r4 : N.
Variable rounds : nat.
Variable cst : list N.
Variable isw : N -> Prop.
Hypothesis I0 : isw 0.
Hypothesis Iadd : forall a b, isw (add a b).
Hypothesis Irot : forall a n, isw a -> isw (rotr a n).
Hypothesis Ixor : forall a b, isw a -> isw b -> isw (N.lxor a b).
Hypothesis Icst : Forall isw cst.
Hypothesis Imod : forall t, isw (t mod 2 ^ (8 * N.of_nat wb))%N.
Lemma isw_at : forall l i, Forall isw l -> isw (at_ l i).
Proof. intros l i H. unfold at_. destruct (nth_in_or_default i l 0%N) as [K|K]; [rewrite Forall_forall in H; now apply H|now rewrite K]. Qed.
Lemma isw_upd : forall l i v, Forall isw l -> isw v -> Forall isw (upd l i v).
Proof. induction l as [|a l IH]; intros i v H Hv; [constructor|]. inversion H; subst. destruct i; constructor; auto. Qed.
Lemma isw_quarter : forall m sg v q, Forall isw v -> Forall isw (blake_quarter add rotr r1 r2 r3 r4 cst m sg v q).
Proof.
  intros m sg v [i [[[a b] c] d]] H. unfold blake_quarter. cbv zeta. unfold blake_G. cbv zeta.
  pose proof (isw_at v a H). pose proof (isw_at v b H). pose proof (isw_at v c H). pose proof (isw_at v d H).
  repeat apply isw_upd; auto 10.
Qed.
Lemma fold_inv : forall A B (F : A -> B -> A) (P : A -> Prop), (forall a b, P a -> P (F a b)) -> forall l a, P a -> P (fold_left F l a).
Proof. intros A B F P H l. induction l as [|b l IH]; intros a Ha; [exact Ha|]. cbn [fold_left]. apply IH, H, Ha. Qed.
Lemma isw_rounds : forall m l v, Forall isw v -> Forall isw (fold_left (blake_round add rotr r1 r2 r3 r4 cst m) l v).
Proof. intros m l v Hv. apply fold_inv; [|exact Hv]. intros v' r Hv'. unfold blake_round. apply fold_inv; [|exact Hv']. intros v2 q Hv2. now apply isw_quarter. Qed.
Lemma isw_fin : forall (s h v : list N), Forall isw s -> Forall isw h -> Forall isw v ->
  Forall isw (map (fun i => N.lxor (N.lxor (N.lxor (at_ h i) (at_ s (i mod 4))) (at_ v i)) (at_ v (i + 8))) (seq 0 8)).
Proof.
  intros s h v Hs Hh Hv. apply Forall_forall. intros y Hy. apply in_map_iff in Hy. destruct Hy as (i & Ey & _). rewrite <- Ey. repeat apply Ixor; now apply isw_at.
Qed.
Lemma isw_compress : forall s h t p, Forall isw s -> Forall isw h -> Forall isw (blake_compress wb add rotr r1 r2 r3 r4 rounds cst s h t p).
Proof.
  intros s h t p Hs Hh. unfold blake_compress. cbv zeta. apply isw_fin; [exact Hs|exact Hh|]. apply isw_rounds. repeat constructor; auto using isw_at.
Qed.
Lemma isw_chain : forall c s bl i h, Forall isw s -> Forall isw h -> Forall isw (chain (blake_compress wb add rotr r1 r2 r3 r4 rounds cst) c s bl i h).
Proof.
  intros c s bl. induction bl as [|b bl IH]; intros i h Hs Hh; [exact Hh|]. unfold chain. cbn [length seq combine fold_left]. apply IH; [exact Hs|]. now apply isw_compress.
Qed.
End Width.

Lemma firstn_concat_be : forall w h k, firstn (k * w) (concat (map (be_bytes w) h)) = concat (map (be_bytes w) (firstn k h)).
Proof.
  intros w h. induction h as [|x h IH]; intros k; [destruct k; now rewrite ?firstn_nil|]. destruct k as [|k]; [reflexivity|].
  rewrite firstn_cons. cbn [map concat Nat.mul]. rewrite firstn_app, be_bytes_length. rewrite firstn_all2 by (rewrite be_bytes_length; lia). f_equal.
  replace (w + k * w - w) with (k * w) by lia. apply IH.
Qed.
