(** PropHaraka.v -- C106: the haraka package. *)
From Coq Require Import List NArith Arith Lia.
Require Import Verif.Base Verif.Words Verif.Buf Verif.Refine Verif.SpecAes Verif.Kupyna Verif.Shavite Verif.ShaviteP Verif.PropEcho Verif.SpecHaraka Verif.HarakaTab Verif.Haraka.
Import ListNotations.
Local Open Scope nat_scope.

Ltac list16 v := do 16 (destruct v as [|? v]; [discriminate|]); destruct v; [|discriminate].
(** ** One AES round *)
Lemma t_eq : hk_t0 = sv_AES0 /\ hk_t1 = sv_AES1 /\ hk_t2 = sv_AES2 /\ hk_t3 = sv_AES3.
Proof. repeat split; vm_compute; reflexivity. Qed.
Lemma hkt_col : forall a b c d, N.lxor (N.lxor (N.lxor (hkt hk_t0 a) (hkt hk_t1 b)) (hkt hk_t2 c)) (hkt hk_t3 d) = le_val (colb (w8 a) (w8 b) (w8 c) (w8 d)).
Proof. intros. destruct t_eq as (-> & -> & -> & ->). unfold hkt. apply col_ok; apply w8_lt. Qed.
Lemma le4 : forall a, le_bytes 4 a = [w8 a; w8 (N.shiftr a 8); w8 (N.shiftr a 16); w8 (N.shiftr a 24)].
Proof. intro a. rewrite le_bytes_map. cbn [seq map N.of_nat N.mul Pos.mul Pos.of_succ_nat Pos.succ]. now rewrite N.shiftr_0_r. Qed.
Lemma le4_lxor : forall a b, le_bytes 4 (N.lxor a b) = hk_xor (le_bytes 4 a) (le_bytes 4 b).
Proof.
  intros. rewrite !le4, !w8_shiftr_lxor. unfold hk_xor. cbn [combine map fst snd].
  pose proof (w8_shiftr_lxor a b 0) as E. rewrite !N.shiftr_0_r in E. now rewrite E.
Qed.
Definition col4 (ws : list N) : list (list N) := map (le_bytes 4) ws.
Definition E (n : nat) (b : list N) : list N := hk_aesenc (at_ hk_RC n) b.
Lemma E_length : forall n b, length (E n b) = 16.
Proof. intros. unfold E, hk_aesenc, hk_xor. rewrite map_length, combine_length, le_bytes_length. unfold aes_round, mix_columns. rewrite map_length, seq_length. reflexivity. Qed.
Lemma xor44 : forall a b c d k0 k1 k2 k3, length a = 4 -> length b = 4 -> length c = 4 -> length d = 4 -> length k0 = 4 -> length k1 = 4 -> length k2 = 4 -> length k3 = 4 ->
  chunks 4 (hk_xor (a ++ b ++ c ++ d) (k0 ++ k1 ++ k2 ++ k3)) = [hk_xor a k0; hk_xor b k1; hk_xor c k2; hk_xor d k3].
Proof.
  intros. do 5 (destruct a as [|? a]; try discriminate). do 5 (destruct b as [|? b]; try discriminate). do 5 (destruct c as [|? c]; try discriminate). do 5 (destruct d as [|? d]; try discriminate).
  do 5 (destruct k0 as [|? k0]; try discriminate). do 5 (destruct k1 as [|? k1]; try discriminate). do 5 (destruct k2 as [|? k2]; try discriminate). do 5 (destruct k3 as [|? k3]; try discriminate).
  reflexivity.
Qed.
Lemma le4_colb : forall a b c d, le_bytes 4 (le_val (colb (w8 a) (w8 b) (w8 c) (w8 d))) = colb (w8 a) (w8 b) (w8 c) (w8 d).
Proof.
  intros. destruct (colb_ex (w8 a) (w8 b) (w8 c) (w8 d) (w8_lt _) (w8_lt _) (w8_lt _) (w8_lt _)) as (x0 & x1 & x2 & x3 & -> & ? & ? & ? & ?).
  apply (le_bytes_le_val [x0; x1; x2; x3]). repeat constructor; assumption.
Qed.
Lemma aesRound_ok : forall k0 k1 k2 k3 a0 a1 a2 a3,
  col4 (hk_aesRound [k0; k1; k2; k3] [a0; a1; a2; a3]) = chunks 4 (hk_xor (aes_round (concat (col4 [a0; a1; a2; a3]))) (concat (col4 [k0; k1; k2; k3]))).
Proof.
  intros. unfold hk_aesRound. change (at_ [a0; a1; a2; a3] 0) with a0. change (at_ [a0; a1; a2; a3] 1) with a1. change (at_ [a0; a1; a2; a3] 2) with a2. change (at_ [a0; a1; a2; a3] 3) with a3. cbv zeta.
  change (at_ [k0; k1; k2; k3] 0) with k0. change (at_ [k0; k1; k2; k3] 1) with k1. change (at_ [k0; k1; k2; k3] 2) with k2. change (at_ [k0; k1; k2; k3] 3) with k3.
  rewrite !hkt_col. unfold col4. cbn [map concat]. rewrite !app_nil_r. rewrite !le4_lxor, !le4_colb.
  rewrite (le4 a0), (le4 a1), (le4 a2), (le4 a3). cbn [app]. rewrite aes_round_colb.
  rewrite xor44 by (reflexivity || apply le_bytes_length). reflexivity.
Qed.
(** The round constants: words, bytes in memory. *)
Lemma rc_check : forallb (fun n => if list_eq_dec N.eq_dec (concat (col4 (slice hk_rc (4 * n) (4 * n + 4)))) (le_bytes 16 (at_ hk_RC n)) then
  if list_eq_dec N.eq_dec (slice hk_rcmem (16 * n) (16 * n + 16)) (le_bytes 16 (at_ hk_RC n)) then true else false else false) (seq 0 40) = true.
Proof. vm_compute. reflexivity. Qed.
Lemma rc_ok : forall n, n < 40 -> concat (col4 (slice hk_rc (4 * n) (4 * n + 4))) = le_bytes 16 (at_ hk_RC n) /\ slice hk_rcmem (16 * n) (16 * n + 16) = le_bytes 16 (at_ hk_RC n).
Proof.
  intros n Hn. pose proof rc_check as H. rewrite forallb_forall in H. specialize (H n ltac:(apply in_seq; lia)). cbv beta in H.
  destruct (list_eq_dec N.eq_dec (concat _) _) as [e|]; [|discriminate]. destruct (list_eq_dec N.eq_dec (slice hk_rcmem _ _) _) as [e'|]; [|discriminate]. now split.
Qed.
Lemma rc_len : length hk_rc = 160. Proof. reflexivity. Qed.
Opaque hk_rc hk_RC hk_rcmem aes_round.
Lemma list4 : forall (l : list N), length l = 4 -> exists a b c d, l = [a; b; c; d].
Proof. intros l L. do 5 (destruct l as [|? l]; try discriminate). eauto. Qed.
Lemma slice4 : forall (l : list N) s, s + 4 <= length l -> length (slice l s (s + 4)) = 4.
Proof. intros. unfold slice. rewrite firstn_length, skipn_length. lia. Qed.
Lemma hk_on_ok : forall n s st, n < 40 -> s + 4 <= length st ->
  col4 (hk_on (4 * n) s st) = firstn s (col4 st) ++ chunks 4 (E n (concat (firstn 4 (skipn s (col4 st))))) ++ skipn (s + 4) (col4 st).
Proof.
  intros n s st Hn Hs. unfold hk_on.
  destruct (list4 (slice hk_rc (4 * n) (4 * n + 4))) as (k0 & k1 & k2 & k3 & EK); [apply slice4; rewrite rc_len; lia|].
  destruct (list4 (slice st s (s + 4))) as (a0 & a1 & a2 & a3 & EA); [now apply slice4|].
  pose proof (aesRound_ok k0 k1 k2 k3 a0 a1 a2 a3) as R. rewrite <- EK, <- EA in R. rewrite (proj1 (rc_ok n Hn)) in R. fold (hk_aesenc (at_ hk_RC n) (concat (col4 (slice st s (s + 4))))) in R. fold (E n (concat (col4 (slice st s (s + 4))))) in R.
  set (r := hk_aesRound _ _) in *. assert (Lr : length r = 4) by reflexivity. clearbody r.
  unfold copy_at. unfold col4 in *. rewrite !map_app, <- !firstn_map, <- !skipn_map, Lr.
  rewrite (firstn_all2 (n := length st - s)) by (rewrite map_length; lia). rewrite R. rewrite Nat.min_r by lia.
  do 3 f_equal. unfold slice. replace (s + 4 - s) with 4 by lia. now rewrite <- firstn_map, <- skipn_map.
Qed.
(** ** States as lists of 16-byte blocks *)
Definition cols (X : list (list N)) : list (list N) := flat_map (chunks 4) X.
Lemma chunks16 : forall v : list N, length v = 16 -> chunks 4 v = [slice v 0 4; slice v 4 8; slice v 8 12; slice v 12 16].
Proof. intros v L. unfold chunks. rewrite L. reflexivity. Qed.
Lemma slices16 : forall v : list N, length v = 16 -> slice v 0 4 ++ slice v 4 8 ++ slice v 8 12 ++ slice v 12 16 = v.
Proof. intros v L. list16 v. reflexivity. Qed.
Lemma layer2_ok : forall b X0 X1, length X0 = 16 -> length X1 = 16 -> hk_layer 2 b (cols [X0; X1]) = cols [E b X0; E (b + 1) X1].
Proof.
  intros b X0 X1 L0 L1. unfold hk_layer, cols. cbn [flat_map seq]. rewrite !app_nil_r, (chunks16 X0), (chunks16 X1) by assumption. cbn [app Nat.mul Nat.add firstn skipn concat]. rewrite !app_nil_r, !slices16 by assumption. rewrite Nat.add_0_r. reflexivity.
Qed.
Lemma layer4_ok : forall b X0 X1 X2 X3, length X0 = 16 -> length X1 = 16 -> length X2 = 16 -> length X3 = 16 ->
  hk_layer 4 b (cols [X0; X1; X2; X3]) = cols [E b X0; E (b + 1) X1; E (b + 2) X2; E (b + 3) X3].
Proof.
  intros b X0 X1 X2 X3 L0 L1 L2 L3. unfold hk_layer, cols. cbn [flat_map seq]. rewrite !app_nil_r, (chunks16 X0), (chunks16 X1), (chunks16 X2), (chunks16 X3) by assumption. cbn [app Nat.mul Nat.add firstn skipn concat]. rewrite !app_nil_r, !slices16 by assumption. rewrite Nat.add_0_r. reflexivity.
Qed.
Definition lo (b a : list N) : list N := slice b 0 4 ++ slice a 0 4 ++ slice b 4 8 ++ slice a 4 8.
Definition hi (b a : list N) : list N := slice b 8 12 ++ slice a 8 12 ++ slice b 12 16 ++ slice a 12 16.
Definition mixb256 (X : list (list N)) : list (list N) := let x := fun j => nth j X [] in [lo (x 0) (x 1); hi (x 0) (x 1)].
Definition mixb512 (X : list (list N)) : list (list N) :=
  let x := fun j => nth j X [] in
  let l0 := lo (x 0) (x 1) in let h0 := hi (x 0) (x 1) in let l1 := lo (x 2) (x 3) in let h1 := hi (x 2) (x 3) in
  [hi h0 h1; lo l1 l0; hi l1 l0; lo h0 h1].
Lemma mix256_ok : forall X0 X1, length X0 = 16 -> length X1 = 16 -> hk_mix256 (cols [X0; X1]) = cols (mixb256 [X0; X1]).
Proof. intros X0 X1 L0 L1. list16 X0. list16 X1. reflexivity. Qed.
Lemma mix512_ok : forall X0 X1 X2 X3, length X0 = 16 -> length X1 = 16 -> length X2 = 16 -> length X3 = 16 -> hk_mix512 (cols [X0; X1; X2; X3]) = cols (mixb512 [X0; X1; X2; X3]).
Proof. intros X0 X1 X2 X3 L0 L1 L2 L3. list16 X0. list16 X1. list16 X2. list16 X3. reflexivity. Qed.
Lemma lohi_len : forall a b, length a = 16 -> length b = 16 -> length (lo a b) = 16 /\ length (hi a b) = 16.
Proof. intros a b La Lb. list16 a. list16 b. split; reflexivity. Qed.
(** One round on blocks. *)
Definition rb256 (X : list (list N)) (i : nat) : list (list N) :=
  let x := fun j => nth j X [] in mixb256 [E (4 * i + 2) (E (4 * i) (x 0)); E (4 * i + 3) (E (4 * i + 1) (x 1))].
Definition rb512 (X : list (list N)) (i : nat) : list (list N) :=
  let x := fun j => nth j X [] in mixb512 [E (8 * i + 4) (E (8 * i) (x 0)); E (8 * i + 5) (E (8 * i + 1) (x 1)); E (8 * i + 6) (E (8 * i + 2) (x 2)); E (8 * i + 7) (E (8 * i + 3) (x 3))].
Lemma pi256_ok : forall is X0 X1, length X0 = 16 -> length X1 = 16 -> exists Y0 Y1, fold_left rb256 is [X0; X1] = [Y0; Y1] /\ length Y0 = 16 /\ length Y1 = 16 /\
  fold_left (fun s i => hk_mix256 (hk_layer 2 (4 * i + 2) (hk_layer 2 (4 * i) s))) is (cols [X0; X1]) = cols [Y0; Y1].
Proof.
  induction is as [|i is IH]; intros X0 X1 L0 L1; [exists X0, X1; repeat split; assumption|].
  cbn [fold_left]. rewrite layer2_ok by assumption. rewrite layer2_ok by apply E_length. rewrite mix256_ok by apply E_length. rewrite <- Nat.add_assoc. cbn [Nat.add].
  unfold rb256 at 2. cbn [nth]. unfold mixb256. cbn [nth]. cbv zeta. apply IH; apply lohi_len; apply E_length.
Qed.
Lemma pi512_ok : forall is X0 X1 X2 X3, length X0 = 16 -> length X1 = 16 -> length X2 = 16 -> length X3 = 16 -> exists Y0 Y1 Y2 Y3, fold_left rb512 is [X0; X1; X2; X3] = [Y0; Y1; Y2; Y3] /\ length Y0 = 16 /\ length Y1 = 16 /\ length Y2 = 16 /\ length Y3 = 16 /\
  fold_left (fun s i => hk_mix512 (hk_layer 4 (8 * i + 4) (hk_layer 4 (8 * i) s))) is (cols [X0; X1; X2; X3]) = cols [Y0; Y1; Y2; Y3].
Proof.
  induction is as [|i is IH]; intros X0 X1 X2 X3 L0 L1 L2 L3; [exists X0, X1, X2, X3; repeat split; assumption|].
  cbn [fold_left]. rewrite layer4_ok by assumption. rewrite layer4_ok by apply E_length. rewrite mix512_ok by apply E_length. rewrite <- !Nat.add_assoc. cbn [Nat.add].
  unfold rb512 at 2. cbn [nth]. unfold mixb512. cbn [nth]. cbv zeta. apply IH; apply lohi_len; apply lohi_len; apply E_length.
Qed.
(** ** The portable path *)
Lemma get_ok : forall n src, isbytes src -> length src = 4 * n -> col4 (hk_get n src) = chunks 4 src /\ length (hk_get n src) = n.
Proof.
  intros n src B L. split; [|unfold hk_get; now rewrite map_length, seq_length].
  unfold col4, hk_get, chunks. rewrite map_map, L. rewrite Nat.mul_comm, Nat.div_mul by lia. apply map_ext_in. intros i Hi. apply in_seq in Hi.
  replace (i * 4) with (4 * i) by lia. fold (slice src (4 * i) (4 * i + 4)). assert (L4 : length (slice src (4 * i) (4 * i + 4)) = 4) by (apply slice4; lia).
  pose proof (le_bytes_le_val (slice src (4 * i) (4 * i + 4)) ltac:(unfold slice; now apply isbytes_firstn, isbytes_skipn)) as H. rewrite L4 in H. rewrite H. unfold slice. f_equal. lia.
Qed.
Lemma cols_slices : forall src, isbytes src -> forall n, length src = 16 * n -> chunks 4 src = cols (map (fun j => slice src (16 * j) (16 * j + 16)) (seq 0 n)).
Proof.
  intros src B n. revert src B. induction n as [|n IH]; intros src B L.
  - destruct src; [reflexivity|discriminate].
  - rewrite <- (firstn_skipn 16 src) at 1. assert (L1 : length (firstn 16 src) = 16) by (rewrite firstn_length; lia).
    rewrite chunks_app by lia. assert (R : rest 4 (firstn 16 src) = []). { set (v := firstn 16 src) in *. clearbody v. list16 v. reflexivity. }
    rewrite R. cbn [app]. rewrite (IH (skipn 16 src)) by (try apply isbytes_skipn; rewrite ?skipn_length; try lia; assumption).
    cbn [seq map]. unfold cols. cbn [flat_map]. apply f_equal2; [reflexivity|]. apply (f_equal (flat_map (chunks 4))). rewrite <- seq_shift, map_map. apply map_ext. intro j. unfold slice. rewrite skipn_skipn. apply f_equal2; [lia|]. f_equal. lia.
Qed.
Lemma on_len : forall k s st, s <= length st -> length (hk_on k s st) = length st.
Proof. intros. unfold hk_on. now apply copy_at_length. Qed.
Lemma col4_len : forall st, length (col4 st) = length st.
Proof. intro. apply map_length. Qed.
Lemma cols_at : forall A B X, length X = 16 -> (forall a, In a A -> length a = 16) ->
  let c := cols (A ++ X :: B) in let s := 4 * length A in
  firstn s c = cols A /\ concat (firstn 4 (skipn s c)) = X /\ skipn (s + 4) c = cols B.
Proof.
  intros A B X L HA. cbv zeta. assert (LA : length (cols A) = 4 * length A).
  { induction A as [|a A IH]; [reflexivity|]. unfold cols in *. cbn [flat_map length]. rewrite app_length, IH by (intros; apply HA; now right). rewrite chunks16 by (apply HA; now left). cbn [length]. lia. }
  unfold cols. rewrite flat_map_app. cbn [flat_map]. fold (cols A). fold (cols B).
  split; [apply firstn_app_len; exact LA|]. split.
  - rewrite skipn_app_len by exact LA. rewrite chunks16 by exact L. cbn [app firstn concat]. rewrite app_nil_r. now apply slices16.
  - rewrite app_assoc. apply skipn_app_len. rewrite app_length, LA, chunks16 by exact L. cbn [length]. lia.
Qed.
Lemma on_cols : forall n A B X st, n < 40 -> length X = 16 -> (forall a, In a A -> length a = 16) -> (forall a, In a B -> length a = 16) -> col4 st = cols (A ++ X :: B) ->
  col4 (hk_on (4 * n) (4 * length A) st) = cols (A ++ E n X :: B).
Proof.
  intros n A B X st Hn L HA HB HC. assert (LS : 4 * length A + 4 <= length st).
  { rewrite <- col4_len, HC. destruct (cols_at A B X L HA) as (E1 & E2 & E3). cbv zeta in *.
    destruct (le_lt_dec (4 * length A + 4) (length (cols (A ++ X :: B)))) as [|H]; [assumption|exfalso].
    assert (HH : length (cols (A ++ X :: B)) = length (cols A) + (length (chunks 4 X) + length (cols B))) by (unfold cols; rewrite flat_map_app; cbn [flat_map]; now rewrite !app_length).
    rewrite chunks16 in HH by exact L. cbn [length] in HH.
    assert (LA : length (cols A) = 4 * length A).
    { clear - HA. induction A as [|a A IH]; [reflexivity|]. unfold cols in *. cbn [flat_map length]. rewrite app_length, IH by (intros; apply HA; now right). rewrite chunks16 by (apply HA; now left). cbn [length]. lia. }
    lia. }
  rewrite hk_on_ok by assumption. rewrite HC. destruct (cols_at A B X L HA) as (E1 & E2 & E3). cbv zeta in *. rewrite E1, E2, E3.
  unfold cols. rewrite flat_map_app. reflexivity.
Qed.
Ltac len16 := repeat match goal with H : In _ (_ :: _) |- _ => destruct H as [<-|H] | H : In _ [] |- _ => destruct H end; first [assumption|apply E_length].
Lemma ref_round256 : forall i st X0 X1, i < 5 -> length st = 8 -> length X0 = 16 -> length X1 = 16 -> col4 st = cols [X0; X1] ->
  let st' := hk_mixr256 (hk_on (16 * i + 12) 4 (hk_on (16 * i + 8) 0 (hk_on (16 * i + 4) 4 (hk_on (16 * i) 0 st)))) in
  length st' = 8 /\ col4 st' = cols (rb256 [X0; X1] i).
Proof.
  intros i st X0 X1 Hi L L0 L1 HC. cbv zeta. split; [reflexivity|].
  replace (16 * i) with (4 * (4 * i)) by lia. replace (4 * (4 * i) + 4) with (4 * (4 * i + 1)) by lia. replace (4 * (4 * i) + 8) with (4 * (4 * i + 2)) by lia. replace (4 * (4 * i) + 12) with (4 * (4 * i + 3)) by lia.
  pose proof (on_cols (4 * i) [] [X1] X0 st ltac:(lia) L0 ltac:(intros; len16) ltac:(intros; len16) HC) as H1. cbn [length app] in H1. change (4 * 0) with 0 in H1.
  set (s1 := hk_on (4 * (4 * i)) 0 st) in *. assert (Ls1 : length s1 = 8) by (unfold s1; rewrite on_len; lia). clearbody s1.
  pose proof (on_cols (4 * i + 1) [E (4 * i) X0] [] X1 s1 ltac:(lia) L1 ltac:(intros; len16) ltac:(intros; len16) H1) as H2. cbn [length app] in H2. change (4 * 1) with 4 in H2.
  set (s2 := hk_on (4 * (4 * i + 1)) 4 s1) in *. assert (Ls2 : length s2 = 8) by (unfold s2; rewrite on_len; lia). clearbody s2.
  pose proof (on_cols (4 * i + 2) [] [E (4 * i + 1) X1] (E (4 * i) X0) s2 ltac:(lia) (E_length _ _) ltac:(intros; len16) ltac:(intros; len16) H2) as H3. cbn [length app] in H3. change (4 * 0) with 0 in H3.
  set (s3 := hk_on (4 * (4 * i + 2)) 0 s2) in *. assert (Ls3 : length s3 = 8) by (unfold s3; rewrite on_len; lia). clearbody s3.
  pose proof (on_cols (4 * i + 3) [E (4 * i + 2) (E (4 * i) X0)] [] (E (4 * i + 1) X1) s3 ltac:(lia) (E_length _ _) ltac:(intros; len16) ltac:(intros; len16) H3) as H4. cbn [length app] in H4. change (4 * 1) with 4 in H4.
  set (s4 := hk_on (4 * (4 * i + 3)) 4 s3) in *. assert (Ls4 : length s4 = 8) by (unfold s4; rewrite on_len; lia). clearbody s4.
  unfold rb256. cbn [nth]. rewrite <- mix256_ok by apply E_length. rewrite <- H4.
  do 8 (destruct s4 as [|? s4]; [discriminate|]). destruct s4; [|discriminate]. reflexivity.
Qed.
Ltac onstep n A B X s H :=
  let H' := fresh "H" in let s' := fresh "s" in let L' := fresh "L" in
  pose proof (on_cols n A B X s ltac:(lia) ltac:(first [assumption|apply E_length]) ltac:(intros; len16) ltac:(intros; len16) H) as H';
  cbn [length app] in H'.
Lemma ref_round512 : forall i st X0 X1 X2 X3, i < 5 -> length st = 16 -> length X0 = 16 -> length X1 = 16 -> length X2 = 16 -> length X3 = 16 -> col4 st = cols [X0; X1; X2; X3] ->
  let st' := hk_mixr512 (hk_on (32 * i + 28) 12 (hk_on (32 * i + 24) 8 (hk_on (32 * i + 20) 4 (hk_on (32 * i + 16) 0
    (hk_on (32 * i + 12) 12 (hk_on (32 * i + 8) 8 (hk_on (32 * i + 4) 4 (hk_on (32 * i) 0 st)))))))) in
  length st' = 16 /\ col4 st' = cols (rb512 [X0; X1; X2; X3] i).
Proof.
  intros i st X0 X1 X2 X3 Hi L L0 L1 L2 L3 HC. cbv zeta. split; [reflexivity|].
  replace (32 * i) with (4 * (8 * i)) by lia. replace (4 * (8 * i) + 4) with (4 * (8 * i + 1)) by lia. replace (4 * (8 * i) + 8) with (4 * (8 * i + 2)) by lia. replace (4 * (8 * i) + 12) with (4 * (8 * i + 3)) by lia.
  replace (4 * (8 * i) + 16) with (4 * (8 * i + 4)) by lia. replace (4 * (8 * i) + 20) with (4 * (8 * i + 5)) by lia. replace (4 * (8 * i) + 24) with (4 * (8 * i + 6)) by lia. replace (4 * (8 * i) + 28) with (4 * (8 * i + 7)) by lia.
  onstep (8 * i) (@nil (list N)) [X1; X2; X3] X0 st HC. change (4 * 0) with 0 in H. set (s1 := hk_on (4 * (8 * i)) 0 st) in *. assert (Ls1 : length s1 = 16) by (unfold s1; rewrite on_len; lia). clearbody s1.
  onstep (8 * i + 1) [E (8 * i) X0] [X2; X3] X1 s1 H. change (4 * 1) with 4 in H0. set (s2 := hk_on (4 * (8 * i + 1)) 4 s1) in *. assert (Ls2 : length s2 = 16) by (unfold s2; rewrite on_len; lia). clearbody s2.
  onstep (8 * i + 2) [E (8 * i) X0; E (8 * i + 1) X1] [X3] X2 s2 H0. change (4 * 2) with 8 in H1. set (s3 := hk_on (4 * (8 * i + 2)) 8 s2) in *. assert (Ls3 : length s3 = 16) by (unfold s3; rewrite on_len; lia). clearbody s3.
  onstep (8 * i + 3) [E (8 * i) X0; E (8 * i + 1) X1; E (8 * i + 2) X2] (@nil (list N)) X3 s3 H1. change (4 * 3) with 12 in H2. set (s4 := hk_on (4 * (8 * i + 3)) 12 s3) in *. assert (Ls4 : length s4 = 16) by (unfold s4; rewrite on_len; lia). clearbody s4.
  assert (M : forall j X, length (E j X) = 16) by apply E_length.
  set (Y0 := E (8 * i) X0) in *. set (Y1 := E (8 * i + 1) X1) in *. set (Y2 := E (8 * i + 2) X2) in *. set (Y3 := E (8 * i + 3) X3) in *.
  assert (LY0 : length Y0 = 16) by apply M. assert (LY1 : length Y1 = 16) by apply M. assert (LY2 : length Y2 = 16) by apply M. assert (LY3 : length Y3 = 16) by apply M.
  onstep (8 * i + 4) (@nil (list N)) [Y1; Y2; Y3] Y0 s4 H2. change (4 * 0) with 0 in H3. set (s5 := hk_on (4 * (8 * i + 4)) 0 s4) in *. assert (Ls5 : length s5 = 16) by (unfold s5; rewrite on_len; lia). clearbody s5.
  onstep (8 * i + 5) [E (8 * i + 4) Y0] [Y2; Y3] Y1 s5 H3. change (4 * 1) with 4 in H4. set (s6 := hk_on (4 * (8 * i + 5)) 4 s5) in *. assert (Ls6 : length s6 = 16) by (unfold s6; rewrite on_len; lia). clearbody s6.
  onstep (8 * i + 6) [E (8 * i + 4) Y0; E (8 * i + 5) Y1] [Y3] Y2 s6 H4. change (4 * 2) with 8 in H5. set (s7 := hk_on (4 * (8 * i + 6)) 8 s6) in *. assert (Ls7 : length s7 = 16) by (unfold s7; rewrite on_len; lia). clearbody s7.
  onstep (8 * i + 7) [E (8 * i + 4) Y0; E (8 * i + 5) Y1; E (8 * i + 6) Y2] (@nil (list N)) Y3 s7 H5. change (4 * 3) with 12 in H6. set (s8 := hk_on (4 * (8 * i + 7)) 12 s7) in *. assert (Ls8 : length s8 = 16) by (unfold s8; rewrite on_len; lia). clearbody s8.
  unfold rb512. cbn [nth]. rewrite <- mix512_ok by apply E_length. fold Y0 Y1 Y2 Y3. rewrite <- H6.
  list16 s8. reflexivity.
Qed.
Lemma add_ok : forall n st src, isbytes src -> length src = 4 * n -> length st = n ->
  let st' := map (fun i => N.lxor (at_ st i) (le_val (slice src (4 * i) (4 * i + 4)))) (seq 0 n) in
  length st' = n /\ col4 st' = hk_add (col4 st) (chunks 4 src).
Proof.
  intros n st src B L LS. cbv zeta. split; [now rewrite map_length, seq_length|].
  rewrite <- (proj1 (get_ok n src B L)). unfold col4, hk_get, hk_add. rewrite !map_map.
  assert (ES : map (le_bytes 4) st = map (fun i => le_bytes 4 (at_ st i)) (seq 0 n)).
  { rewrite <- (map_map (at_ st) (le_bytes 4)). f_equal. rewrite <- LS. symmetry. apply Ascon2.map_at. }
  rewrite ES. clear. generalize (seq 0 n). intro l. induction l as [|i l IH]; [reflexivity|]. cbn [map combine]. rewrite <- IH. f_equal. cbn [fst snd]. apply le4_lxor.
Qed.
Lemma out_perm : forall is st, (forall i, In i is -> i < length st) -> map (fun i => le_bytes 4 (at_ st i)) is = hk_perm is (col4 st).
Proof.
  intros is st H. unfold hk_perm. apply map_ext_in. intros i Hi. specialize (H i Hi). unfold col4. rewrite (nth_indep _ [] (le_bytes 4 0)) by now rewrite map_length. now rewrite map_nth.
Qed.
Lemma seq_perm : forall (s : list (list N)), hk_perm (seq 0 (length s)) s = s.
Proof. intro s. unfold hk_perm. induction s as [|a s IH]; [reflexivity|]. cbn [length seq map nth]. f_equal. rewrite <- seq_shift, map_map. exact IH. Qed.
Lemma ref256_ok : forall src, isbytes src -> length src = 32 -> haraka256Ref src = haraka256 src.
Proof.
  intros src B L. unfold haraka256Ref, haraka256, hk_pi256.
  destruct (get_ok 8 src B L) as [G GL]. rewrite (cols_slices src B 2 L) in *. change (map _ (seq 0 2)) with [slice src 0 16; slice src 16 32] in *.
  assert (F : forall is, (forall i, In i is -> i < 5) -> forall st X0 X1, length st = 8 -> length X0 = 16 -> length X1 = 16 -> col4 st = cols [X0; X1] ->
    let st' := fold_left (fun st i => hk_mixr256 (hk_on (16 * i + 12) 4 (hk_on (16 * i + 8) 0 (hk_on (16 * i + 4) 4 (hk_on (16 * i) 0 st))))) is st in
    length st' = 8 /\ col4 st' = fold_left (fun s i => hk_mix256 (hk_layer 2 (4 * i + 2) (hk_layer 2 (4 * i) s))) is (cols [X0; X1])).
  { induction is as [|i is IH]; intros HI st X0 X1 Ls L0 L1 HC; cbv zeta; [split; assumption|]. cbn [fold_left].
    destruct (ref_round256 i st X0 X1 (HI i (or_introl eq_refl)) Ls L0 L1 HC) as [R1 R2].
    rewrite layer2_ok by assumption. rewrite layer2_ok by apply E_length. rewrite mix256_ok by apply E_length. rewrite <- Nat.add_assoc. cbn [Nat.add].
    unfold rb256 in R2. cbn [nth] in R2. cbv zeta in R2. unfold mixb256 in R2 |- *. cbn [nth] in R2 |- *. cbv zeta in R2 |- *.
    apply IH; [intros; apply HI; now right|exact R1|apply lohi_len; apply E_length|apply lohi_len; apply E_length|exact R2]. }
  assert (LS : length (slice src 0 16) = 16 /\ length (slice src 16 32) = 16) by (unfold slice; rewrite !firstn_length, !skipn_length; lia).
  destruct (F (seq 0 5) ltac:(intros i Hi; apply in_seq in Hi; lia) (hk_get 8 src) _ _ GL (proj1 LS) (proj2 LS) G) as [F1 F2]. clear F.
  cbv zeta in *. set (st := fold_left _ (seq 0 5) (hk_get 8 src)) in *. clearbody st. rewrite <- F2. rewrite <- G.
  destruct (add_ok 8 st src B L F1) as [A1 A2]. cbv zeta in *. set (st' := map _ (seq 0 8)) in *. clearbody st'.
  rewrite out_perm by (intros i Hi; rewrite A1; cbn [In] in Hi; lia). change [0; 1; 2; 3; 4; 5; 6; 7] with (seq 0 8). pose proof (seq_perm (col4 st')) as SP. rewrite col4_len, A1 in SP. rewrite SP.
  rewrite A2. rewrite <- (proj1 (get_ok 8 src B L)). reflexivity.
Qed.
Lemma ref512_ok : forall src, isbytes src -> length src = 64 -> haraka512Ref src = haraka512 src.
Proof.
  intros src B L. unfold haraka512Ref, haraka512, hk_pi512.
  destruct (get_ok 16 src B L) as [G GL]. rewrite (cols_slices src B 4 L) in *. change (map _ (seq 0 4)) with [slice src 0 16; slice src 16 32; slice src 32 48; slice src 48 64] in *.
  assert (F : forall is, (forall i, In i is -> i < 5) -> forall st X0 X1 X2 X3, length st = 16 -> length X0 = 16 -> length X1 = 16 -> length X2 = 16 -> length X3 = 16 -> col4 st = cols [X0; X1; X2; X3] ->
    let st' := fold_left (fun st i => hk_mixr512 (hk_on (32 * i + 28) 12 (hk_on (32 * i + 24) 8 (hk_on (32 * i + 20) 4 (hk_on (32 * i + 16) 0
    (hk_on (32 * i + 12) 12 (hk_on (32 * i + 8) 8 (hk_on (32 * i + 4) 4 (hk_on (32 * i) 0 st))))))))) is st in
    length st' = 16 /\ col4 st' = fold_left (fun s i => hk_mix512 (hk_layer 4 (8 * i + 4) (hk_layer 4 (8 * i) s))) is (cols [X0; X1; X2; X3])).
  { induction is as [|i is IH]; intros HI st X0 X1 X2 X3 Ls L0 L1 L2 L3 HC; cbv zeta; [split; assumption|]. cbn [fold_left].
    destruct (ref_round512 i st X0 X1 X2 X3 (HI i (or_introl eq_refl)) Ls L0 L1 L2 L3 HC) as [R1 R2].
    rewrite layer4_ok by assumption. rewrite layer4_ok by apply E_length. rewrite mix512_ok by apply E_length. rewrite <- !Nat.add_assoc. cbn [Nat.add].
    unfold rb512 in R2. cbn [nth] in R2. cbv zeta in R2. unfold mixb512 in R2 |- *. cbn [nth] in R2 |- *. cbv zeta in R2 |- *.
    apply IH; [intros; apply HI; now right|exact R1|apply lohi_len; apply lohi_len; apply E_length ..|exact R2]. }
  assert (LS : forall k, 16 * k + 16 <= 64 -> length (slice src (16 * k) (16 * k + 16)) = 16) by (intros; unfold slice; rewrite firstn_length, skipn_length; lia).
  destruct (F (seq 0 5) ltac:(intros i Hi; apply in_seq in Hi; lia) (hk_get 16 src) _ _ _ _ GL (LS 0 ltac:(lia)) (LS 1 ltac:(lia)) (LS 2 ltac:(lia)) (LS 3 ltac:(lia)) G) as [F1 F2]. clear F.
  cbv zeta in *. set (st := fold_left _ (seq 0 5) (hk_get 16 src)) in *. clearbody st.
  change (16 * 0 + 16) with 16 in *. change (16 * 0) with 0 in *. change (16 * 1 + 16) with 32 in *. change (16 * 1) with 16 in *. change (16 * 2 + 16) with 48 in *. change (16 * 2) with 32 in *. change (16 * 3 + 16) with 64 in *. change (16 * 3) with 48 in *.
  rewrite <- F2. rewrite <- G.
  destruct (add_ok 16 st src B L F1) as [A1 A2]. cbv zeta in *. set (st' := map _ (seq 0 16)) in *. clearbody st'.
  rewrite out_perm by (intros i Hi; rewrite A1; cbn [In] in Hi; lia).
  rewrite A2. rewrite <- (proj1 (get_ok 16 src B L)). reflexivity.
Qed.

(** ** The AES-NI path *)
Lemma bxor_eq : forall a b, length a = 16 -> length b = 16 -> hk_bxor a b = hk_xor a b.
Proof. intros a b La Lb. list16 a. list16 b. reflexivity. Qed.
Lemma aesenc_ok : forall n x, n < 40 -> hk_bxor (aes_round x) (slice hk_rcmem (16 * n) (16 * n + 16)) = E n x.
Proof.
  intros n x Hn. rewrite (proj2 (rc_ok n Hn)). apply bxor_eq; [|apply le_bytes_length]. pose proof (E_length n x) as H. unfold E, hk_aesenc, hk_xor in H. rewrite map_length, combine_length, le_bytes_length in H.
  change (length (aes_round x)) with (length (mix_columns (shift_rows (sub_bytes x)))). unfold mix_columns. now rewrite map_length, seq_length.
Qed.
Definition aesp (n x : nat) : hk_instr := AESENC (16 * n) x.
Definition rp256 (i : nat) : list hk_instr :=
  [aesp (4 * i) 0; aesp (4 * i + 1) 1; aesp (4 * i + 2) 0; aesp (4 * i + 3) 1; MOVUPS 0 4; PUNPCKLLQ 1 0; PUNPCKHLQ 1 4; MOVUPS 4 1].
Definition rp512 (i : nat) : list hk_instr :=
  [aesp (8 * i) 0; aesp (8 * i + 1) 1; aesp (8 * i + 2) 2; aesp (8 * i + 3) 3; aesp (8 * i + 4) 0; aesp (8 * i + 5) 1; aesp (8 * i + 6) 2; aesp (8 * i + 7) 3;
   MOVUPS 0 8; PUNPCKLLQ 1 0; PUNPCKHLQ 1 8; MOVUPS 8 1; MOVUPS 2 8; PUNPCKLLQ 3 2; PUNPCKHLQ 3 8; MOVUPS 8 3;
   MOVUPS 2 8; PUNPCKLLQ 0 2; PUNPCKHLQ 0 8; MOVUPS 8 0; MOVUPS 1 8; PUNPCKLLQ 3 1; PUNPCKHLQ 3 8; MOVUPS 1 3; MOVUPS 2 1; MOVUPS 0 2; MOVUPS 8 0].
Lemma prog256 : hk_prog256 = [LOAD 0 0; LOAD 16 1; MOVUPS 0 2; MOVUPS 1 3] ++ flat_map rp256 (seq 0 5) ++ [PXOR 2 0; PXOR 3 1; STORE 0 0; STORE 1 16].
Proof. reflexivity. Qed.
Lemma prog512 : hk_prog512 = [LOAD 0 0; LOAD 16 1; LOAD 32 2; LOAD 48 3; MOVUPS 0 4; MOVUPS 1 5; MOVUPS 2 6; MOVUPS 3 7] ++ flat_map rp512 (seq 0 5) ++
  [PXOR 4 0; PXOR 5 1; PXOR 6 2; PXOR 7 3; MOVHLPS 0 1; MOVLHPS 3 2; STORE 1 0; STORE 2 16].
Proof. reflexivity. Qed.
Lemma step_aes : forall src n k R d, n < 40 -> hk_step src (mkcpu R d) (aesp n k) = mkcpu (firstn k R ++ [E n (nth k R [])] ++ skipn (S k) R) d.
Proof. intros src n k R d Hn. unfold aesp, hk_step. cbn [hk_regs hk_dst]. now rewrite aesenc_ok. Qed.
Lemma step_lo : forall src a b R d, hk_step src (mkcpu R d) (PUNPCKLLQ a b) = mkcpu (firstn b R ++ [lo (nth b R []) (nth a R [])] ++ skipn (S b) R) d.
Proof. reflexivity. Qed.
Lemma step_hi : forall src a b R d, hk_step src (mkcpu R d) (PUNPCKHLQ a b) = mkcpu (firstn b R ++ [hi (nth b R []) (nth a R [])] ++ skipn (S b) R) d.
Proof. reflexivity. Qed.
Lemma step_mov : forall src a b R d, hk_step src (mkcpu R d) (MOVUPS a b) = mkcpu (firstn b R ++ [nth a R []] ++ skipn (S b) R) d.
Proof. reflexivity. Qed.
Lemma exec_app : forall src p q c, hk_exec src (p ++ q) c = hk_exec src q (hk_exec src p c).
Proof. intros. apply fold_left_app. Qed.
Lemma round256_asm : forall src i d x0 x1 x2 x3 x4 r, i < 5 -> exists x4',
  hk_exec src (rp256 i) (mkcpu (x0 :: x1 :: x2 :: x3 :: x4 :: r) d) = mkcpu (rb256 [x0; x1] i ++ x2 :: x3 :: x4' :: r) d.
Proof.
  intros src i d x0 x1 x2 x3 x4 r Hi. unfold rp256, hk_exec. cbn [fold_left].
  rewrite step_aes by lia. cbn [hk_regs hk_dst firstn skipn nth app]. rewrite step_aes by lia. cbn [hk_regs hk_dst firstn skipn nth app].
  rewrite step_aes by lia. cbn [hk_regs hk_dst firstn skipn nth app]. rewrite step_aes by lia. cbn [hk_regs hk_dst firstn skipn nth app].
  unfold hk_step. cbn [hk_regs hk_dst firstn skipn nth app]. eexists. unfold rb256, mixb256. cbn [nth]. cbv zeta. reflexivity.
Qed.
Lemma rounds256_asm : forall src is d x0 x1 x2 x3 x4 r, (forall i, In i is -> i < 5) -> exists x4',
  hk_exec src (flat_map rp256 is) (mkcpu (x0 :: x1 :: x2 :: x3 :: x4 :: r) d) = mkcpu (fold_left rb256 is [x0; x1] ++ x2 :: x3 :: x4' :: r) d.
Proof.
  intros src. induction is as [|i is IH]; intros d x0 x1 x2 x3 x4 r HI; [exists x4; reflexivity|].
  cbn [flat_map fold_left]. rewrite exec_app. destruct (round256_asm src i d x0 x1 x2 x3 x4 r (HI i (or_introl eq_refl))) as [x4' ->].
  unfold rb256 at 1 3. unfold mixb256. cbv zeta. cbn [app]. apply IH. intros; apply HI; now right.
Qed.
Lemma lo_bxor : forall a b, length (hk_bxor a b) = 16.
Proof. intros. unfold hk_bxor. now rewrite map_length, seq_length. Qed.
Lemma aes256_ok : forall regs src, length regs = 16 -> isbytes src -> length src = 32 -> haraka256AES regs src = haraka256 src.
Proof.
  intros regs src LR B L. unfold haraka256AES, haraka256, hk_pi256. rewrite prog256, !exec_app.
  rewrite (cols_slices src B 2 L). change (map _ (seq 0 2)) with [slice src 0 16; slice src 16 32].
  do 5 (destruct regs as [|? regs]; [discriminate|]).
  match goal with |- context [hk_exec src [LOAD 0 0; LOAD 16 1; MOVUPS 0 2; MOVUPS 1 3] ?c] =>
    change (hk_exec src [LOAD 0 0; LOAD 16 1; MOVUPS 0 2; MOVUPS 1 3] c) with (mkcpu (slice src 0 16 :: slice src 16 32 :: slice src 0 16 :: slice src 16 32 :: l3 :: regs) (zeros 32)) end.
  assert (LS : length (slice src 0 16) = 16 /\ length (slice src 16 32) = 16) by (unfold slice; rewrite !firstn_length, !skipn_length; lia). destruct LS as [L0 L1].
  set (S0 := slice src 0 16) in *. set (S1 := slice src 16 32) in *. clearbody S0 S1.
  destruct (rounds256_asm src (seq 0 5) (zeros 32) S0 S1 S0 S1 l3 regs ltac:(intros i Hi; apply in_seq in Hi; lia)) as [x4' ->].
  destruct (pi256_ok (seq 0 5) S0 S1 L0 L1) as (Y0 & Y1 & -> & LY0 & LY1 & ->).
  cbn [app]. clear - L0 L1 LY0 LY1. list16 S0. list16 S1. list16 Y0. list16 Y1. reflexivity.
Qed.
Definition mstep (LO HI : list N -> list N -> list N) (R : list (list N)) (i : hk_instr) : list (list N) :=
  match i with
  | MOVUPS a b => firstn b R ++ [nth a R []] ++ skipn (S b) R
  | PUNPCKLLQ a b => firstn b R ++ [LO (nth b R []) (nth a R [])] ++ skipn (S b) R
  | PUNPCKHLQ a b => firstn b R ++ [HI (nth b R []) (nth a R [])] ++ skipn (S b) R
  | _ => R
  end.
Definition is_mix (i : hk_instr) : bool := match i with MOVUPS _ _ | PUNPCKLLQ _ _ | PUNPCKHLQ _ _ => true | _ => false end.
Lemma exec_mix : forall src d p R, forallb is_mix p = true -> hk_exec src p (mkcpu R d) = mkcpu (fold_left (mstep lo hi) p R) d.
Proof.
  intros src d. induction p as [|i p IH]; intros R H; [reflexivity|]. cbn [forallb] in H. apply andb_prop in H. destruct H as [Hi Hp].
  unfold hk_exec in *. cbn [fold_left]. rewrite <- IH by exact Hp. f_equal. destruct i; try discriminate; reflexivity.
Qed.
Definition mp512 : list hk_instr := [MOVUPS 0 8; PUNPCKLLQ 1 0; PUNPCKHLQ 1 8; MOVUPS 8 1; MOVUPS 2 8; PUNPCKLLQ 3 2; PUNPCKHLQ 3 8; MOVUPS 8 3;
   MOVUPS 2 8; PUNPCKLLQ 0 2; PUNPCKHLQ 0 8; MOVUPS 8 0; MOVUPS 1 8; PUNPCKLLQ 3 1; PUNPCKHLQ 3 8; MOVUPS 1 3; MOVUPS 2 1; MOVUPS 0 2; MOVUPS 8 0].
Lemma mp512_ok : forall LO HI x0 x1 x2 x3 x4 x5 x6 x7 x8 r, fold_left (mstep LO HI) mp512 (x0 :: x1 :: x2 :: x3 :: x4 :: x5 :: x6 :: x7 :: x8 :: r) =
  HI (HI x0 x1) (HI x2 x3) :: LO (LO x2 x3) (LO x0 x1) :: HI (LO x2 x3) (LO x0 x1) :: LO (HI x0 x1) (HI x2 x3) :: x4 :: x5 :: x6 :: x7 :: HI (HI x0 x1) (HI x2 x3) :: r.
Proof. reflexivity. Qed.
Definition ap512 (i : nat) : list hk_instr := [aesp (8 * i) 0; aesp (8 * i + 1) 1; aesp (8 * i + 2) 2; aesp (8 * i + 3) 3; aesp (8 * i + 4) 0; aesp (8 * i + 5) 1; aesp (8 * i + 6) 2; aesp (8 * i + 7) 3].
Lemma ap512_ok : forall src i d x0 x1 x2 x3 r, i < 5 -> hk_exec src (ap512 i) (mkcpu (x0 :: x1 :: x2 :: x3 :: r) d) =
  mkcpu (E (8 * i + 4) (E (8 * i) x0) :: E (8 * i + 5) (E (8 * i + 1) x1) :: E (8 * i + 6) (E (8 * i + 2) x2) :: E (8 * i + 7) (E (8 * i + 3) x3) :: r) d.
Proof.
  intros src i d x0 x1 x2 x3 r Hi. unfold ap512, hk_exec. cbn [fold_left].
  do 8 (rewrite step_aes by lia; cbn [hk_regs hk_dst firstn skipn nth app]). reflexivity.
Qed.
Lemma rp512_split : forall i, rp512 i = ap512 i ++ mp512.
Proof. reflexivity. Qed.
Lemma round512_asm : forall src i d x0 x1 x2 x3 x4 x5 x6 x7 x8 r, i < 5 -> exists x8',
  hk_exec src (rp512 i) (mkcpu (x0 :: x1 :: x2 :: x3 :: x4 :: x5 :: x6 :: x7 :: x8 :: r) d) = mkcpu (rb512 [x0; x1; x2; x3] i ++ x4 :: x5 :: x6 :: x7 :: x8' :: r) d.
Proof.
  intros src i d x0 x1 x2 x3 x4 x5 x6 x7 x8 r Hi. rewrite rp512_split, exec_app, ap512_ok, exec_mix, mp512_ok by (exact Hi || reflexivity).
  unfold rb512. cbn [nth]. cbv zeta. set (A := E (8 * i + 4) _). set (B := E (8 * i + 5) _). set (C := E (8 * i + 6) _). set (D := E (8 * i + 7) _). clearbody A B C D.
  eexists. unfold mixb512. cbn [nth]. cbv zeta. cbn [app]. reflexivity.
Qed.
Lemma rounds512_asm : forall src is d x0 x1 x2 x3 x4 x5 x6 x7 x8 r, (forall i, In i is -> i < 5) -> exists x8',
  hk_exec src (flat_map rp512 is) (mkcpu (x0 :: x1 :: x2 :: x3 :: x4 :: x5 :: x6 :: x7 :: x8 :: r) d) = mkcpu (fold_left rb512 is [x0; x1; x2; x3] ++ x4 :: x5 :: x6 :: x7 :: x8' :: r) d.
Proof.
  intros src. induction is as [|i is IH]; intros d x0 x1 x2 x3 x4 x5 x6 x7 x8 r HI; [exists x8; reflexivity|].
  cbn [flat_map fold_left]. rewrite exec_app. destruct (round512_asm src i d x0 x1 x2 x3 x4 x5 x6 x7 x8 r (HI i (or_introl eq_refl))) as [x8' ->].
  unfold rb512 at 1 3. unfold mixb512. cbv zeta. cbn [app]. apply IH. intros; apply HI; now right.
Qed.
Lemma aes512_ok : forall regs src, length regs = 16 -> isbytes src -> length src = 64 -> haraka512AES regs src = haraka512 src.
Proof.
  intros regs src LR B L. unfold haraka512AES, haraka512, hk_pi512. rewrite prog512, !exec_app.
  rewrite (cols_slices src B 4 L). change (map _ (seq 0 4)) with [slice src 0 16; slice src 16 32; slice src 32 48; slice src 48 64].
  do 9 (destruct regs as [|? regs]; [discriminate|]).
  match goal with |- context [hk_exec src [LOAD 0 0; LOAD 16 1; LOAD 32 2; LOAD 48 3; MOVUPS 0 4; MOVUPS 1 5; MOVUPS 2 6; MOVUPS 3 7] ?c] =>
    change (hk_exec src [LOAD 0 0; LOAD 16 1; LOAD 32 2; LOAD 48 3; MOVUPS 0 4; MOVUPS 1 5; MOVUPS 2 6; MOVUPS 3 7] c) with
      (mkcpu (slice src 0 16 :: slice src 16 32 :: slice src 32 48 :: slice src 48 64 :: slice src 0 16 :: slice src 16 32 :: slice src 32 48 :: slice src 48 64 :: l7 :: regs) (zeros 32)) end.
  assert (LS : length (slice src 0 16) = 16 /\ length (slice src 16 32) = 16 /\ length (slice src 32 48) = 16 /\ length (slice src 48 64) = 16) by (unfold slice; rewrite !firstn_length, !skipn_length; lia). destruct LS as (L0 & L1 & L2 & L3).
  set (S0 := slice src 0 16) in *. set (S1 := slice src 16 32) in *. set (S2 := slice src 32 48) in *. set (S3 := slice src 48 64) in *. clearbody S0 S1 S2 S3.
  destruct (rounds512_asm src (seq 0 5) (zeros 32) S0 S1 S2 S3 S0 S1 S2 S3 l7 regs ltac:(intros i Hi; apply in_seq in Hi; lia)) as [x8' ->].
  destruct (pi512_ok (seq 0 5) S0 S1 S2 S3 L0 L1 L2 L3) as (Y0 & Y1 & Y2 & Y3 & -> & LY0 & LY1 & LY2 & LY3 & ->).
  cbn [app]. clear - L0 L1 L2 L3 LY0 LY1 LY2 LY3. list16 S0. list16 S1. list16 S2. list16 S3. list16 Y0. list16 Y1. list16 Y2. list16 Y3. reflexivity.
Qed.

(** C106: Haraka256 and Haraka512 compute the Haraka v2 functions of every input, on a processor with AES instructions
    (whatever the registers held before the call) and without them. *)
Theorem C106_haraka : forall hasAES regs, length regs = 16 ->
  (forall input, isbytes input -> length input = 32 -> Haraka256 hasAES regs input = haraka256 input) /\
  (forall input, isbytes input -> length input = 64 -> Haraka512 hasAES regs input = haraka512 input).
Proof.
  intros hasAES regs LR. unfold Haraka256, Haraka512. split; intros input B L; destruct hasAES;
    [now apply aes256_ok|now apply ref256_ok|now apply aes512_ok|now apply ref512_ok].
Qed.
(** In particular the result does not depend on the processor. *)
Theorem C106_haraka_portable : forall regs input, length regs = 16 -> isbytes input ->
  (length input = 32 -> Haraka256 true regs input = Haraka256 false [] input) /\
  (length input = 64 -> Haraka512 true regs input = Haraka512 false [] input).
Proof.
  intros regs input LR B. unfold Haraka256, Haraka512. split; intro L; [now rewrite aes256_ok, ref256_ok|now rewrite aes512_ok, ref512_ok].
Qed.
Transparent hk_rc hk_RC hk_rcmem aes_round.
Example haraka_hyps : let regs := repeat (zeros 16) 16 in let m := map N.of_nat (seq 0 64) in
  length regs = 16 /\ isbytes m /\ length m = 64 /\ be_val (Haraka512 true regs m) = 0xbe7f723b4e80a99813b292287f306f625a6d57331cae5f34dd9277b0945be2aa%N.
Proof. cbv zeta. split; [reflexivity|split; [repeat constructor|split; [reflexivity|vm_compute; reflexivity]]]. Qed.
Print Assumptions C106_haraka.
Print Assumptions C106_haraka_portable.
