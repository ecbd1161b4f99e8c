(** Pmac.v -- model of /repo/pmac (pmac.go, block.go, utils.go, verify.go) and proofs.
    The block cipher is a function [E] on blocks of [bs] bytes. *)
From Coq Require Import List NArith PArith Arith Lia Bool.
From Verif Require Import Base Words HashAPI Buf Refine SpecCmac Cmac SpecPmac.
Import ListNotations.

(** pmac/pmac.go:19-52 struct pmac (cipher and pcbs omitted; the field [finished] is only ever set on
    the copy made by Sum, so it stays false on every object a client holds). *)
Record pm := mkpm { pl : list (list N); plinv : list N; pdig : list N; poffs : list N; pbuf : list N;
                    ppos : nat; pctr : N; ptag : nat }.
(** pmac/block.go:40-50 Dbl: the loop is the left shift of cmac_shift; R = 0x87 whatever the size *)
Definition pm_dbl (b : list N) : list N :=
  let '(b', z) := cmac_shift b in
  upd b' (length b - 1) (N.lxor (at_ b' (length b - 1)) (w8 (if (z =? 1)%N then 0x87 else 0)%N)).
(** pmac/pmac.go:104-109: each byte shifted right, bit 0 of the byte before it carried in *)
Fixpoint pm_shr (prev : N) (l : list N) : list N :=
  match l with
  | [] => []
  | x :: t => N.lor (N.shiftr x 1) (if (N.land prev 1 =? 1)%N then 0x80 else 0)%N :: pm_shr x t
  end.
(** pmac/pmac.go:96-112 *)
Definition pm_half (b : list N) : list N :=
  let n := length b in
  let lastBit := (N.land (at_ b (n - 1)) 1 =? 1)%N in
  let t := pm_shr 0 b in
  let t := upd t 0 (N.lxor (at_ t 0) (if lastBit then 0x80 else 0)%N) in
  upd t (n - 1) (N.lxor (at_ t (n - 1)) (if lastBit then N.shiftr 0x87 1 else 0)%N).
(** pmac/pmac.go:88-94 the table d.l *)
Definition pm_table (n : nat) (l0 : list N) : list (list N) := map (fun i => Nat.iter i pm_dbl l0) (seq 0 n).

Section PMAC.
Variable E : list N -> list N.
Variable bs : nat.
(** pmac/pmac.go:61-116 NewWithTagSize; None = error *)
Definition pmac_new (tagsize : nat) : option pm :=
  if (tagsize =? 0) || (bs <? tagsize) then None
  else if existsb (Nat.eqb bs) [8; 16; 32; 64; 128] then
    let l0 := E (zeros bs) in
    Some (mkpm (pm_table (2 * bs - 1) l0) (pm_half l0) (zeros bs) (zeros bs) (zeros bs) 0 0 tagsize)
  else None.
(** pmac/pmac.go:119-126 Reset *)
Definition pmac_reset (d : pm) : pm :=
  mkpm (pl d) (plinv d) (zeros bs) (zeros bs) (zeros bs) 0 0 (ptag d).
(** math/bits.TrailingZeros (64-bit uint) *)
Definition tz64 (x : N) : nat := match x with N0 => 64 | Npos p => ntz p end.
(** pmac/pmac.go:209-218 processBuffer; None = panic (index of d.l out of range) *)
Definition pm_process (d : pm) : option pm :=
  match nth_error (pl d) (tz64 (add64 (pctr d) 1)) with
  | None => None
  | Some l =>
    let off := xor_into (poffs d) l in
    let b := E (xor_into (pbuf d) off) in
    Some (mkpm (pl d) (plinv d) (xor_into (pdig d) b) off b 0 (add64 (pctr d) 1) (ptag d))
  end.
Definition pm_setbuf (d : pm) (b : list N) (pos : nat) : pm :=
  mkpm (pl d) (plinv d) (pdig d) (poffs d) b pos (pctr d) (ptag d).
(** pmac/pmac.go:160-167 the loop over whole blocks *)
Fixpoint pm_loop (fuel : nat) (d : pm) (msg : list N) : option (pm * list N) :=
  match fuel with
  | O => Some (d, msg)
  | S f => if bs <? length msg then
             match pm_process (pm_setbuf d (copy_at (pbuf d) 0 (firstn bs msg)) (ppos d)) with
             | None => None
             | Some d => pm_loop f d (skipn bs msg)
             end
           else Some (d, msg)
  end.
(** pmac/pmac.go:137-175 Write; None = panic *)
Definition pmac_write (d : pm) (msg : list N) : option (pm * nat) :=
  let remaining := bs - ppos d in
  let r := if remaining <? length msg then
             match pm_process (pm_setbuf d (copy_at (pbuf d) (ppos d) (firstn remaining msg)) (ppos d)) with
             | None => None
             | Some d => Some (d, skipn remaining msg)
             end
           else Some (d, msg) in
  match r with
  | None => None
  | Some (d, rem) =>
    match pm_loop (length rem) d rem with
    | None => None
    | Some (d, rem) =>
      let d := if 0 <? length rem then pm_setbuf d (copy_at (pbuf d) (ppos d) rem) (ppos d + length rem) else d in
      Some (d, length msg)
    end
  end.
(** pmac/pmac.go:186-206 checkSum: the new contents of the slice d.digest.Data *)
Definition pm_check (d : pm) : list N :=
  let dig := if ppos d =? bs then xor_into (xor_into (pdig d) (pbuf d)) (plinv d)
             else let x := xor_into (pdig d) (firstn (ppos d) (pbuf d)) in
                  upd x (ppos d) (N.lxor (at_ x (ppos d)) 0x80) in
  E dig.
(** pmac/pmac.go:179-184 Sum: the copy d0 shares the slice digest.Data with d, so d changes *)
Definition pmac_sum (d : pm) (inp : list N) : pm * list N :=
  let dig := pm_check d in
  (mkpm (pl d) (plinv d) dig (poffs d) (pbuf d) (ppos d) (pctr d) (ptag d), inp ++ firstn (ptag d) dig).

(** A client's calls; None = some call panicked. *)
Fixpoint pmac_run (d : pm) (ops : list op) : option (list obs) :=
  match ops with
  | [] => Some []
  | Write p :: t => match pmac_write d p with
                    | None => None
                    | Some (d', n) => option_map (cons (Wrote n)) (pmac_run d' t)
                    end
  | Sum i :: t => let '(d', out) := pmac_sum d i in option_map (cons (Summed out)) (pmac_run d' t)
  | Reset :: t => pmac_run (pmac_reset d) t
  end.
(** pmac/verify.go:9-17 Sum (result: None = panic, Some None = error) *)
Definition pmac_Sum (msg : list N) (tagsize : nat) : option (option (list N)) :=
  match pmac_new tagsize with
  | None => Some None
  | Some h => match pmac_write h msg with None => None | Some (h, _) => Some (Some (snd (pmac_sum h []))) end
  end.
(** pmac/verify.go:22-29 Verify; None = panic *)
Definition pmac_Verify (mac msg : list N) (tagsize : nat) : option bool :=
  match pmac_Sum msg tagsize with
  | None => None
  | Some None => Some false
  | Some (Some s) => Some (ct_compare mac s)
  end.
End PMAC.

(** * Proofs *)
Lemma pm_dbl_ok : forall bs b, 0 < bs -> length b = bs -> isbytes b -> pm_dbl b = gf_double bs 0x87 b.
Proof.
  intros bs b Hbs L Hb. change 0x87%N with (w8 0x87) at 1. rewrite <- (cmac_subkey_ok bs 0x87 b Hbs L Hb). unfold pm_dbl, cmac_subkey. now rewrite L.
Qed.
Lemma pm_iter_ok : forall E bs i, 0 < bs -> block_cipher bs E ->
  Nat.iter i pm_dbl (E (zeros bs)) = pmac_L E bs 0x87 i /\ length (pmac_L E bs 0x87 i) = bs /\ isbytes (pmac_L E bs 0x87 i).
Proof.
  intros E bs i Hbs HE. induction i as [|i (IH & L & B)].
  - cbn [pmac_L]. change (Nat.iter 0 pm_dbl (E (zeros bs))) with (E (zeros bs)). split; auto. apply HE, zeros_length.
  - change (Nat.iter (S i) pm_dbl (E (zeros bs))) with (pm_dbl (Nat.iter i pm_dbl (E (zeros bs)))). rewrite IH.
    cbn [pmac_L]. split; [now apply pm_dbl_ok|]. apply gf_double_wf.
Qed.
Lemma bit_ite : forall x, (if (N.land x 1 =? 1)%N then 0x80 else 0)%N = (128 * (x mod 2))%N.
Proof.
  intros x. change 1%N with (N.ones 1). rewrite N.land_ones. change (2 ^ 1)%N with 2%N. change (N.ones 1) with 1%N.
  pose proof (N.mod_lt x 2 ltac:(discriminate)). destruct (N.eqb_spec (x mod 2) 1) as [Z|Z]; [now rewrite Z|]. assert (Z0 : (x mod 2 = 0)%N) by (clear -H Z; generalize dependent (x mod 2)%N; intros; lia). now rewrite Z0.
Qed.
Lemma pm_shr_ok : forall l prev, isbytes l ->
  length (pm_shr prev l) = length l /\ isbytes (pm_shr prev l) /\
  (2 * be_val (pm_shr prev l) + be_val l mod 2 = be_val l + (if (length l =? 0)%nat then 0 else (prev mod 2) * 256 ^ N.of_nat (length l)))%N.
Proof.
  induction l as [|x t IH]; intros prev H; [repeat split; constructor|].
  inversion H as [|? ? Hx Ht]; subst. destruct (IH x Ht) as (L & B & V). unfold isbyte in Hx.
  cbn [pm_shr length Nat.eqb]. rewrite bit_ite.
  assert (Ho : N.lor (N.shiftr x 1) (128 * (prev mod 2)) = (x / 2 + 128 * (prev mod 2))%N).
  { rewrite N.shiftr_div_pow2. change (2 ^ 1)%N with 2%N.
    replace (128 * (prev mod 2))%N with (prev mod 2 * 2 ^ 7)%N by lia.
    rewrite add_shift_lor by (apply N.div_lt_upper_bound; lia). now rewrite N.shiftl_mul_pow2. }
  pose proof (N.mod_lt prev 2 ltac:(discriminate)) as Mp.
  assert (Hd : (x / 2 < 128)%N) by (apply N.div_lt_upper_bound; lia).
  rewrite Ho. split; [lia|]. split; [constructor; auto; unfold isbyte; nia|].
  rewrite !be_val_cons, L. pose proof (N.div_mod x 2 ltac:(discriminate)) as DM. pose proof (N.mod_lt x 2 ltac:(discriminate)) as MX.
  destruct t as [|y t].
  - cbn [length be_val pm_shr]. change (be_val []) with 0%N. rewrite N.add_0_r. change (256 ^ N.of_nat 0)%N with 1%N. change (256 ^ N.of_nat 1)%N with 256%N.
    rewrite !N.mul_1_r. rewrite !N.add_0_r. lia.
  - cbn [length Nat.eqb] in V |- *. set (n := length t) in *.
    rewrite !Nat2N.inj_succ, !N.pow_succ_r' in *. set (P := (256 ^ N.of_nat n)%N) in *.
    assert (EM : ((x * (256 * P) + be_val (y :: t)) mod 2 = be_val (y :: t) mod 2)%N).
    { replace (x * (256 * P) + be_val (y :: t))%N with (be_val (y :: t) + (x * 128 * P) * 2)%N by lia. apply N.mod_add. discriminate. }
    rewrite EM. nia.
Qed.
Lemma be_val_mod2 : forall l, isbytes l -> 0 < length l -> (be_val l mod 2 = at_ l (length l - 1) mod 2)%N.
Proof.
  induction l as [|x t IH]; intros H HL; [simpl in HL; lia|]. inversion H; subst.
  destruct t as [|y t]; [unfold be_val, at_; cbn; now rewrite N.add_0_r|].
  rewrite be_val_cons. cbn [length] in *. rewrite Nat2N.inj_succ, N.pow_succ_r'.
  replace (x * (256 * 256 ^ N.of_nat (length t)) + be_val (y :: t))%N with (be_val (y :: t) + x * 128 * 256 ^ N.of_nat (length t) * 2)%N by lia.
  rewrite N.mod_add by discriminate. rewrite IH by (auto; lia).
  unfold at_. replace (S (S (length t)) - 1) with (S (S (length t) - 1)) by lia. reflexivity.
Qed.
Lemma bytes_of_val : forall l n v, isbytes l -> length l = n -> be_val l = v -> l = be_bytes n v.
Proof. intros. subst. symmetry. now apply be_bytes_be_val. Qed.
Lemma pm_half_ok : forall bs b, 1 < bs -> length b = bs -> isbytes b -> pm_half b = gf_halve bs 0x87 b.
Proof.
  intros bs b Hbs L Hb. unfold pm_half, gf_halve. rewrite L.
  destruct (pm_shr_ok b 0 Hb) as (Ls & Bs & Vs). rewrite L in *.
  destruct (Nat.eqb_spec bs 0); [lia|]. rewrite (N.mod_small 0 2) in Vs by lia. rewrite N.mul_0_l, N.add_0_r in Vs.
  pose proof (be_val_lt b Hb) as Lv. rewrite L in Lv.
  assert (P : (256 ^ N.of_nat bs = 2 * 2 ^ (8 * N.of_nat bs - 1))%N).
  { rewrite <- N.pow_succ_r'. rewrite <- (N.pow_mul_r 2 8). f_equal. lia. }
  assert (P' : (2 ^ (8 * N.of_nat bs) = 2 * 2 ^ (8 * N.of_nat bs - 1))%N) by (rewrite <- N.pow_succ_r'; f_equal; lia).
  set (T := (2 ^ (8 * N.of_nat bs - 1))%N) in *.
  pose proof (be_val_mod2 b Hb ltac:(lia)) as M2. rewrite L in M2.
  assert (EV : (be_val (pm_shr 0 b) = be_val b / 2)%N).
  { apply N.div_unique with (be_val b mod 2)%N; [apply N.mod_lt; discriminate|lia]. }
  assert (EB : (N.land (at_ b (bs - 1)) 1 =? 1)%N = N.testbit (be_val b) 0).
  { rewrite N.bit0_odd. change 1%N with (N.ones 1) at 1. rewrite N.land_ones. change (2 ^ 1)%N with 2%N. rewrite <- M2.
    rewrite <- (N.bit0_mod (be_val b)), N.bit0_odd. destruct (N.odd (be_val b)); reflexivity. }
  rewrite EB. clear EB. destruct (N.testbit (be_val b) 0) eqn:TB.
  - set (s := pm_shr 0 b) in *. clearbody s. change (N.shiftr 0x87 1) with 0x43%N.
    assert (Q : upd s 0 (N.lxor (at_ s 0) 0x80) = be_bytes bs (T + be_val b / 2) /\ (T + be_val b / 2 < 256 ^ N.of_nat bs)%N).
    { assert (be_val b / 2 < T)%N by (apply N.div_lt_upper_bound; lia). split; [|lia].
      destruct s as [|x s]; [cbn [length] in Ls; lia|]. change (upd (x :: s) 0 (N.lxor (at_ (x :: s) 0) 128)) with (N.lxor x 128 :: s).
      rewrite be_val_cons in EV. inversion Bs as [|? ? Hx Hs]; subst. unfold isbyte in Hx. cbn [length] in *.
      assert (PT : (T = 128 * 256 ^ N.of_nat (length s))%N).
      { unfold T. change 256%N with (2 ^ 8)%N. rewrite <- N.pow_mul_r. change 128%N with (2 ^ 7)%N. rewrite <- N.pow_add_r. f_equal. lia. }
      assert (X : (x < 128)%N) by nia.
      assert (EX : N.lxor x 128 = (x + 128)%N).
      { change 128%N with (N.shiftl 1 7). rewrite <- add_shift_lxor; [reflexivity|exact X]. }
      rewrite EX. apply bytes_of_val; [constructor; auto; unfold isbyte; lia|cbn [length]; lia|]. rewrite be_val_cons. nia. }
    destruct Q as [-> QL]. destruct bs as [|n']; [lia|]. replace (S n' - 1) with n' by lia.
    rewrite upd_last_bytes; [|reflexivity|exact QL]. f_equal.
    assert (be_val b / 2 < T)%N by (apply N.div_lt_upper_bound; lia).
    rewrite <- (N.div2_div (N.lxor _ _)), N.div2_spec, N.shiftr_lxor, <- !N.div2_spec, !N.div2_div. rewrite P'.
    assert (A1 : (T + be_val b / 2 = N.lxor (be_val b / 2) T)%N).
    { rewrite N.add_comm. replace T with (1 * T)%N by lia. unfold T. rewrite add_shift_lxor by assumption. rewrite N.shiftl_mul_pow2. now f_equal. }
    assert (A2 : ((2 * T + 135) / 2 = N.lxor T 67)%N).
    { replace (2 * T + 135)%N with (1 + (T + 67) * 2)%N by lia. rewrite N.div_add by discriminate. change (1 / 2)%N with 0%N. rewrite N.add_0_l.
      rewrite N.add_comm. rewrite (N.lxor_comm T).
      replace T with (N.shiftl 1 (8 * N.of_nat (S n') - 1)) by (rewrite N.shiftl_mul_pow2; apply N.mul_1_l).
      rewrite <- add_shift_lxor. now rewrite N.shiftl_mul_pow2.
      apply N.lt_le_trans with (2 ^ 7)%N; [reflexivity|]. apply N.pow_le_mono_r; lia. }
    rewrite A1, A2. now rewrite N.lxor_assoc.
  - assert (U : forall i l, i < length l -> upd l i (N.lxor (at_ l i) 0) = l).
    { clear. intros i l H. rewrite N.lxor_0_r. revert l H. induction i; destruct l; cbn; intros; try lia; auto. f_equal. apply IHi. lia. }
    rewrite (U 0 (pm_shr 0 b)) by lia. rewrite (U (bs - 1) (pm_shr 0 b)) by lia. apply bytes_of_val; auto.
Qed.

(** The table and the trailing zeros. *)
Lemma nth_table : forall E bs n i, 0 < bs -> block_cipher bs E ->
  nth_error (pm_table n (E (zeros bs))) i = if i <? n then Some (pmac_L E bs 0x87 i) else None.
Proof.
  intros E bs n i Hbs HE. unfold pm_table. destruct (Nat.ltb_spec i n) as [H|H].
  - rewrite nth_error_map. rewrite (nth_error_nth' _ 0) by (rewrite seq_length; lia). rewrite seq_nth by lia.
    cbn [option_map plus]. f_equal. now apply pm_iter_ok.
  - apply nth_error_None. rewrite map_length, seq_length. lia.
Qed.
Lemma ntz_lt : forall k p, (Npos p < 2 ^ N.of_nat k)%N -> ntz p < k.
Proof.
  induction k as [|k IH]; intros p H; [change (2 ^ N.of_nat 0)%N with 1%N in H; lia|].
  rewrite Nat2N.inj_succ, N.pow_succ_r' in H. destruct p as [p|p|]; cbn [ntz]; try lia. apply -> Nat.succ_lt_mono. apply IH. lia.
Qed.
Lemma ntz_pow : forall k p, Npos p = (2 ^ N.of_nat k)%N -> ntz p = k.
Proof.
  induction k as [|k IH]; intros p H; [change (2 ^ N.of_nat 0)%N with 1%N in H; now inversion H|].
  rewrite Nat2N.inj_succ, N.pow_succ_r' in H. destruct p as [p|p|]; cbn [ntz]; try lia. f_equal. apply IH. lia.
Qed.

Section Rel.
Variable E : list N -> list N.
Variable bs : nat.
Hypothesis Hbs : 1 < bs.
Hypothesis HE : block_cipher bs E.
Notation sigma := (pmac_sigma E bs 0x87).
(** The number of blocks that can be absorbed. *)
Definition pm_limit : N := 2 ^ N.of_nat (Nat.min (2 * bs - 1) 64).

(** State after absorbing the whole blocks of [a]. *)
Definition pm_core (tag : nat) (d : pm) (a : list N) : Prop :=
  pl d = pm_table (2 * bs - 1) (E (zeros bs)) /\ plinv d = gf_halve bs 0x87 (E (zeros bs)) /\ ptag d = tag /\
  length a mod bs = 0 /\ (N.of_nat (length a / bs) < pm_limit)%N /\ pctr d = N.of_nat (length a / bs) /\
  sigma (chunks bs a) = (N.succ_pos (pctr d), poffs d, pdig d) /\
  length (poffs d) = bs /\ length (pdig d) = bs /\ length (pbuf d) = bs.
Definition pm_rel (tag : nat) (d : pm) (m : list N) : Prop :=
  exists a t, m = a ++ t /\ pm_core tag d a /\ length t <= bs /\ (length t = 0 -> a = []) /\
  ppos d = length t /\ firstn (length t) (pbuf d) = t.
Lemma limit_64 : (pm_limit <= 2 ^ 64)%N.
Proof. unfold pm_limit. apply N.pow_le_mono_r; lia. Qed.
Lemma div_snoc : forall (a b : list N), length a mod bs = 0 -> length b = bs ->
  length (a ++ b) / bs = S (length a / bs) /\ length (a ++ b) mod bs = 0.
Proof.
  intros a b Ha Hb. rewrite app_length, Hb. replace (length a + bs) with (length a + 1 * bs) by lia.
  rewrite Nat.div_add, Nat.mod_add by lia. split; auto. lia.
Qed.
Lemma chunks_snoc' : forall (a b : list N), length a mod bs = 0 -> length b = bs -> chunks bs (a ++ b) = chunks bs a ++ [b].
Proof.
  intros a b Ha Hb. rewrite chunks_app by lia. rewrite (rest_0 _ bs a) by (auto; lia).
  cbn [app]. now rewrite (chunks_one _ bs b) by (auto; lia).
Qed.
Lemma process_ok : forall tag d a b, pm_core tag d a -> pbuf d = b -> length b = bs ->
  (N.of_nat (length a / bs) + 1 < pm_limit)%N ->
  exists d', pm_process E d = Some d' /\ pm_core tag d' (a ++ b) /\ ppos d' = 0.
Proof.
  intros tag d a b (T & Li & Tg & Ha & Hlim & Hc & Hs & Lo & Ld & Lb) Eb Lb' Hn. pose proof limit_64 as L64.
  destruct (div_snoc a b Ha Lb') as [DS DM]. unfold pm_process. rewrite T, nth_table by (auto; lia).
  set (n := length a / bs) in *.
  assert (EA : add64 (pctr d) 1 = N.of_nat (S n)).
  { rewrite Hc. unfold add64. rewrite w64_small; [lia|]. change (2 ^ 64)%N with 18446744073709551616%N in L64. lia. }
  assert (EP : N.succ_pos (pctr d) = Pos.of_succ_nat n) by (rewrite Hc; destruct n; cbn; auto).
  rewrite EA. change (N.of_nat (S n)) with (Npos (Pos.of_succ_nat n)). cbn [tz64].
  assert (TZ : ntz (Pos.of_succ_nat n) < Nat.min (2 * bs - 1) 64).
  { apply ntz_lt. fold pm_limit. change (Npos (Pos.of_succ_nat n)) with (N.of_nat (S n)). lia. }
  destruct (Nat.ltb_spec (ntz (Pos.of_succ_nat n)) (2 * bs - 1)) as [F|F]; [|lia].
  eexists. split; [reflexivity|]. split; [|reflexivity].
  destruct (pm_iter_ok E bs (ntz (Pos.of_succ_nat n)) ltac:(lia) HE) as (_ & LL & _).
  assert (LO : length (xorblk (poffs d) (pmac_L E bs 135 (ntz (Pos.of_succ_nat n)))) = bs) by (rewrite xorblk_length; lia).
  unfold pm_core. cbn [pl plinv ptag pctr poffs pdig pbuf]. rewrite DS, DM, chunks_snoc' by auto.
  rewrite (xor_into_full (poffs d)), (xor_into_full (pbuf d)) by lia.
  assert (LE : length (E (xorblk (pbuf d) (xorblk (poffs d) (pmac_L E bs 135 (ntz (Pos.of_succ_nat n)))))) = bs).
  { apply HE. rewrite xorblk_length; lia. }
  rewrite (xor_into_full (pdig d)) by lia.
  repeat split; auto.
  - lia.
  - unfold pmac_sigma in *. rewrite fold_left_app, Hs. cbn [fold_left]. unfold pmac_step. rewrite EP, Eb.
    reflexivity.
  - rewrite xorblk_length; lia.
Qed.
Lemma process_panic : forall tag d a, pm_core tag d a -> bs <= 32 ->
  (pm_limit <= N.of_nat (length a / bs) + 1)%N -> pm_process E d = None.
Proof.
  intros tag d a (T & Li & Tg & Ha & Hlim & Hc & Hs & Lo & Ld & Lb) H32 Hn.
  assert (EQ : (N.of_nat (S (length a / bs)) = 2 ^ N.of_nat (2 * bs - 1))%N).
  { unfold pm_limit in *. rewrite Nat.min_l in * by lia. lia. }
  unfold pm_process. rewrite T, nth_table by (auto; lia).
  assert (EA : add64 (pctr d) 1 = N.of_nat (S (length a / bs))).
  { rewrite Hc. unfold add64. rewrite w64_small; [lia|]. change 18446744073709551616%N with (2 ^ 64)%N.
    replace (N.of_nat (length a / bs) + 1)%N with (N.of_nat (S (length a / bs))) by lia. rewrite EQ. apply N.pow_lt_mono_r; lia. }
  rewrite EA. change (N.of_nat (S (length a / bs))) with (Npos (Pos.of_succ_nat (length a / bs))) in *. cbn [tz64].
  rewrite (ntz_pow _ _ EQ). now rewrite Nat.ltb_irrefl.
Qed.
Lemma core_setbuf : forall tag d a b k, pm_core tag d a -> length b = bs -> pm_core tag (pm_setbuf d b k) a.
Proof. intros tag d a b k (T & Li & Tg & Ha & Hlim & Hc & Hs & Lo & Ld & Lb) L. repeat split; auto. Qed.
Lemma copy_whole : forall (x p : list N), length p = length x -> copy_at x 0 p = p.
Proof.
  intros. unfold copy_at. rewrite firstn_O, firstn_all2 by lia. cbn [app]. rewrite skipn_all2 by lia. apply app_nil_r.
Qed.
Lemma mult_bs : forall (a : list N), length a mod bs = 0 -> length a = bs * (length a / bs).
Proof. intros a H. pose proof (Nat.div_mod (length a) bs ltac:(lia)). lia. Qed.
Ltac sp := repeat (split; [solve [auto | lia]|]); auto; try lia.
Lemma loop_ok : forall fuel tag d a msg, pm_core tag d a -> ppos d = 0 -> length msg <= fuel ->
  (N.of_nat (length (a ++ msg)) <= N.of_nat bs * pm_limit)%N ->
  exists d' a' t, pm_loop E bs fuel d msg = Some (d', t) /\ a ++ msg = a' ++ t /\ pm_core tag d' a' /\
    ppos d' = 0 /\ length t <= bs /\ (0 < length msg -> 0 < length t).
Proof.
  induction fuel as [|fuel IH]; intros tag d a msg C P F HB; cbn [pm_loop].
  - exists d, a, msg. sp.
  - destruct (Nat.ltb_spec bs (length msg)) as [G|G]; [|exists d, a, msg; sp].
    pose proof C as (T & Li & Tg & Ha & Hlim & Hc & Hs & Lo & Ld & Lb).
    assert (Lf : length (firstn bs msg) = bs) by (rewrite firstn_length; lia).
    rewrite copy_whole by lia. pose proof (mult_bs a Ha) as MA. rewrite app_length in HB.
    destruct (process_ok tag _ a (firstn bs msg) (core_setbuf _ _ _ (firstn bs msg) (ppos d) C Lf) eq_refl Lf) as (d1 & E1 & C1 & P1).
    { assert (N.of_nat bs * (N.of_nat (length a / bs) + 1) < N.of_nat bs * pm_limit)%N by lia. nia. }
    rewrite E1. destruct (IH tag d1 (a ++ firstn bs msg) (skipn bs msg) C1 P1) as (d' & a' & t & R1 & R2 & R3 & R4 & R5 & R6).
    { rewrite skipn_length. lia. }
    { rewrite <- app_assoc, firstn_skipn, app_length. exact HB. }
    exists d', a', t. rewrite <- app_assoc, firstn_skipn in R2. sp. intros _. apply R6. rewrite skipn_length. lia.
Qed.
Lemma loop_panic : forall fuel tag d a msg, pm_core tag d a -> bs <= 32 -> length msg <= fuel ->
  (N.of_nat bs * pm_limit < N.of_nat (length (a ++ msg)))%N -> pm_loop E bs fuel d msg = None.
Proof.
  induction fuel as [|fuel IH]; intros tag d a msg C H32 F HB; pose proof C as (T & Li & Tg & Ha & Hlim & Hc & Hs & Lo & Ld & Lb);
    pose proof (mult_bs a Ha) as MA; rewrite app_length in HB; cbn [pm_loop].
  - exfalso. nia.
  - assert (K : (N.of_nat bs * (N.of_nat (length a / bs) + 1) <= N.of_nat bs * pm_limit)%N) by (apply N.mul_le_mono_l; lia).
    destruct (Nat.ltb_spec bs (length msg)) as [G|G]; [|exfalso; lia].
    assert (Lf : length (firstn bs msg) = bs) by (rewrite firstn_length; lia).
    rewrite copy_whole by lia. pose proof (core_setbuf _ _ _ (firstn bs msg) (ppos d) C Lf) as C0.
    destruct (N.lt_ge_cases (N.of_nat (length a / bs) + 1) pm_limit) as [Q|Q].
    + destruct (process_ok tag _ a (firstn bs msg) C0 eq_refl Lf Q) as (d1 & E1 & C1 & P1). rewrite E1.
      apply (IH tag d1 (a ++ firstn bs msg)); auto. rewrite skipn_length; lia. rewrite <- app_assoc, firstn_skipn, app_length. exact HB.
    + now rewrite (process_panic tag _ a C0 H32 Q).
Qed.
Lemma write_fill : forall tag d m p, pm_rel tag d m -> bs - ppos d < length p ->
  exists a d0, pm_core tag d0 a /\ pm_setbuf d (copy_at (pbuf d) (ppos d) (firstn (bs - ppos d) p)) (ppos d) = d0 /\
    length (pbuf d0) = bs /\ m ++ p = a ++ pbuf d0 ++ skipn (bs - ppos d) p /\ 0 < length (skipn (bs - ppos d) p).
Proof.
  intros tag d m p (a & t & Em & C & Lt & Ht & Ep & Ef) G. pose proof C as (T & Li & Tg & Ha & Hlim & Hc & Hs & Lo & Ld & Lb).
  assert (Lf : length (firstn (bs - ppos d) p) = bs - ppos d) by (rewrite firstn_length; lia).
  assert (LC : length (copy_at (pbuf d) (ppos d) (firstn (bs - ppos d) p)) = bs) by (rewrite copy_at_length; lia).
  exists a. eexists. split; [|split; [reflexivity|]]; [now apply core_setbuf|]. cbn [pm_setbuf pbuf]. split; [exact LC|]. split.
  - rewrite copy_at_full by lia. rewrite Ep, Ef, Lb. rewrite (firstn_all2 (firstn _ p)) by (rewrite firstn_length; lia).
    rewrite Em, <- !app_assoc, firstn_skipn. reflexivity.
  - rewrite skipn_length. lia.
Qed.
Lemma pm_write_ok : forall tag d m p, pm_rel tag d m -> (N.of_nat (length (m ++ p)) <= N.of_nat bs * pm_limit)%N ->
  exists d', pmac_write E bs d p = Some (d', length p) /\ pm_rel tag d' (m ++ p).
Proof.
  intros tag d m p R HB. unfold pmac_write. destruct (Nat.ltb_spec (bs - ppos d) (length p)) as [G|G].
  - destruct (write_fill tag d m p R G) as (a & d0 & C & -> & Lb & Em & Hp).
    pose proof C as (T & Li & Tg & Ha & Hlim & Hc & Hs & Lo & Ld & _). pose proof (mult_bs a Ha) as MA.
    rewrite Em in HB. destruct (process_ok tag d0 a (pbuf d0) C eq_refl Lb) as (d1 & E1 & C1 & P1).
    { rewrite !app_length in HB. nia. }
    rewrite E1. rewrite app_assoc in HB, Em.
    destruct (loop_ok (length (skipn (bs - ppos d) p)) tag d1 _ _ C1 P1 (Nat.le_refl _) HB) as (d' & a' & t & R1 & R2 & R3 & R4 & R5 & R6).
    rewrite R1. specialize (R6 Hp). destruct (Nat.ltb_spec 0 (length t)); [|lia]. eexists. split; [reflexivity|].
    pose proof R3 as (_ & _ & _ & _ & _ & _ & _ & _ & _ & Lb').
    exists a', t. rewrite Em, R2, R4. split; [reflexivity|]. split; [apply core_setbuf; auto; rewrite copy_at_length; lia|].
    split; [assumption|]. split; [lia|]. cbn [pm_setbuf ppos pbuf]. split; [reflexivity|].
    pose proof (copy_at_firstn N (pbuf d') 0 t ltac:(lia) ltac:(lia)) as F. exact F.
  - destruct R as (a & t & Em & C & Lt & Ht & Ep & Ef). pose proof C as (T & Li & Tg & Ha & Hlim & Hc & Hs & Lo & Ld & Lb).
    assert (EL : pm_loop E bs (length p) d p = Some (d, p)).
    { destruct (length p) eqn:L; cbn [pm_loop]; auto. destruct (Nat.ltb_spec bs (length p)); [lia|reflexivity]. }
    rewrite EL. eexists. split; [reflexivity|]. destruct (Nat.ltb_spec 0 (length p)) as [Z|Z].
    + exists a, (t ++ p). rewrite Em, app_assoc. split; [reflexivity|]. split; [apply core_setbuf; auto; rewrite copy_at_length; lia|].
      rewrite app_length. split; [lia|]. split; [lia|]. cbn [pm_setbuf ppos pbuf]. split; [lia|].
      rewrite <- Ep. rewrite copy_at_firstn by lia. rewrite Ep. now rewrite Ef.
    + assert (p = []) as -> by (apply length_zero_iff_nil; lia). rewrite app_nil_r. exists a, t. repeat split; auto.
Qed.
Lemma pm_write_panic : forall tag d m p, bs <= 32 -> pm_rel tag d m -> (N.of_nat bs * pm_limit < N.of_nat (length (m ++ p)))%N ->
  pmac_write E bs d p = None.
Proof.
  intros tag d m p H32 R HB. unfold pmac_write. destruct (Nat.ltb_spec (bs - ppos d) (length p)) as [G|G].
  - destruct (write_fill tag d m p R G) as (a & d0 & C & -> & Lb & Em & Hp).
    destruct (N.lt_ge_cases (N.of_nat (length a / bs) + 1) pm_limit) as [Q|Q].
    + destruct (process_ok tag d0 a (pbuf d0) C eq_refl Lb Q) as (d1 & E1 & C1 & P1). rewrite E1.
      rewrite (loop_panic _ tag d1 (a ++ pbuf d0)); auto. now rewrite <- app_assoc, <- Em.
    + now rewrite (process_panic tag _ a C H32 Q).
  - exfalso. destruct R as (a & t & Em & C & Lt & Ht & Ep & Ef). pose proof C as (T & Li & Tg & Ha & Hlim & Hc & Hs & Lo & Ld & Lb).
    pose proof (mult_bs a Ha) as MA. rewrite Em, !app_length in HB. nia.
Qed.
Lemma pm_check_ok : forall tag d m, pm_rel tag d m -> firstn tag (pm_check E bs d) = pmac_spec E bs 0x87 tag m.
Proof.
  intros tag d m (a & t & Em & C & Lt & Ht & Ep & Ef). pose proof C as (T & Li & Tg & Ha & Hlim & Hc & Hs & Lo & Ld & Lb).
  destruct (pm_iter_ok E bs 0 ltac:(lia) HE) as (_ & LL & _). cbn [pmac_L] in LL.
  assert (LH : length (gf_halve bs 135 (E (zeros bs))) = bs) by apply be_bytes_length.
  unfold pm_check, pmac_spec. cbv zeta. f_equal. rewrite Ep.
  destruct (Nat.eqb_spec (length t) bs) as [W|W].
  - destruct (div_snoc a t Ha W) as [_ MS].
    assert (B : ((0 <? length m) && (length m mod bs =? 0) = true)%bool).
    { rewrite Em, MS. cbn [Nat.eqb]. rewrite andb_true_r. apply Nat.ltb_lt. rewrite app_length. lia. }
    rewrite B, Em, chunks_snoc', removelast_last, last_last, Hs by auto.
    rewrite W in Ef. rewrite firstn_all2 in Ef by lia. rewrite Ef, Li.
    rewrite (xor_into_full (pdig d) t) by lia. rewrite xor_into_full by (rewrite xorblk_length; lia). now rewrite xorblk_assoc.
  - assert (Er : rest bs m = t).
    { rewrite Em, rest_app, (rest_0 _ bs a), app_nil_l by (auto; lia). apply rest_short. lia. }
    assert (Ec : chunks bs m = chunks bs a).
    { rewrite Em, chunks_app, (rest_0 _ bs a), app_nil_l, (chunks_short _ bs t), app_nil_r by (auto; lia). reflexivity. }
    assert (B : ((0 <? length m) && (length m mod bs =? 0) = false)%bool).
    { rewrite <- (rest_length N bs m) by lia. rewrite Er. destruct (Nat.eqb_spec (length t) 0) as [Z|Z]; [|apply andb_false_r].
      rewrite Em, (Ht Z), app_nil_l, Z. reflexivity. }
    rewrite B, Ec, Hs, Er. rewrite Ef. f_equal. rewrite (xor_into_pad t (pdig d)) by lia. now rewrite Ld.
Qed.
Lemma pm_fresh_core : forall tag d, pl d = pm_table (2 * bs - 1) (E (zeros bs)) -> plinv d = gf_halve bs 0x87 (E (zeros bs)) ->
  ptag d = tag -> pm_rel tag (pmac_reset bs d) [].
Proof.
  intros tag d T L G. exists [], []. cbn [app length]. split; auto. split; [|repeat split; auto; lia].
  unfold pm_core, pmac_reset. cbn [pl plinv ptag pctr poffs pdig pbuf]. cbn [length]. rewrite Nat.div_0_l, Nat.mod_0_l by lia.
  repeat split; auto; try apply zeros_length.
  - unfold pm_limit. apply N.neq_0_lt_0. apply N.pow_nonzero. discriminate.
  - rewrite chunks_short by (cbn; lia). reflexivity.
Qed.
Lemma pm_new_ok : forall tag, In bs [8; 16; 32; 64; 128] -> 0 < tag <= bs ->
  exists d, pmac_new E bs tag = Some d /\ pm_rel tag d [].
Proof.
  intros tag Hin Ht. unfold pmac_new. destruct (Nat.eqb_spec tag 0); [lia|]. destruct (Nat.ltb_spec bs tag); [lia|]. cbn [orb].
  assert (X : existsb (Nat.eqb bs) [8; 16; 32; 64; 128] = true) by (apply existsb_exists; exists bs; split; auto; apply Nat.eqb_refl).
  rewrite X. eexists. split; [reflexivity|]. destruct (HE (zeros bs) (zeros_length bs)) as [L B].
  apply (pm_fresh_core tag (mkpm (pm_table (2 * bs - 1) (E (zeros bs))) (pm_half (E (zeros bs))) (zeros bs) (zeros bs) (zeros bs) 0 0 tag)); auto.
  cbn [plinv]. apply pm_half_ok; auto.
Qed.
(** Calls in which a Sum is only ever followed by Reset, and the history stays below the limit. *)
Fixpoint pm_polite (m : list N) (ops : list op) : Prop :=
  match ops with
  | [] => True
  | Write p :: t => (N.of_nat (length (m ++ p)) <= N.of_nat bs * pm_limit)%N /\ pm_polite (m ++ p) t
  | Sum _ :: t => match t with [] => True | Reset :: t' => pm_polite [] t' | _ => False end
  | Reset :: t => pm_polite [] t
  end.
Lemma pm_run_ok : forall n ops tag d m, length ops <= n -> pm_polite m ops -> pm_rel tag d m ->
  pmac_run E bs d ops = Some (ideal_run (pmac_spec E bs 0x87 tag) m ops).
Proof.
  induction n as [|n IH]; intros ops tag d m HL HP R; destruct ops as [|o ops]; auto; [cbn [length] in HL; lia|].
  cbn [length] in HL. pose proof R as (a & t & Em & (T & Li & Tg & _) & _).
  destruct o as [p|i|]; cbn [pm_polite] in HP.
  - destruct HP as [HB HP]. destruct (pm_write_ok tag d m p R HB) as (d' & E1 & R1). cbn [pmac_run ideal_run]. rewrite E1.
    rewrite (IH ops tag d' (m ++ p)); auto. lia.
  - pose proof (pm_check_ok tag d m R) as EC. destruct ops as [|[q|j|] ops]; try contradiction.
    + cbn [pmac_run ideal_run pmac_sum]. rewrite Tg, EC. reflexivity.
    + cbn [pmac_run ideal_run pmac_sum option_map]. rewrite Tg, EC.
      cbn [length] in HL. rewrite (IH ops tag _ []); [reflexivity|lia|exact HP|]. apply pm_fresh_core; auto.
  - cbn [pmac_run ideal_run]. apply (IH ops tag _ []); [lia|exact HP|]. apply pm_fresh_core; auto.
Qed.

(** ** Every history.  The block handed to the cipher at the end, and the checksum before it. *)
Definition pmac_whole (m : list N) : bool := (0 <? length m) && (length m mod bs =? 0).
Definition pm_dig (d : pm) : list N :=
  if ppos d =? bs then xor_into (xor_into (pdig d) (pbuf d)) (plinv d)
  else let x := xor_into (pdig d) (firstn (ppos d) (pbuf d)) in upd x (ppos d) (N.lxor (at_ x (ppos d)) 0x80).
Definition sigma_of (m : list N) : list N :=
  snd (sigma (if pmac_whole m then removelast (chunks bs m) else chunks bs m)).
Definition fin_of (m : list N) : list N :=
  if pmac_whole m then xorblk (last (chunks bs m) []) (gf_halve bs 0x87 (E (zeros bs)))
  else rest bs m ++ 0x80%N :: zeros (bs - 1 - length (rest bs m)).
Lemma pm_dig_ok : forall tag d m, pm_rel tag d m ->
  pdig d = sigma_of m /\ pm_dig d = xorblk (sigma_of m) (fin_of m) /\ length (pdig d) = bs /\ ptag d = tag.
Proof.
  intros tag d m (a & t & Em & C & Lt & Ht & Ep & Ef). pose proof C as (T & Li & Tg & Ha & Hlim & Hc & Hs & Lo & Ld & Lb).
  destruct (pm_iter_ok E bs 0 ltac:(lia) HE) as (_ & LL & _). cbn [pmac_L] in LL.
  assert (LH : length (gf_halve bs 135 (E (zeros bs))) = bs) by apply be_bytes_length.
  unfold pm_dig, sigma_of, fin_of, pmac_whole. rewrite Ep.
  destruct (Nat.eqb_spec (length t) bs) as [W|W].
  - destruct (div_snoc a t Ha W) as [_ MS].
    assert (B : ((0 <? length m) && (length m mod bs =? 0) = true)%bool).
    { rewrite Em, MS. cbn [Nat.eqb]. rewrite andb_true_r. apply Nat.ltb_lt. rewrite app_length. lia. }
    rewrite B, Em, chunks_snoc', removelast_last, last_last, Hs by auto. cbn [snd].
    rewrite W in Ef. rewrite firstn_all2 in Ef by lia. rewrite Ef, Li.
    rewrite (xor_into_full (pdig d) t) by lia. rewrite xor_into_full by (rewrite xorblk_length; lia). rewrite xorblk_assoc. auto.
  - assert (Er : rest bs m = t).
    { rewrite Em, rest_app, (rest_0 _ bs a), app_nil_l by (auto; lia). apply rest_short. lia. }
    assert (Ec : chunks bs m = chunks bs a).
    { rewrite Em, chunks_app, (rest_0 _ bs a), app_nil_l, (chunks_short _ bs t), app_nil_r by (auto; lia). reflexivity. }
    assert (B : ((0 <? length m) && (length m mod bs =? 0) = false)%bool).
    { rewrite <- (rest_length N bs m) by lia. rewrite Er. destruct (Nat.eqb_spec (length t) 0) as [Z|Z]; [|apply andb_false_r].
      rewrite Em, (Ht Z), app_nil_l, Z. reflexivity. }
    rewrite B, Ec, Hs, Er. cbn [snd]. rewrite Ef. split; [reflexivity|]. split; [|auto].
    rewrite (xor_into_pad t (pdig d)) by lia. now rewrite Ld.
Qed.

(** The same object with its checksum off by [D]. *)
Definition adj (d : pm) (D : list N) : pm :=
  mkpm (pl d) (plinv d) (xorblk (pdig d) D) (poffs d) (pbuf d) (ppos d) (pctr d) (ptag d).
Lemma xor_into_adj : forall x D b, length x = length D -> xor_into (xorblk x D) b = xorblk (xor_into x b) D.
Proof.
  induction x as [|x xs IH]; intros [|y D] b H; try discriminate; [reflexivity|].
  destruct b as [|z b]; [reflexivity|]. unfold xorblk in *. cbn [combine map xor_into fst snd].
  rewrite IH by (cbn [length] in H; lia). f_equal. rewrite !N.lxor_assoc. f_equal. apply N.lxor_comm.
Qed.
Lemma upd_adj : forall x D i v, length x = length D ->
  upd (xorblk x D) i (N.lxor (at_ (xorblk x D) i) v) = xorblk (upd x i (N.lxor (at_ x i) v)) D.
Proof.
  induction x as [|x xs IH]; intros [|y D] i v H; try discriminate; [destruct i; reflexivity|].
  destruct i as [|i]; unfold xorblk, at_ in *; cbn [combine map fst snd upd nth].
  - f_equal. rewrite !N.lxor_assoc. f_equal. apply N.lxor_comm.
  - f_equal. apply IH. cbn [length] in H. lia.
Qed.
Lemma pm_process_adj : forall d D, length (pdig d) = length D ->
  pm_process E (adj d D) = option_map (fun e => adj e D) (pm_process E d) /\
  (forall e, pm_process E d = Some e -> length (pdig e) = length D).
Proof.
  intros d D H. unfold pm_process. cbn [adj pl plinv pdig poffs pbuf ppos pctr ptag].
  destruct (nth_error _ _) as [l|]; cbn [option_map]; [|split; [reflexivity|discriminate]].
  split.
  - unfold adj. cbn [pl plinv pdig poffs pbuf ppos pctr ptag]. now rewrite xor_into_adj.
  - intros e He. injection He as <-. cbn [pdig]. now rewrite xor_into_length.
Qed.
Lemma setbuf_adj : forall d D b k, pm_setbuf (adj d D) b k = adj (pm_setbuf d b k) D.
Proof. reflexivity. Qed.
Definition adj1 {X} (D : list N) (r : pm * X) : pm * X := let '(d, x) := r in (adj d D, x).
Lemma pm_loop_adj : forall fuel d D msg, length (pdig d) = length D ->
  pm_loop E bs fuel (adj d D) msg = option_map (adj1 D) (pm_loop E bs fuel d msg) /\
  (forall e r, pm_loop E bs fuel d msg = Some (e, r) -> length (pdig e) = length D).
Proof.
  induction fuel as [|fuel IH]; intros d D msg H; cbn [pm_loop].
  - split; [reflexivity|]. intros e r He. injection He as <- <-. exact H.
  - destruct (bs <? length msg).
    + change (pbuf (adj d D)) with (pbuf d). change (ppos (adj d D)) with (ppos d). rewrite setbuf_adj.
      destruct (pm_process_adj (pm_setbuf d (copy_at (pbuf d) 0 (firstn bs msg)) (ppos d)) D H) as [P1 P2]. rewrite P1. clear P1.
      destruct (pm_process E _) as [e|]; cbn [option_map]; [|split; [reflexivity|discriminate]].
      apply IH. now apply P2.
    + split; [reflexivity|]. intros e r He. injection He as <- <-. exact H.
Qed.
Lemma pm_write_adj : forall d D p, length (pdig d) = length D ->
  pmac_write E bs (adj d D) p = option_map (adj1 D) (pmac_write E bs d p).
Proof.
  intros d D p H. unfold pmac_write.
  change (pbuf (adj d D)) with (pbuf d). change (ppos (adj d D)) with (ppos d). rewrite setbuf_adj.
  assert (K : forall r, (forall e q, r = Some (e, q) -> length (pdig e) = length D) ->
    match option_map (adj1 D) r with None => None | Some (d, rem) =>
      match pm_loop E bs (length rem) d rem with None => None | Some (d, rem) =>
        let d := if 0 <? length rem then pm_setbuf d (copy_at (pbuf d) (ppos d) rem) (ppos d + length rem) else d in
        Some (d, length p) end end =
    option_map (adj1 D) match r with None => None | Some (d, rem) =>
      match pm_loop E bs (length rem) d rem with None => None | Some (d, rem) =>
        let d := if 0 <? length rem then pm_setbuf d (copy_at (pbuf d) (ppos d) rem) (ppos d + length rem) else d in
        Some (d, length p) end end).
  { intros [[e q]|] Hr; [|reflexivity]. cbn [option_map adj1].
    destruct (pm_loop_adj (length q) e D q (Hr e q eq_refl)) as [L1 L2]. rewrite L1.
    destruct (pm_loop E bs (length q) e q) as [[e2 q2]|]; [|reflexivity]. cbn [option_map adj1]. cbv zeta.
    change (pbuf (adj e2 D)) with (pbuf e2). change (ppos (adj e2 D)) with (ppos e2).
    destruct (0 <? length q2); reflexivity. }
  destruct (bs - ppos d <? length p).
  - destruct (pm_process_adj (pm_setbuf d (copy_at (pbuf d) (ppos d) (firstn (bs - ppos d) p)) (ppos d)) D H) as [P1 P2].
    rewrite P1. clear P1. destruct (pm_process E _) as [e|]; cbn [option_map]; [|reflexivity].
    apply (K (Some (e, skipn (bs - ppos d) p))). intros e' q' He. injection He as <- <-. now apply P2.
  - apply (K (Some (d, p))). intros e' q' He. injection He as <- <-. exact H.
Qed.
Lemma pm_dig_adj : forall d D, length (pdig d) = length D -> pm_dig (adj d D) = xorblk (pm_dig d) D.
Proof.
  intros d D H. unfold pm_dig. cbn [adj pl plinv pdig poffs pbuf ppos pctr ptag]. destruct (ppos d =? bs).
  - rewrite xor_into_adj by assumption. apply xor_into_adj. now rewrite xor_into_length.
  - rewrite xor_into_adj by assumption. cbv zeta. apply upd_adj. now rewrite xor_into_length.
Qed.
Lemma xorblk_zeros : forall x n, length x = n -> xorblk x (zeros n) = x.
Proof.
  intros x n <-. induction x as [|x xs IH]; [reflexivity|]. unfold xorblk in *. cbn [length zeros repeat combine map fst snd].
  rewrite N.lxor_0_r. f_equal. exact IH.
Qed.
Lemma xorblk_back : forall x t, length x = length t -> xorblk x (xorblk x t) = t.
Proof.
  induction x as [|x xs IH]; intros [|y t] H; try discriminate; [reflexivity|].
  unfold xorblk in *. cbn [combine map fst snd]. rewrite IH by (cbn [length] in H; lia). f_equal.
  now rewrite <- N.lxor_assoc, N.lxor_nilpotent, N.lxor_0_l.
Qed.
Lemma pm_adj_run_ok : forall (drift : list N -> list N -> list op -> option (list obs)) tag,
  (forall D m, drift D m [] = Some []) ->
  (forall D m p t, drift D m (Write p :: t) =
     if (N.of_nat bs * pm_limit <? N.of_nat (length (m ++ p)))%N then None
     else option_map (cons (Wrote (length p))) (drift D (m ++ p) t)) ->
  (forall D m i t, drift D m (Sum i :: t) =
     let T := E (xorblk (xorblk (sigma_of m) (fin_of m)) D) in
     option_map (cons (Summed (i ++ firstn tag T))) (drift (xorblk (sigma_of m) T) m t)) ->
  (forall D m t, drift D m (Reset :: t) = drift (zeros bs) [] t) ->
  bs <= 32 ->
  forall ops d m D, pm_rel tag d m -> length D = bs -> pmac_run E bs (adj d D) ops = drift D m ops.
Proof.
  intros drift tag H0 HW HS HR H32. induction ops as [|o ops IH]; intros d m D R LD; [now rewrite H0|].
  destruct (pm_dig_ok tag d m R) as (Es & Ed & Lp & Tg).
  destruct o as [p|i|]; cbn [pmac_run].
  - rewrite HW, pm_write_adj by lia. destruct (N.ltb_spec (N.of_nat bs * pm_limit) (N.of_nat (length (m ++ p)))) as [G|G].
    + rewrite (pm_write_panic tag d m p H32 R G). reflexivity.
    + destruct (pm_write_ok tag d m p R G) as (d' & E1 & R1). rewrite E1. cbn [option_map adj1]. now rewrite (IH d' (m ++ p) D R1 LD).
  - rewrite HS. cbv zeta. unfold pmac_sum.
    change (pm_check E bs (adj d D)) with (E (pm_dig (adj d D))). rewrite pm_dig_adj by lia. rewrite Ed.
    set (X := xorblk (xorblk (sigma_of m) (fin_of m)) D).
    assert (LX : length X = bs).
    { unfold X. rewrite <- Ed. assert (LG : length (pm_dig d) = bs).
      { unfold pm_dig. destruct (ppos d =? bs); [now rewrite !xor_into_length|].
        cbv zeta. rewrite upd_length. now rewrite xor_into_length. }
      rewrite xorblk_length; lia. }
    destruct (HE X LX) as [LT _]. cbn [adj pl plinv pdig poffs pbuf ppos pctr ptag]. rewrite Tg. f_equal.
    rewrite <- (IH d m (xorblk (sigma_of m) (E X)) R) by (rewrite <- Es, xorblk_length; lia).
    f_equal. unfold adj. rewrite <- Es, xorblk_back by lia. now rewrite Tg.
  - rewrite HR. destruct R as (a & t & Em & (T & Li & Tg' & Ha & Hlim & Hc & Hs & Lo & Ld & Lb) & _).
    rewrite <- (IH (pmac_reset bs d) [] (zeros bs)); [|now apply pm_fresh_core|apply zeros_length].
    f_equal. unfold adj, pmac_reset. cbn [adj pl plinv pdig poffs pbuf ppos pctr ptag].
    now rewrite (xorblk_zeros (zeros bs) bs (zeros_length bs)).
Qed.
End Rel.
