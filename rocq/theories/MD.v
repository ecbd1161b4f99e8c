(** MD.v -- digests whose Go struct is { s; x [BlockSize]byte; nx int; len uint64 }
    and whose Write is one of the buffering idioms of Buf.v.  The packages
    instantiate this with their own compression function; each instance cites
    the Go lines it models. *)
From Coq Require Import List NArith Arith Lia Bool.
From Verif Require Import Base Words HashAPI Buf.
Import ListNotations.

Record dig (St : Type) : Type := mkdig { ds : St; dx : list N; dnx : nat; dlen : N }.
Arguments mkdig {St}. Arguments ds {St}. Arguments dx {St}. Arguments dnx {St}. Arguments dlen {St}.

Section Model.
Context {St : Type}.
Variable bs : nat.
Variable f : St -> list N -> St.

(** d.len += uint64(nn) first, then the loop idiom. *)
Definition write_pre (d : dig St) (p : list N) : dig St * nat :=
  let '(s', x', nx', _) := writeA bs (fun s b _ => f s b) (ds d) (dx d) (dnx d) p in
  (mkdig s' x' nx' (add64 (dlen d) (N.of_nat (length p))), length p).

(** The loop idiom with d.len += unit*xx in every iteration and
    d.len += unit*plen at the end (unit = 1 or 8). *)
Definition write_post (unit : N) (d : dig St) (p : list N) : dig St * nat :=
  let '(st', x', nx', plen) :=
    writeA bs (fun s b xx => (f (fst s) b, add64 (snd s) (unit * N.of_nat xx)))
           (ds d, dlen d) (dx d) (dnx d) p in
  (mkdig (fst st') x' nx' (add64 (snd st') (unit * N.of_nat plen)), length p).

(** d.len += uint64(nn) first, then the standard-library idiom. *)
Definition write_std (d : dig St) (p : list N) : dig St * nat :=
  let '(s', x', nx') := writeB bs f (ds d) (dx d) (dnx d) p in
  (mkdig s' x' nx' (add64 (dlen d) (N.of_nat (length p))), length p).

(** The loop idiom without any length counter. *)
Definition write_nolen (d : dig St) (p : list N) : dig St * nat :=
  let '(s', x', nx', _) := writeA bs (fun s b _ => f s b) (ds d) (dx d) (dnx d) p in
  (mkdig s' x' nx' (dlen d), length p).

(** [d] is a state reached after writing [m] (length counter in units of 1/unit byte). *)
Definition dig_rel (iv : St) (unit : N) (d : dig St) (m : list N) : Prop :=
  ds d = fold_left f (chunks bs m) iv /\ buf_ok bs bs (dx d) (dnx d) m /\
  dlen d = w64 (unit * N.of_nat (length m)).

Hypothesis Hbs : 0 < bs.

Lemma dig_rel_new : forall iv unit x, length x = bs -> dig_rel iv unit (mkdig iv x 0 0) [].
Proof.
  intros. split; [|split].
  - simpl. rewrite chunks_short by (simpl; lia). reflexivity.
  - apply buf_ok_nil; auto.
  - simpl. now rewrite N.mul_0_r.
Qed.

Lemma write_pre_rel : forall iv d m p, dig_rel iv 1 d m ->
  dig_rel iv 1 (fst (write_pre d p)) (m ++ p).
Proof.
  intros iv d m p (Hs & Hb & Hl). unfold write_pre. rewrite Hs.
  destruct (writeA_plain _ f bs iv m p (dx d) (dnx d) Hbs Hb) as (x' & nx' & r & E & Hb').
  rewrite E. cbn [fst]. split; [reflexivity|]. split; [exact Hb'|].
  cbn [dlen]. rewrite Hl, app_length. unfold add64. rewrite w64_add_l. f_equal. lia.
Qed.
Lemma write_pre_count : forall d p, snd (write_pre d p) = length p.
Proof. intros. unfold write_pre. destruct (writeA _ _ _ _ _ _) as [[[? ?] ?] ?]. reflexivity. Qed.

Lemma write_nolen_rel : forall iv d m p, dig_rel iv 0 d m ->
  dig_rel iv 0 (fst (write_nolen d p)) (m ++ p).
Proof.
  intros iv d m p (Hs & Hb & Hl). unfold write_nolen. rewrite Hs.
  destruct (writeA_plain _ f bs iv m p (dx d) (dnx d) Hbs Hb) as (x' & nx' & r & E & Hb').
  rewrite E. cbn [fst]. split; [reflexivity|]. split; [exact Hb'|].
  cbn [dlen]. rewrite Hl. now rewrite !N.mul_0_l.
Qed.
Lemma write_nolen_count : forall d p, snd (write_nolen d p) = length p.
Proof. intros. unfold write_nolen. destruct (writeA _ _ _ _ _ _) as [[[? ?] ?] ?]. reflexivity. Qed.

Lemma write_std_rel : forall iv d m p, dig_rel iv 1 d m ->
  dig_rel iv 1 (fst (write_std d p)) (m ++ p).
Proof.
  intros iv d m p (Hs & Hb & Hl). unfold write_std. rewrite Hs.
  destruct (writeB_plain bs f Hbs iv m p (dx d) (dnx d) Hb) as (x' & nx' & E & Hb').
  rewrite E. cbn [fst]. split; [reflexivity|]. split; [exact Hb'|].
  cbn [dlen]. rewrite Hl, app_length. unfold add64. rewrite w64_add_l. f_equal. lia.
Qed.
Lemma write_std_count : forall d p, snd (write_std d p) = length p.
Proof. intros. unfold write_std. destruct (writeB _ _ _ _ _ _) as [[? ?] ?]. reflexivity. Qed.

Lemma write_post_rel : forall unit iv d m p, dig_rel iv unit d m ->
  dig_rel iv unit (fst (write_post unit d p)) (m ++ p).
Proof.
  intros unit iv d m p (Hs & Hb & Hl). unfold write_post.
  destruct (writeA_ok bs bs (fun s b xx => (f (fst s) b, add64 (snd s) (unit * N.of_nat xx)))
    (fun st h => fst st = fold_left f (chunks bs h) iv
                 /\ snd st = w64 (unit * N.of_nat (length h))) Hbs (le_n _))
    with (s := (ds d, dlen d)) (x := dx d) (nx := dnx d) (p := p) (m := m)
    as (st & x' & nx' & r & c & E & Ep & (Hs' & Hl') & Hlt & Hb'); auto.
  - intros st h c b (E1 & E2) Lb Fb Hc. cbn [fst snd]. split.
    + rewrite (firstn_all2 b) in Fb by lia.
      rewrite absorb_snoc by lia. rewrite <- E1, Fb. reflexivity.
    + rewrite E2, app_length. unfold add64. rewrite w64_add_l. f_equal. lia.
  - rewrite E. cbn [fst snd]. split; [|split]; cbn [ds dx dnx dlen].
    + rewrite Hs', Ep, app_assoc, (absorb_short _ f bs _ (m ++ c) r) by lia. reflexivity.
    + auto.
    + rewrite Hl', Ep. unfold add64. rewrite w64_add_l, !app_length. f_equal. lia.
Qed.
Lemma write_post_count : forall unit d p, snd (write_post unit d p) = length p.
Proof. intros. unfold write_post. destruct (writeA _ _ _ _ _ _) as [[[? ?] ?] ?]. reflexivity. Qed.

(** The direct end-of-message processing. *)
Lemma dig_finish : forall iv unit d m marker lenb,
  0 < length lenb < bs -> dig_rel iv unit d m ->
  fold_left f (finish_blocks bs marker (dx d) (dnx d) lenb) (ds d)
  = fold_left f (chunks bs (md_pad bs marker lenb m)) iv.
Proof.
  intros iv unit d m marker lenb Hl (Hs & Hb & _).
  rewrite (finish_blocks_ok bs marker (dx d) (dnx d) lenb m) by auto.
  now rewrite fold_left_app, <- Hs.
Qed.

Lemma dig_nx : forall iv unit d m, dig_rel iv unit d m -> dnx d = length m mod bs.
Proof. intros iv unit d m (_ & (_ & -> & _) & _). apply rest_length. lia. Qed.
Lemma dig_nx_lt : forall iv unit d m, dig_rel iv unit d m -> dnx d < bs.
Proof. intros iv unit d m (_ & H & _). eapply buf_ok_nx_lt; eauto. Qed.

End Model.

(** Writing the padding through Write itself (the other common way to finish):
    number of zero bytes used by  "if len%64 < 56 then 56-len%64 else 120-len%64". *)
Lemma pad_via_write : forall bs l (m : list N), 0 < bs -> 0 < l < bs ->
  (let r := length m mod bs in if r <? bs - l then bs - l - r else bs + (bs - l) - r)
  = S ((bs - (length m + 1 + l) mod bs) mod bs).
Proof.
  intros bs l m Hb Hl. rewrite pad_count by lia. cbv zeta. rewrite rest_length by lia.
  pose proof (Nat.mod_upper_bound (length m) bs ltac:(lia)).
  destruct (Nat.ltb_spec (length m mod bs) (bs - l)); destruct (Nat.ltb_spec (bs - l) (length m mod bs + 1)); lia.
Qed.

(** ** Finishing through Write (ripemd/digest160.go:82-103, tiger/digest.go:84-108):
    tmp = marker 0 0 ...; if len%64 < 56 { Write(tmp[:56-len%64]) } else
    { Write(tmp[:64+56-len%64]) }; Write(8 bytes of len<<3). *)
Definition pad_tmp {St} (marker : N) (d : dig St) : list N :=
  let r := N.to_nat (N.modulo (dlen d) 64) in
  firstn (if r <? 56 then 56 - r else 64 + 56 - r) (marker :: zeros 63).

Definition finish_write {St} (W : dig St -> list N -> dig St * nat) (marker : N) (d : dig St) : dig St :=
  let d1 := fst (W d (pad_tmp marker d)) in
  fst (W d1 (le_bytes 8 (shl64 (dlen d) 3))).

Lemma w64_mod64 : forall n, N.to_nat (w64 (N.of_nat n) mod 64) = n mod 64.
Proof.
  intros n. rewrite w64_mod_small by (lia || reflexivity).
  change 64%N with (N.of_nat 64). now rewrite <- Nat2N.inj_mod, Nat2N.id.
Qed.

Lemma finish_write_rel : forall St (f : St -> list N -> St) iv (W : dig St -> list N -> dig St * nat) marker d m,
  (forall d m p, dig_rel 64 f iv 1 d m -> dig_rel 64 f iv 1 (fst (W d p)) (m ++ p)) ->
  dig_rel 64 f iv 1 d m ->
  dig_rel 64 f iv 1 (finish_write W marker d) (md_pad 64 marker (le_bytes 8 (8 * N.of_nat (length m))) m).
Proof.
  intros St f iv W marker d m HW H. unfold finish_write.
  assert (El : le_bytes 8 (shl64 (dlen d) 3) = le_bytes 8 (8 * N.of_nat (length m))).
  { destruct H as (_ & _ & ->). unfold shl64. rewrite N.shiftl_mul_pow2, N.mul_1_l.
    rewrite w64_mul_l, le_bytes8_w64. f_equal. change (2 ^ 3)%N with 8%N. lia. }
  assert (Ep : pad_tmp marker d = marker :: zeros ((64 - (length m + 1 + 8) mod 64) mod 64)).
  { unfold pad_tmp. destruct H as (_ & _ & ->). rewrite N.mul_1_l, w64_mod64. cbv zeta.
    pose proof (pad_via_write 64 8 m ltac:(lia) ltac:(lia)) as K. cbv zeta in K.
    change (64 - 8) with 56 in K. rewrite K. cbn [firstn]. f_equal.
    rewrite firstn_zeros. f_equal. pose proof (Nat.mod_upper_bound (64 - (length m + 1 + 8) mod 64) 64 ltac:(lia)). lia. }
  rewrite El, Ep. unfold md_pad. rewrite le_bytes_length.
  rewrite (app_comm_cons _ _ marker), (app_assoc m).
  apply HW, HW, H.
Qed.

Lemma md_pad_nx : forall St (f : St -> list N -> St) iv unit marker lenb d m, 0 < 64 ->
  dig_rel 64 f iv unit d (md_pad 64 marker lenb m) -> dnx d = 0.
Proof.
  intros St f iv unit marker lenb d m Hb H. erewrite dig_nx by eauto. now apply md_pad_length.
Qed.

(** ** The direct way: has160/digest.go:74-88, also used elsewhere.
    x[nx] = marker; nx++; if nx > bs-l { zero x[nx:]; block; nx = 0 }; zero x[nx:];
    put the length at bs-l; block. *)
Definition finish_direct {St} (bs : nat) (f : St -> list N -> St) (marker : N) (lenb : list N) (d : dig St) : St :=
  let x1 := upd (dx d) (dnx d) marker in
  let nx1 := dnx d + 1 in
  let '(s2, x2, nx2) :=
    if bs - length lenb <? nx1
    then let x' := copy_at x1 nx1 (zeros bs) in (f (ds d) x', x', 0)
    else (ds d, x1, nx1) in
  f s2 (copy_at (copy_at x2 nx2 (zeros bs)) (bs - length lenb) lenb).

Lemma finish_direct_ok : forall St bs (f : St -> list N -> St) iv unit marker lenb d m, 0 < bs ->
  0 < length lenb < bs -> dig_rel bs f iv unit d m ->
  finish_direct bs f marker lenb d = fold_left f (chunks bs (md_pad bs marker lenb m)) iv.
Proof.
  intros St bs f iv unit marker lenb d m Hb Hl H.
  rewrite <- (dig_finish bs f Hb iv unit d m marker lenb Hl H).
  pose proof (dig_nx_lt bs f Hb _ _ _ _ H) as Hnx.
  assert (Lx : length (dx d) = bs) by (destruct H as (_ & (? & _) & _); auto).
  unfold finish_direct, finish_blocks.
  destruct (bs - length lenb <? dnx d + 1).
  - rewrite fold_left_cons, fold_left_cons, fold_left_nil. f_equal. f_equal.
    rewrite (copy_at_full _ (copy_at _ _ _) 0) by (rewrite ?zeros_length, ?copy_at_length, ?upd_length; rewrite ?upd_length; lia).
    rewrite copy_at_length, upd_length, Lx by (rewrite upd_length; lia).
    cbn [firstn]. rewrite app_nil_l, Nat.sub_0_r, firstn_zeros. f_equal. lia.
  - rewrite fold_left_cons, fold_left_nil. reflexivity.
Qed.
