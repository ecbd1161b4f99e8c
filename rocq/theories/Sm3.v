(** Sm3.v -- model of package /repo/sm3 (digest.go, block.go, utils.go, sbox.go,
    binary.go, sm3.go) and its refinement proof.  block_generic.go:5-7 makes
    block = blockGeneric; the assembly variants are not modelled. *)
From Coq Require Import List NArith Arith Lia Bool.
From Verif Require Import Base Words HashAPI Buf MD SpecSm3.
Import ListNotations.

(** ** Model *)

(** sbox.go:3-6 *)
Definition sm3_iv : list N :=
  [0x7380166F; 0x4914B2B9; 0x172442D7; 0xDA8A0600; 0xA96F30BC; 0x163138AA; 0xE38DEE4D; 0xB0FB0E4E]%N.

(** sbox.go:8-25 (generated by tools/gotab.py) *)
Definition sm3_tSbox : list N := [
  2043430169; 4086860338; 3878753381; 3462539467; 2630111639; 965255983; 1930511966; 3861023932;
  3427080569; 2559193843; 823420391; 1646840782; 3293681564; 2292395833; 289824371; 579648742;
  2643098247; 991229199; 1982458398; 3964916796; 3634866297; 2974765299; 1654563303; 3309126606;
  2323285917; 351604539; 703209078; 1406418156; 2812836312; 1330705329; 2661410658; 1027854021;
  2055708042; 4111416084; 3927864873; 3560762451; 2826557607; 1358147919; 2716295838; 1137624381;
  2275248762; 255530229; 511060458; 1022120916; 2044241832; 4088483664; 3882000033; 3469032771;
  2643098247; 991229199; 1982458398; 3964916796; 3634866297; 2974765299; 1654563303; 3309126606;
  2323285917; 351604539; 703209078; 1406418156; 2812836312; 1330705329; 2661410658; 1027854021]%N.



(** utils.go:20-42 *)
Definition sm3_P0 (x : N) : N := N.lxor (N.lxor x (rotl32 x 9)) (rotl32 x 17).
Definition sm3_P1 (x : N) : N := N.lxor (N.lxor x (rotl32 x 15)) (rotl32 x 23).
Definition sm3_FF00 (x y z : N) : N := N.lxor (N.lxor x y) z.
Definition sm3_FF16 (x y z : N) : N := N.lor (N.lor (N.land x y) (N.land x z)) (N.land y z).
Definition sm3_GG00 (x y z : N) : N := N.lxor (N.lxor x y) z.
Definition sm3_GG16 (x y z : N) : N := N.lxor (N.land (N.lxor y z) x) z.

(** block.go:18-25: the array W [68]uint32, filled in place. *)
Definition sm3_load (data : list N) : list N :=
  fold_left (fun W j => upd W j (be_val (slice data (j * 4) (j * 4 + 4)))) (seq 0 16) (zeros 68).
Definition sm3_W (data : list N) : list N :=
  fold_left (fun W j => upd W j
     (N.lxor (N.lxor (sm3_P1 (N.lxor (N.lxor (at_ W (j - 16)) (at_ W (j - 9))) (rotl32 (at_ W (j - 3)) 15)))
                     (rotl32 (at_ W (j - 13)) 7)) (at_ W (j - 6))))
    (seq 16 52) (sm3_load data).

(** The registers A..H of block.go:9-16 in this order. *)
Definition sm3_regs : Type := (N * N * N * N * N * N * N * N)%type.

(** block.go:28-41 and 45-58: the two loop bodies differ only in FF/GG. *)
Definition sm3_body (FF GG : N -> N -> N -> N) (W : list N) (r : sm3_regs) (j : nat) : sm3_regs :=
  let '(A, B, C, D, E, F, G, H) := r in
  let SS1 := rotl32 (add32 (add32 (rotl32 A 12) E) (at_ sm3_tSbox j)) 7 in
  let SS2 := N.lxor SS1 (rotl32 A 12) in
  let TT1 := add32 (add32 (add32 (FF A B C) D) SS2) (N.lxor (at_ W j) (at_ W (j + 4))) in
  let TT2 := add32 (add32 (add32 (GG E F G) H) SS1) (at_ W j) in
  (TT1, A, rotl32 B 9, C, sm3_P0 TT2, E, rotl32 F 19, G).

(** block.go:3-69 *)
Definition sm3_block (s : list N) (data : list N) : list N :=
  let W := sm3_W data in
  let r0 := (at_ s 0, at_ s 1, at_ s 2, at_ s 3, at_ s 4, at_ s 5, at_ s 6, at_ s 7) in
  let r1 := fold_left (sm3_body sm3_FF00 sm3_GG00 W) (seq 0 16) r0 in
  let '(A, B, C, D, E, F, G, H) := fold_left (sm3_body sm3_FF16 sm3_GG16 W) (seq 16 48) r1 in
  [N.lxor (at_ s 0) A; N.lxor (at_ s 1) B; N.lxor (at_ s 2) C; N.lxor (at_ s 3) D;
   N.lxor (at_ s 4) E; N.lxor (at_ s 5) F; N.lxor (at_ s 6) G; N.lxor (at_ s 7) H].

(** digest.go:17-29 *)
Definition sm3_new : dig (list N) := mkdig sm3_iv (zeros 64) 0 0.
Definition sm3_reset (d : dig (list N)) : dig (list N) := mkdig sm3_iv (zeros 64) 0 0.

(** digest.go:40-63: d.nx &= 0x3f, then the loop idiom with d.len added first. *)
Definition sm3_write (d : dig (list N)) (p : list N) : dig (list N) * nat :=
  write_pre 64 sm3_block (mkdig (ds d) (dx d) (Nat.modulo (dnx d) 64) (dlen d)) p.

(** digest.go:72-98 *)
Definition sm3_checkSum (d : dig (list N)) : list N :=
  let nx := Nat.modulo (dnx d) 64 in
  let x1 := upd (dx d) nx 0x80%N in
  let x2 := copy_at x1 (nx + 1) (zeros 64) in
  let '(s1, x3) := if 64 - nx <? 9 then (sm3_block (ds d) x2, copy_at x2 0 (zeros 64)) else (ds d, x2) in
  let bcount := N.div (dlen d) 64 in
  let x4 := copy_at x3 56 (be_bytes 4 (w32 (N.shiftr bcount 23))) in
  let x5 := copy_at x4 60 (be_bytes 4 (w32 (add64 (shl64 bcount 9) (shl64 (N.of_nat nx) 3)))) in
  concat (map (be_bytes 4) (sm3_block s1 x5)).

(** digest.go:65-70; d0 := *d copies arrays by value. *)
Definition sm3_sum (d : dig (list N)) (inp : list N) : dig (list N) * list N :=
  (d, inp ++ sm3_checkSum d).

Definition sm3_impl : impl (dig (list N)) := mkimpl sm3_write sm3_sum sm3_reset.

(** sm3.go Sum: one shot. *)
Definition sm3_Sum (data : list N) : list N :=
  snd (sm3_sum (fst (sm3_write sm3_new data)) []).

(** binary.go:8-12 "sm3\x03" *)
Definition sm3_magic : list N := [115; 109; 51; 3]%N.
Definition sm3_marshaledSize : nat := 4 + 8 * 4 + 64 + 8.

(** binary.go:14-33; the bytes skipped by re-slicing the fresh buffer are zero. *)
Definition sm3_marshal (d : dig (list N)) : list N :=
  sm3_magic ++ concat (map (be_bytes 4) (ds d)) ++
  (firstn (dnx d) (dx d) ++ zeros (64 - dnx d)) ++ be_bytes 8 (dlen d).

Inductive sm3_error := Sm3BadIdentifier | Sm3BadSize.

(** binary.go:35-64 *)
Definition sm3_unmarshal (d : dig (list N)) (b : list N) : dig (list N) + sm3_error :=
  if (length b <? 4) || negb (if list_eq_dec N.eq_dec (firstn 4 b) sm3_magic then true else false)
  then inr Sm3BadIdentifier
  else if negb (length b =? sm3_marshaledSize) then inr Sm3BadSize
  else
    let b1 := skipn 4 b in
    let s' := map (fun i => be_val (slice b1 (4 * i) (4 * i + 4))) (seq 0 8) in
    let b2 := skipn 32 b1 in
    let x' := copy_at (dx d) 0 b2 in
    let b3 := skipn (Nat.min (length (dx d)) (length b2)) b2 in
    let len := be_val (firstn 8 b3) in
    inl (mkdig s' x' (N.to_nat (len mod 64)) len).

(** utils.go:44-66 GenT; the int arithmetic is 64-bit on the values used, and
    uint32(Tj) truncates. *)
Definition sm3_GenT : list N :=
  map (fun j => let j := N.of_nat j in
        w32 (N.lor (w64 (N.shiftl 0x79CC4519 j)) (N.shiftr 0x79CC4519 (32 - j)))) (seq 0 16) ++
  map (fun j => let n := (N.of_nat j mod 32)%N in
        w32 (N.lor (w64 (N.shiftl 0x7A879D8A n)) (N.shiftr 0x7A879D8A (32 - n)))) (seq 16 48).

(** ** Proofs *)

(** The precomputed table is the rotated constant (C59). *)
Lemma sm3_tSbox_ok : forall j, j < 64 ->
  at_ sm3_tSbox j = rotl32 (gbt_T j) (N.of_nat (j mod 32)).
Proof.
  intros j Hj.
  assert (K : forallb (fun j => N.eqb (at_ sm3_tSbox j) (rotl32 (gbt_T j) (N.of_nat (j mod 32)))) (seq 0 64) = true)
    by (vm_compute; reflexivity).
  rewrite forallb_forall in K. apply N.eqb_eq, K, in_seq. lia.
Qed.
Lemma sm3_GenT_ok : sm3_GenT = sm3_tSbox.
Proof. vm_compute. reflexivity. Qed.

Lemma sm3_load_ok : forall data, length data = 64 ->
  sm3_load data = map be_val (chunks 4 data) ++ zeros 52.
Proof.
  intros data L. unfold chunks, sm3_load. rewrite L.
  change (64 / 4) with 16. unfold slice. reflexivity.
Qed.

Lemma at_app_l : forall w z i, i < length w -> at_ (w ++ z) i = at_ w i.
Proof. intros. unfold at_. now apply app_nth1. Qed.

Lemma sm3_W_ok : forall data, length data = 64 -> sm3_W data = gbt_W data.
Proof.
  intros data L. unfold sm3_W, gbt_W. rewrite sm3_load_ok by auto.
  set (w := map be_val (chunks 4 data)).
  assert (Lw : length w = 16).
  { unfold w. rewrite map_length, chunks_length, L. reflexivity. }
  pose proof (fill_vs_append
    (fun W j => N.lxor (N.lxor (sm3_P1 (N.lxor (N.lxor (at_ W (j - 16)) (at_ W (j - 9))) (rotl32 (at_ W (j - 3)) 15)))
                     (rotl32 (at_ W (j - 13)) 7)) (at_ W (j - 6)))
    gbt_next gbt_expand (fun _ => eq_refl) (fun _ _ => eq_refl) 52 w 0 (fun w => 16 <= length w)) as K.
  rewrite Lw in K. rewrite app_nil_r in K. apply K; auto.
  - intros u z Hu. cbv beta. rewrite !at_app_l by lia. reflexivity.
  - intros. rewrite app_length. simpl. lia.
  - cbv beta. lia.
Qed.

Definition sm3_R (r : sm3_regs) : gbt_regs :=
  let '(A, B, C, D, E, F, G, H) := r in R8 A B C D E F G H.

Lemma sm3_body_lo : forall W r j, j < 16 ->
  sm3_R (sm3_body sm3_FF00 sm3_GG00 W r j) = gbt_round W (sm3_R r) j.
Proof.
  intros W [[[[[[[A B] C] D] E] F] G] H] j Hj.
  unfold sm3_body, gbt_round, gbt_FF, gbt_GG. rewrite sm3_tSbox_ok by lia.
  replace (j <=? 15) with true by (symmetry; apply Nat.leb_le; lia). reflexivity.
Qed.
Lemma sm3_body_hi : forall W r j, 16 <= j < 64 ->
  sm3_R (sm3_body sm3_FF16 sm3_GG16 W r j) = gbt_round W (sm3_R r) j.
Proof.
  intros W [[[[[[[A B] C] D] E] F] G] H] j Hj.
  unfold sm3_body, gbt_round, gbt_FF, gbt_GG. rewrite sm3_tSbox_ok by lia.
  replace (j <=? 15) with false by (symmetry; apply Nat.leb_gt; lia).
  unfold sm3_R. cbn [rA rB rC rD rE rF rG rH].
  unfold sm3_GG16. rewrite ch_xor_form. reflexivity.
Qed.

Lemma length8 : forall (s : list N), length s = 8 ->
  s = [at_ s 0; at_ s 1; at_ s 2; at_ s 3; at_ s 4; at_ s 5; at_ s 6; at_ s 7].
Proof.
  intros s L. do 8 (destruct s as [|? s]; [discriminate L|]).
  destruct s; [reflexivity|discriminate L].
Qed.

Lemma sm3_block_ok : forall s data, length s = 8 -> length data = 64 ->
  sm3_block s data = gbt_CF s data.
Proof.
  intros s data Ls L. unfold sm3_block, gbt_CF. rewrite sm3_W_ok by auto.
  set (W := gbt_W data).
  set (r0 := (at_ s 0, at_ s 1, at_ s 2, at_ s 3, at_ s 4, at_ s 5, at_ s 6, at_ s 7)).
  change (R8 _ _ _ _ _ _ _ _) with (sm3_R r0).
  change (seq 0 64) with (seq 0 16 ++ seq 16 48). rewrite fold_left_app.
  rewrite <- (fold_left_map_in _ _ _ sm3_R (sm3_body sm3_FF00 sm3_GG00 W) (gbt_round W) (seq 0 16) r0)
    by (intros a b Hb; apply sm3_body_lo; apply in_seq in Hb; lia).
  rewrite <- (fold_left_map_in _ _ _ sm3_R (sm3_body sm3_FF16 sm3_GG16 W) (gbt_round W) (seq 16 48))
    by (intros a b Hb; apply sm3_body_hi; apply in_seq in Hb; lia).
  destruct (fold_left (sm3_body sm3_FF16 sm3_GG16 W) (seq 16 48) _) as [[[[[[[A B] C] D] E] F] G] H].
  unfold sm3_R. cbn [rA rB rC rD rE rF rG rH].
  rewrite (length8 s Ls) at 9. cbn [combine map].
  rewrite (N.lxor_comm (at_ s 0)), (N.lxor_comm (at_ s 1)), (N.lxor_comm (at_ s 2)), (N.lxor_comm (at_ s 3)),
    (N.lxor_comm (at_ s 4)), (N.lxor_comm (at_ s 5)), (N.lxor_comm (at_ s 6)), (N.lxor_comm (at_ s 7)).
  reflexivity.
Qed.

Lemma sm3_block_length : forall s data, length (sm3_block s data) = 8.
Proof.
  intros. unfold sm3_block.
  destruct (fold_left _ _ (fold_left _ _ _)) as [[[[[[[A B] C] D] E] F] G] H]. reflexivity.
Qed.

(** All state words stay below 2^32. *)
Lemma sm3_P0_32 : forall x, is32 x -> is32 (sm3_P0 x).
Proof. intros. unfold sm3_P0. auto using lxor_is32, rotl32_is32. Qed.
Definition sm3_ok32 (r : sm3_regs) : Prop :=
  let '(A, B, C, D, E, F, G, H) := r in
  is32 A /\ is32 B /\ is32 C /\ is32 D /\ is32 E /\ is32 F /\ is32 G /\ is32 H.
Lemma sm3_body_32 : forall FF GG W r j, sm3_ok32 r -> sm3_ok32 (sm3_body FF GG W r j).
Proof.
  intros FF GG W [[[[[[[A B] C] D] E] F] G] H] j (?&?&?&?&?&?&?&?).
  unfold sm3_body, sm3_ok32. cbv zeta.
  repeat split; auto using rotl32_is32, add32_is32, sm3_P0_32.
Qed.
Lemma sm3_fold_32 : forall FF GG W l r, sm3_ok32 r -> sm3_ok32 (fold_left (sm3_body FF GG W) l r).
Proof. induction l; intros r Hr; [exact Hr|]. apply IHl, sm3_body_32, Hr. Qed.
Lemma at_is32 : forall s i, Forall is32 s -> is32 (at_ s i).
Proof.
  intros s i H. unfold at_. destruct (Nat.lt_ge_cases i (length s)).
  - rewrite Forall_forall in H. apply H, nth_In; auto.
  - rewrite nth_overflow by auto. reflexivity.
Qed.
Lemma sm3_block_32 : forall s data, Forall is32 s -> Forall is32 (sm3_block s data).
Proof.
  intros s data H. unfold sm3_block.
  assert (K : sm3_ok32 (fold_left (sm3_body sm3_FF16 sm3_GG16 (sm3_W data)) (seq 16 48)
     (fold_left (sm3_body sm3_FF00 sm3_GG00 (sm3_W data)) (seq 0 16)
        (at_ s 0, at_ s 1, at_ s 2, at_ s 3, at_ s 4, at_ s 5, at_ s 6, at_ s 7)))).
  { apply sm3_fold_32, sm3_fold_32. unfold sm3_ok32. repeat split; apply at_is32, H. }
  destruct (fold_left _ _ (fold_left _ _ _)) as [[[[[[[A B] C] D] E] F] G] H'].
  destruct K as (?&?&?&?&?&?&?&?).
  repeat constructor; apply lxor_is32; auto; apply at_is32, H.
Qed.

Opaque sm3_block gbt_CF.

Lemma sm3_fold_ok : forall bl s, length s = 8 -> Forall (fun b : list N => length b = 64) bl ->
  fold_left sm3_block bl s = fold_left gbt_CF bl s.
Proof.
  intros bl s Ls Hf.
  apply (fold_left_agree _ _ sm3_block gbt_CF (fun s => length s = 8) (fun b => length b = 64)); auto using sm3_block_length.
  intros. now apply sm3_block_ok.
Qed.

Definition sm3_rel (d : dig (list N)) (m : list N) : Prop := dig_rel 64 sm3_block sm3_iv 1 d m.

Lemma sm3_new_rel : sm3_rel sm3_new [].
Proof. apply dig_rel_new; [lia|reflexivity]. Qed.

Lemma sm3_nx : forall d m, sm3_rel d m -> Nat.modulo (dnx d) 64 = dnx d.
Proof.
  intros d m H. apply Nat.mod_small.
  exact (dig_nx_lt 64 sm3_block ltac:(lia) _ _ _ _ H).
Qed.

Lemma dig_eta : forall St (d : dig St), mkdig (ds d) (dx d) (dnx d) (dlen d) = d.
Proof. intros St []. reflexivity. Qed.

Lemma sm3_write_eq : forall d m p, sm3_rel d m -> sm3_write d p = write_pre 64 sm3_block d p.
Proof. intros d m p H. unfold sm3_write. rewrite (sm3_nx d m H), dig_eta. reflexivity. Qed.

Lemma sm3_write_rel : forall d m p, sm3_rel d m -> sm3_rel (fst (sm3_write d p)) (m ++ p).
Proof.
  intros d m p H. rewrite (sm3_write_eq d m p H). apply write_pre_rel; [lia|exact H].
Qed.

(** The 8 bytes written at 56.. are the bit length. *)
Lemma sm3_count : forall d m, sm3_rel d m ->
  be_bytes 4 (w32 (N.shiftr (N.div (dlen d) 64) 23)) ++
  be_bytes 4 (w32 (add64 (shl64 (N.div (dlen d) 64) 9) (shl64 (N.of_nat (dnx d)) 3)))
  = be_bytes 8 (8 * N.of_nat (length m)).
Proof.
  intros d m H.
  assert (Enx : N.of_nat (dnx d) = (dlen d mod 64)%N).
  { rewrite (dig_nx 64 sm3_block ltac:(lia) _ _ _ _ H). destruct H as (_ & _ & ->).
    rewrite N.mul_1_l, Nat2N.inj_mod. change (N.of_nat 64) with 64%N.
    symmetry. apply w64_mod_small; [lia|reflexivity]. }
  rewrite Enx.
  assert (E1 : N.shiftr (dlen d / 64) 23 = N.shiftr (8 * dlen d) 32).
  { rewrite !N.shiftr_div_pow2, N.div_div by lia.
    change (64 * 2 ^ 23)%N with 536870912%N. change (2 ^ 32)%N with (8 * 536870912)%N.
    rewrite N.div_mul_cancel_l by lia. reflexivity. }
  assert (E2 : add64 (shl64 (dlen d / 64) 9) (shl64 (dlen d mod 64) 3) = w64 (8 * dlen d)).
  { unfold add64, shl64. rewrite w64_add_l, w64_add_r. f_equal.
    rewrite !N.shiftl_mul_pow2. change (2 ^ 9)%N with 512%N. change (2 ^ 3)%N with 8%N.
    pose proof (N.div_mod (dlen d) 64 ltac:(lia)). lia. }
  rewrite E1, E2, !be_bytes4_w32.
  assert (E3 : be_bytes 4 (w64 (8 * dlen d)) = be_bytes 4 (8 * dlen d)).
  { rewrite <- be_bytes4_w32, <- (be_bytes4_w32 (8 * dlen d)). f_equal.
    rewrite !w32_mod. apply w64_mod_small; [lia|reflexivity]. }
  rewrite E3. rewrite <- (be_bytes_app 4 4). 
  destruct H as (_ & _ & ->). rewrite N.mul_1_l.
  rewrite <- be_bytes8_w64, w64_mul_r, be_bytes8_w64. reflexivity.
Qed.

Lemma sm3_checkSum_ok : forall d m, sm3_rel d m -> sm3_checkSum d = sm3_spec m.
Proof.
  intros d m H. unfold sm3_checkSum, sm3_spec, gbt_pad.
  rewrite (sm3_nx d m H).
  set (LB := be_bytes 8 (8 * N.of_nat (length m))).
  assert (LL : length LB = 8) by apply be_bytes_length.
  rewrite <- sm3_fold_ok; [|reflexivity|apply chunks_all_length; lia].
  change (map (be_bytes 4) (fold_left sm3_block (chunks 64 (md_pad 64 128 LB m)) gbt_iv))
    with (map (be_bytes 4) (fold_left sm3_block (chunks 64 (md_pad 64 128 LB m)) sm3_iv)).
  rewrite <- (dig_finish 64 sm3_block ltac:(lia) sm3_iv 1 d m 128 LB) by (rewrite ?LL; auto; lia).
  pose proof (dig_nx_lt 64 sm3_block ltac:(lia) _ _ _ _ H) as Hnx.
  assert (Lx : length (dx d) = 64) by (destruct H as (_ & (? & _) & _); auto).
  unfold finish_blocks. rewrite LL.
  set (x2 := copy_at (upd (dx d) (dnx d) 128%N) (dnx d + 1) (zeros 64)).
  assert (L2 : length x2 = 64) by (unfold x2; rewrite copy_at_length; rewrite upd_length; lia).
  assert (C2 : forall x, length x = 64 ->
    copy_at (copy_at x 56 (be_bytes 4 (w32 (N.shiftr (N.div (dlen d) 64) 23)))) 60
            (be_bytes 4 (w32 (add64 (shl64 (N.div (dlen d) 64) 9) (shl64 (N.of_nat (dnx d)) 3))))
    = copy_at x (64 - 8) LB).
  { intros x L. unfold LB. rewrite <- (sm3_count d m H). 
    set (a := be_bytes 4 _). set (b := be_bytes 4 _).
    assert (La : length a = 4) by apply be_bytes_length.
    assert (Lb : length b = 4) by apply be_bytes_length.
    rewrite (copy_at_full _ (copy_at x 56 a)) by (rewrite ?copy_at_length; lia).
    rewrite (copy_at_full _ x (64 - 8) (a ++ b)) by (rewrite ?app_length; lia).
    rewrite copy_at_length by lia. rewrite L. change (64 - (64 - 8)) with 8. change (64 - 60) with 4.
    rewrite (firstn_all2 b) by lia. rewrite (firstn_all2 (a ++ b)) by (rewrite app_length; lia).
    pose proof (copy_at_firstn _ x 56 a ltac:(lia) ltac:(lia)) as K. rewrite La in K.
    change (56 + 4) with 60 in K. rewrite K.
    now rewrite <- app_assoc. }
  clearbody x2 LB. clear H.
  destruct (Nat.ltb_spec (64 - dnx d) 9) as [Ha|Ha].
  all: destruct (Nat.ltb_spec (64 - 8) (dnx d + 1)) as [Hb|Hb].
  all: try lia.
  all: cbv iota beta.
  all: cbn [fold_left].
  - rewrite C2 by (rewrite copy_at_length; lia).
    rewrite (copy_at_full _ x2 0) by (rewrite ?zeros_length; lia).
    rewrite L2. reflexivity.
  - rewrite C2 by exact L2. reflexivity.
Qed.

Lemma sm3_history_lemma : forall ops d m, sm3_rel d m ->
  run sm3_impl d ops = ideal_run sm3_spec m ops.
Proof.
  apply run_refines; intros; unfold sm3_impl; cbn [i_write i_sum i_reset].
  - now apply sm3_write_rel.
  - rewrite (sm3_write_eq d m p) by auto. apply write_pre_count.
  - exact H.
  - unfold sm3_sum. cbn [snd]. now rewrite (sm3_checkSum_ok d m).
  - apply dig_rel_new. lia. reflexivity.
Qed.

Lemma sm3_state_ok : forall d m, sm3_rel d m -> length (ds d) = 8 /\ Forall is32 (ds d).
Proof.
  intros d m (-> & _).
  apply (fold_left_agree _ _ sm3_block sm3_block (fun s => length s = 8 /\ Forall is32 s) (fun _ => True)).
  - reflexivity.
  - intros a b (La & Ha) _. split; [apply sm3_block_length|apply sm3_block_32, Ha].
  - split; [reflexivity|]. repeat constructor.
  - apply Forall_forall. intros; exact I.
Qed.

Lemma sm3_Sum_ok : forall m, sm3_Sum m = sm3_spec m.
Proof.
  intros m. unfold sm3_Sum, sm3_sum. cbn [snd]. rewrite app_nil_l.
  apply (sm3_checkSum_ok _ ([] ++ m)). apply sm3_write_rel, sm3_new_rel.
Qed.

Lemma sm3_unmarshal_marshal_lemma : forall d m r, sm3_rel d m -> length (dx r) = 64 ->
  exists d', sm3_unmarshal r (sm3_marshal d) = inl d' /\ sm3_rel d' m.
Proof.
  intros d m r H Lr.
  destruct (sm3_state_ok d m H) as (Ls & Fs).
  destruct H as (Hs & Hb & Hl).
  pose proof (buf_ok_nx_lt _ _ _ _ _ (Nat.lt_0_succ 63) Hb) as Hnx.
  destruct Hb as (Lx & En & Ex).
  unfold sm3_unmarshal, sm3_marshal.
  set (S := concat (map (be_bytes 4) (ds d))).
  assert (LS : length S = 32) by (unfold S; rewrite concat_be_length, Ls; reflexivity).
  set (X := firstn (dnx d) (dx d) ++ zeros (64 - dnx d)).
  assert (LX : length X = 64) by (unfold X; rewrite app_length, firstn_length, zeros_length; lia).
  set (L := be_bytes 8 (dlen d)).
  assert (LL : length L = 8) by apply be_bytes_length.
  rewrite !app_length, LS, LX, LL. change (length sm3_magic) with 4.
  rewrite (firstn_app_len _ 4 sm3_magic) by reflexivity.
  destruct (list_eq_dec N.eq_dec sm3_magic sm3_magic) as [_|C]; [|exfalso; apply C; reflexivity].
  cbn [Nat.ltb Nat.leb Nat.add orb negb Nat.eqb Nat.mul sm3_marshaledSize].
  rewrite (skipn_app_len _ 4) by reflexivity. rewrite (skipn_app_len _ 32) by auto.
  rewrite Lr, app_length, LX, LL. change (Nat.min 64 (64 + 8)) with 64.
  rewrite (skipn_app_len _ 64) by auto. rewrite copy_at_0_app by lia.
  rewrite (firstn_all2 L) by lia.
  assert (EL : be_val L = dlen d).
  { unfold L. rewrite be_val_be_bytes. apply N.mod_small. rewrite Hl. apply w64_lt. }
  assert (ES : map (fun i => be_val (slice (S ++ X ++ L) (4 * i) (4 * i + 4))) (seq 0 8) = ds d).
  { unfold S. rewrite <- Ls. apply be_words_decode; [lia|exact Fs]. }
  eexists. split; [reflexivity|].
  split; [|split]; cbn [ds dx dnx dlen].
  - rewrite <- Hs. exact ES.
  - rewrite EL. split; [exact LX|].
    assert (En' : N.to_nat (dlen d mod 64) = dnx d).
    { rewrite Hl, N.mul_1_l, w64_mod_small by (lia || reflexivity).
      change 64%N with (N.of_nat 64). rewrite <- Nat2N.inj_mod, Nat2N.id.
      rewrite En. symmetry. apply rest_length. lia. }
    rewrite En'. split; [exact En|]. rewrite <- Ex. unfold X.
    apply firstn_app_len. rewrite firstn_length. lia.
  - rewrite EL. exact Hl.
Qed.

Lemma sm3_exec_rel : forall ops, sm3_rel (exec sm3_impl sm3_new ops) (history [] ops).
Proof.
  intros ops. apply (exec_refines _ sm3_impl sm3_rel); intros.
  - now apply sm3_write_rel.
  - exact H.
  - apply sm3_new_rel.
  - apply sm3_new_rel.
Qed.
Lemma sm3_roundtrip_lemma : forall before receiver_history,
  exists d', sm3_unmarshal (exec sm3_impl sm3_new receiver_history)
                           (sm3_marshal (exec sm3_impl sm3_new before)) = inl d' /\
  forall after, run sm3_impl d' after = run sm3_impl (exec sm3_impl sm3_new before) after /\
                run sm3_impl d' after = ideal_run sm3_spec (history [] before) after.
Proof.
  intros before rh.
  assert (L1 : length (dx (exec sm3_impl sm3_new rh)) = 64).
  { destruct (sm3_exec_rel rh) as (_ & (L & _) & _). exact L. }
  destruct (sm3_unmarshal_marshal_lemma _ _ _ (sm3_exec_rel before) L1) as (d' & E & R).
  exists d'. split; [exact E|]. intros after.
  rewrite (sm3_history_lemma after _ _ R), (sm3_history_lemma after _ _ (sm3_exec_rel before)). auto.
Qed.

Lemma sm3_unmarshal_rejects_lemma : forall r b,
  (exists d', sm3_unmarshal r b = inl d') <->
  (firstn 4 b = sm3_magic /\ length b = 108).
Proof.
  intros r b. unfold sm3_unmarshal. split.
  - intros (d' & E).
    destruct (length b <? 4) eqn:E1; cbn [orb] in E; [discriminate E|].
    destruct (list_eq_dec N.eq_dec (firstn 4 b) sm3_magic); cbn [orb negb] in E; [|discriminate E].
    destruct (length b =? sm3_marshaledSize) eqn:E2; cbn [orb negb] in E; [|discriminate E].
    apply Nat.eqb_eq in E2. auto.
  - intros (E & L). rewrite L, E.
    destruct (list_eq_dec N.eq_dec sm3_magic sm3_magic) as [_|C]; [|exfalso; apply C; reflexivity].
    cbn [Nat.ltb Nat.leb orb negb]. change (108 =? sm3_marshaledSize) with true.
    cbn [negb]. eexists. reflexivity.
Qed.

Transparent sm3_block gbt_CF.
From Coq Require Import String.
Example sm3_vec_abc : sm3_Sum (bytes_of_string "abc")
  = hex "66c7f0f462eeedd9d1f2d46bdc10e4e24167c4875cf2f7a2297da02b8f4ba8e0".
Proof. vm_compute. reflexivity. Qed.
Example sm3_vec_62 :
  sm3_Sum (bytes_of_string "ABCDEFGHIJKLMNOPQRSTUVWXYZabcdefghijklmnopqrstuvwxyz0123456789")
  = hex "2971d10c8842b70c979e55063480c50bacffd90e98e2e60d2512ab8abfdfcec5".
Proof. vm_compute. reflexivity. Qed.
