(** Hmac.v -- hash/hmac.go:94-111 (Hmac, NewHmac) over the constructors of the library.  They call
    hmac.New of Go's crypto/hmac (hmac.go of the standard library, go 1.20), which is modelled here with
    its use of MarshalBinary / UnmarshalBinary, on any constructor of this library. *)
From Coq Require Import List NArith Arith Lia Bool.
From Verif Require Import Base HashAPI Fluent.
Import ListNotations.

(** A constructor as crypto/hmac sees it: the hash.Hash, BlockSize(), and -- when the type has them --
    MarshalBinary and UnmarshalBinary (None: error). *)
Record ctor : Type := mkctor {
  c_alg : alg;
  c_bs : nat;
  c_mar : option ((a_state c_alg -> list N) * (a_state c_alg -> list N -> option (a_state c_alg))) }.

Section Hmac.
Variable c : ctor.
Let S := a_state (c_alg c).
Let I := a_impl (c_alg c).
(** type hmac struct { opad, ipad []byte; outer, inner hash.Hash; marshaled bool } *)
Record hm := mkhm { hm_in : S; hm_out : S; hm_ipad : list N; hm_opad : list N; hm_mar : bool }.
(** crypto/hmac New *)
Definition hm_new (key : list N) : hm :=
  let bs := c_bs c in
  let '(outer, key) := if bs <? length key
    then i_sum I (fst (i_write I (a_new (c_alg c)) key)) []     (* hm.outer.Write(key); key = hm.outer.Sum(nil) *)
    else (a_new (c_alg c), key) in
  let pad := copy_at (zeros bs) 0 key in                        (* copy(hm.ipad, key); copy(hm.opad, key) *)
  let ipad := map (fun b => N.lxor b 0x36) pad in
  let opad := map (fun b => N.lxor b 0x5c) pad in
  mkhm (fst (i_write I (a_new (c_alg c)) ipad)) outer ipad opad false.
(** (h *hmac) Write; the state None is "the program has panicked" *)
Definition hm_write (h : option hm) (p : list N) : option hm * nat :=
  (option_map (fun h => mkhm (fst (i_write I (hm_in h) p)) (hm_out h) (hm_ipad h) (hm_opad h) (hm_mar h)) h, length p).
(** h.outer before the inner digest is written: UnmarshalBinary(h.opad), or Reset and Write(h.opad) *)
Definition hm_outer (h : hm) : option S :=
  if hm_mar h then match c_mar c with Some (_, u) => u (hm_out h) (hm_opad h) | None => None end
  else Some (fst (i_write I (i_reset I (hm_out h)) (hm_opad h))).
(** (h *hmac) Sum *)
Definition hm_sum (h : option hm) (inp : list N) : option hm * list N :=
  match h with
  | None => (None, [])
  | Some h =>
    let '(inner, x) := i_sum I (hm_in h) inp in
    match hm_outer h with
    | None => (None, [])
    | Some outer =>
      let outer := fst (i_write I outer (skipn (length inp) x)) in
      let '(outer, out) := i_sum I outer (firstn (length inp) x) in
      (Some (mkhm inner outer (hm_ipad h) (hm_opad h) (hm_mar h)), out)
    end
  end.
(** (h *hmac) Reset *)
Definition hm_reset (h : option hm) : option hm :=
  match h with
  | None => None
  | Some h =>
    if hm_mar h then
      match c_mar c with
      | Some (_, u) => match u (hm_in h) (hm_ipad h) with
                       | Some inner => Some (mkhm inner (hm_out h) (hm_ipad h) (hm_opad h) true)
                       | None => None
                       end
      | None => None
      end
    else
      let inner := fst (i_write I (i_reset I (hm_in h)) (hm_ipad h)) in
      match c_mar c with
      | None => Some (mkhm inner (hm_out h) (hm_ipad h) (hm_opad h) false)
      | Some (m, _) =>
        let outer := fst (i_write I (i_reset I (hm_out h)) (hm_opad h)) in
        Some (mkhm inner outer (m inner) (m outer) true)
      end
  end.
Definition hm_impl : impl (option hm) := mkimpl hm_write hm_sum hm_reset.
End Hmac.

(** hash/hmac.go:94-111: hmac.New(h, secret) as a constructor; its type has no MarshalBinary, its BlockSize
    is that of the inner hash. *)
Definition hmac_of (c : ctor) (key : list N) : ctor :=
  mkctor (mkalg (option (hm c)) (hm_impl c) (Some (hm_new c key))) (c_bs c) None.

(** ** Specification: RFC 2104, H with block length B.  "K is first hashed if it is longer than B bytes;
    append zeros to the end of K to create a B byte string".  (When the digest is longer than B, which
    RFC 2104 excludes, its first B bytes are kept.) *)
Definition rfc2104_key (H : list N -> list N) (B : nat) (K : list N) : list N :=
  let K := if B <? length K then H K else K in firstn B (K ++ zeros B).
Definition rfc2104 (H : list N -> list N) (B : nat) (K text : list N) : list N :=
  let K0 := rfc2104_key H B K in
  H (map (fun b => N.lxor b 0x5c) K0 ++ H (map (fun b => N.lxor b 0x36) K0 ++ text)).

(** What is needed of a constructor: a relation between states and messages that New, Write, Sum and Reset
    respect, and that UnmarshalBinary of MarshalBinary restores into any live object. *)
Definition sound (c : ctor) (H : list N -> list N) : Prop :=
  exists R : a_state (c_alg c) -> list N -> Prop,
    R (a_new (c_alg c)) [] /\
    (forall s m p, R s m -> R (fst (i_write (a_impl (c_alg c)) s p)) (m ++ p) /\ snd (i_write (a_impl (c_alg c)) s p) = length p) /\
    (forall s m i, R s m -> R (fst (i_sum (a_impl (c_alg c)) s i)) m /\ snd (i_sum (a_impl (c_alg c)) s i) = i ++ H m) /\
    (forall s m, R s m -> R (i_reset (a_impl (c_alg c)) s) []) /\
    match c_mar c with
    | None => True
    | Some (ma, un) => forall s m r m', R s m -> R r m' -> exists d, un r (ma s) = Some d /\ R d m
    end.

(** * Proofs *)
Lemma sound_meets : forall c H, sound c H -> meets (c_alg c) H.
Proof.
  intros c H (R & R0 & RW & RS & RR & _) ops. revert R0. generalize (a_new (c_alg c)) as s. generalize (@nil N) as m.
  induction ops as [|[p|i|] ops IH]; intros m s R1; cbn [run ideal_run]; [reflexivity| | |].
  - destruct (RW s m p R1) as [A B]. destruct (i_write _ s p) as [s' n]. cbn [fst snd] in A, B. subst n. f_equal. now apply IH.
  - destruct (RS s m i R1) as [A B]. destruct (i_sum _ s i) as [s' o]. cbn [fst snd] in A, B. subst o. f_equal. now apply IH.
  - apply IH. exact (RR s m R1).
Qed.
(** A type without MarshalBinary needs the contract only. *)
Lemma meets_sound : forall a B H, meets a H -> sound (mkctor a B None) H.
Proof.
  intros a B H HM. exists (fun s m => obj_rel H (mkobj a s) m). cbn [c_alg c_mar].
  split; [exact HM|]. split; [|split; [|split; [|exact I]]].
  - intros s m p R. split; [exact (o_write_rel H (mkobj a s) m p R)|]. specialize (R [Write p]). cbn [run ideal_run o_alg o_st] in R.
    destruct (i_write _ s p) as [s' n]. injection R. auto.
  - intros s m i R. destruct (o_sum_rel H (mkobj a s) m i R) as [A B0]. unfold o_sum in A, B0. cbn [o_alg o_st] in A, B0.
    destruct (i_sum (a_impl a) s i) as [s' o]. split; [exact A|exact B0].
  - intros s m R. exact (o_reset_rel H (mkobj a s) m R).
Qed.
Lemma skipn_rep : forall A (x : A) n k, skipn n (repeat x k) = repeat x (k - n).
Proof. induction n as [|n IH]; intros k; [cbn [skipn]; now rewrite Nat.sub_0_r|]. destruct k; [reflexivity|]. cbn [repeat skipn]. apply IH. Qed.
Lemma firstn_rep : forall A (x : A) n k, firstn n (repeat x k) = repeat x (Nat.min n k).
Proof. induction n as [|n IH]; intros k; [reflexivity|]. destruct k; [reflexivity|]. cbn [repeat firstn Nat.min]. f_equal. apply IH. Qed.
Lemma pad_key : forall (H : list N -> list N) B K,
  copy_at (zeros B) 0 (if B <? length K then H K else K) = rfc2104_key H B K.
Proof.
  intros H B K. unfold rfc2104_key. set (k := if B <? length K then H K else K). clearbody k.
  unfold copy_at. cbn [firstn app Nat.add Nat.sub]. rewrite Nat.sub_0_r, zeros_length.
  destruct (Nat.le_gt_cases B (length k)) as [L|G].
  - rewrite (firstn_app B k (zeros B)). replace (B - length k) with 0 by lia. cbn [firstn]. rewrite app_nil_r.
    rewrite skipn_all2; [apply app_nil_r|]. rewrite zeros_length. lia.
  - rewrite firstn_all2 by lia. rewrite firstn_app, (firstn_all2 (n := B) k) by lia. f_equal. unfold zeros.
    rewrite skipn_rep, firstn_rep. f_equal. lia.
Qed.
Lemma hmac_sound : forall c H key, sound c H -> sound (hmac_of c key) (rfc2104 H (c_bs c) key).
Proof.
  intros c H key (R & R0 & RW & RS & RR & RM).
  set (K0 := rfc2104_key H (c_bs c) key). set (ip := map (fun b => N.lxor b 0x36) K0). set (op := map (fun b => N.lxor b 0x5c) K0).
  exists (fun h m => exists s, h = Some s /\ R (hm_in c s) (ip ++ m) /\ (exists m', R (hm_out c s) m') /\
     (if hm_mar c s then match c_mar c with
                         | Some (ma, _) => exists a b, R a ip /\ R b op /\ hm_ipad c s = ma a /\ hm_opad c s = ma b
                         | None => False end
      else hm_ipad c s = ip /\ hm_opad c s = op)).
  unfold hmac_of. cbn [c_alg a_new a_impl hm_impl i_write i_sum i_reset c_mar].
  split; [|split; [|split; [|split; [|exact I]]]].
  - eexists. split; [reflexivity|]. unfold hm_new. pose proof (pad_key H (c_bs c) key) as PK. fold K0 in PK.
    destruct (Nat.ltb_spec (c_bs c) (length key)) as [L|G].
    + destruct (RW _ _ key R0) as [A _]. destruct (RS _ _ [] A) as [B C]. cbn [app] in B, C.
      destruct (i_sum (a_impl (c_alg c)) _ []) as [o k]. cbn [fst snd] in B, C. subst k.
      cbn [hm_in hm_out hm_ipad hm_opad hm_mar]. rewrite PK. fold ip. fold op. rewrite app_nil_r.
      split; [exact (proj1 (RW _ _ ip R0))|]. split; [exists key; exact B|]. split; reflexivity.
    + cbn [hm_in hm_out hm_ipad hm_opad hm_mar]. rewrite PK. fold ip. fold op. rewrite app_nil_r.
      split; [exact (proj1 (RW _ _ ip R0))|]. split; [exists []; exact R0|]. split; reflexivity.
  - intros h m p (s & -> & A & B & C). split; [|reflexivity]. eexists. split; [reflexivity|].
    cbn [hm_in hm_out hm_ipad hm_opad hm_mar]. split; [|split; [exact B|exact C]]. rewrite app_assoc. exact (proj1 (RW _ _ p A)).
  - intros h m i (s & -> & A & [m' B] & C). unfold hm_sum.
    assert (O : exists o, hm_outer c s = Some o /\ R o op).
    { unfold hm_outer. destruct (hm_mar c s).
      - destruct (c_mar c) as [[ma un]|]; [|contradiction]. destruct C as (a & b & _ & Rb & _ & ->).
        exact (RM b op (hm_out c s) m' Rb B).
      - destruct C as [_ ->]. eexists. split; [reflexivity|]. exact (proj1 (RW _ _ op (RR _ _ B))). }
    destruct O as (o & -> & Ro). destruct (RS _ _ i A) as [A1 A2]. destruct (i_sum (a_impl (c_alg c)) (hm_in c s) i) as [inn x].
    cbn [fst snd] in A1, A2. subst x. rewrite skipn_app, skipn_all, Nat.sub_diag. cbn [skipn app].
    rewrite firstn_app, firstn_all, Nat.sub_diag. cbn [firstn]. rewrite app_nil_r.
    pose proof (proj1 (RW _ _ (H (ip ++ m)) Ro)) as R1. destruct (RS _ _ i R1) as [B1 B2].
    destruct (i_sum (a_impl (c_alg c)) _ i) as [o2 out]. cbn [fst snd] in *. split; [|exact B2].
    eexists. split; [reflexivity|]. cbn [hm_in hm_out hm_ipad hm_opad hm_mar]. split; [exact A1|]. split; [eexists; exact B1|exact C].
  - intros h m (s & -> & A & [m' B] & C). unfold hm_reset. destruct (hm_mar c s) eqn:EM.
    + destruct (c_mar c) as [[ma un]|]; [|contradiction]. pose proof C as C0. destruct C as (a & b & Ra & Rb & Ea & Eb).
      rewrite Ea. destruct (RM a ip _ _ Ra A) as (d & -> & Rd). eexists. split; [reflexivity|].
      cbn [hm_in hm_out hm_ipad hm_opad hm_mar]. rewrite app_nil_r. split; [exact Rd|]. split; [eexists; exact B|].
      exists a, b. repeat split; auto.
    + destruct C as [-> ->]. pose proof (proj1 (RW _ _ ip (RR _ _ A))) as R1. pose proof (proj1 (RW _ _ op (RR _ _ B))) as R2.
      cbn [app] in R1, R2. destruct (c_mar c) as [[ma un]|]; (eexists; split; [reflexivity|]); cbn [hm_in hm_out hm_ipad hm_opad hm_mar]; rewrite app_nil_r.
      * split; [exact R1|]. split; [eexists; exact R2|]. do 2 eexists. split; [exact R1|]. split; [exact R2|]. split; reflexivity.
      * split; [exact R1|]. split; [eexists; exact B|]. split; reflexivity.
Qed.
