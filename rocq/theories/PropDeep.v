(** PropDeep.v -- tool/deepcopy. *)
From Coq Require Import List NArith Arith Bool Lia.
From Verif Require Import DeepCopy SpecDeep.
Import ListNotations.

Scheme den_mut := Induction for den Sort Prop with dens_mut := Induction for dens Sort Prop.
Combined Scheme den_dens_ind from den_mut, dens_mut.

Section val_ind.
Variable P : val -> Prop.
Hypothesis Psc : forall k n, P (VScalar k n).
Hypothesis Pnan : forall k, P (VNaN k).
Hypothesis Pt : forall t, P (VTime t).
Hypothesis Pnp : P VNilPtr.
Hypothesis Pp : forall l, P (VPtr l).
Hypothesis Pni : P VNilIface.
Hypothesis Pi : forall ty v, P v -> P (VIface ty v).
Hypothesis Ps : forall es us, Forall P es -> Forall P us -> P (VStruct es us).
Hypothesis Pns : P VNilSlice.
Hypothesis Psl : forall l o n c, P (VSlice l o n c).
Hypothesis Pnm : P VNilMap.
Hypothesis Pm : forall l, P (VMap l).
Hypothesis Pa : forall vs, Forall P vs -> P (VArray vs).
Fixpoint val_ind' (v : val) : P v :=
  let all := fix all (vs : list val) : Forall P vs :=
    match vs with [] => Forall_nil P | v :: vs => @Forall_cons _ P v vs (val_ind' v) (all vs) end in
  match v with
  | VScalar k n => Psc k n | VNaN k => Pnan k | VTime t => Pt t | VNilPtr => Pnp | VPtr l => Pp l
  | VNilIface => Pni | VIface ty v => Pi ty v (val_ind' v) | VStruct es us => Ps es us (all es) (all us)
  | VNilSlice => Pns | VSlice l o n c => Psl l o n c | VNilMap => Pnm | VMap l => Pm l | VArray vs => Pa vs (all vs)
  end.
End val_ind.

Definition geqs := fix geqs (xs ys : list val) : bool :=
    match xs, ys with
    | [], [] => true
    | x :: xs, y :: ys => geq x y && geqs xs ys
    | _, _ => false
    end.
Lemma geqs_refl : forall vs, Forall (fun k => plain k = true -> geq k k = true) vs -> forallb plain vs = true -> geqs vs vs = true.
Proof.
  intros vs F. induction F as [|v vs Hv F IH]; intro A; [reflexivity|].
  cbn in A. apply andb_true_iff in A as [A1 A2]. cbn. rewrite (Hv A1), (IH A2). reflexivity.
Qed.
Lemma plain_geq : forall k, plain k = true -> geq k k = true.
Proof.
  induction k using val_ind'; intro A; try discriminate A; try reflexivity; cbn.
  - rewrite Nat.eqb_refl, N.eqb_refl. reflexivity.
  - apply N.eqb_refl.
  - rewrite Nat.eqb_refl. apply IHk, A.
  - cbn in A. apply andb_true_iff in A as [A1 A2]. destruct us; [|discriminate A2].
    fold geqs. rewrite (geqs_refl es H A1). reflexivity.
  - fold geqs. apply geqs_refl; [exact H|exact A].
Qed.
(** a plain key is its own copy *)
Lemma cp_plain_list : forall vs, Forall (fun k => plain k = true -> exists n0, forall n H, n0 <= n -> cp n H k = Ok (H, k)) vs -> forallb plain vs = true ->
  exists n0, forall n H, n0 <= n -> cp_list (cp n) H vs = Ok (H, vs).
Proof.
  intros vs F. induction F as [|v vs Hv F IH]; intro A.
  - exists 0. reflexivity.
  - cbn in A. apply andb_true_iff in A as [A1 A2]. destruct (Hv A1) as [n1 E1]. destruct (IH A2) as [n2 E2].
    exists (max n1 n2). intros n H L. cbn. rewrite E1 by lia. cbn. rewrite E2 by lia. reflexivity.
Qed.
Lemma cp_plain : forall k, plain k = true -> exists n0, forall n H, n0 <= n -> cp n H k = Ok (H, k).
Proof.
  induction k using val_ind'; intro A; try discriminate A; try (exists 1; intros n' H' L; destruct n'; [lia|]; reflexivity).
  - destruct (IHk A) as [n0 E]. exists (S n0). intros n H L. destruct n; [lia|]. cbn. rewrite E by lia. reflexivity.
  - cbn in A. apply andb_true_iff in A as [A1 A2]. destruct us; [|discriminate A2].
    destruct (cp_plain_list es H A1) as [n0 E]. exists (S n0). intros n H' L. destruct n; [lia|]. cbn. rewrite E by lia. reflexivity.
Qed.
Lemma cp_key_ok : forall k, key_ok k = true -> exists n0, forall n H, n0 <= n -> cp_key (cp n) H k = Ok (H, k).
Proof.
  intros k A. apply andb_true_iff in A as [A B]. destruct (cp_plain k A) as [n0 E].
  destruct k; try discriminate B; try (exists n0; intros n' H' L; cbn; apply E; exact L).
  destruct (cp_plain k A) as [n1 E1]. exists n1. intros n H L. cbn. rewrite E1 by exact L. reflexivity.
Qed.

(** ** memory that only grows *)
Lemma nth_app1 : forall {A} (l m : list A) i x, nth_error l i = Some x -> nth_error (l ++ m) i = Some x.
Proof. intros A l m i x E. rewrite nth_error_app1; [exact E|]. apply nth_error_Some. rewrite E. discriminate. Qed.
Lemma den_agree : forall H H2, (forall v t, den H v t -> (forall l c, nth_error H l = Some c -> nth_error H2 l = Some c) -> den H2 v t)
  /\ (forall vs ts, dens H vs ts -> (forall l c, nth_error H l = Some c -> nth_error H2 l = Some c) -> dens H2 vs ts).
Proof. intros H H2. apply den_dens_ind; intros; try (constructor; auto; fail); econstructor; eauto. Qed.
Lemma den_app : forall H X v t, den H v t -> den (H ++ X) v t.
Proof. intros. eapply (proj1 (den_agree H (H ++ X))); [eassumption|]. intros. apply nth_app1. assumption. Qed.
Lemma dens_app : forall H X v t, dens H v t -> dens (H ++ X) v t.
Proof. intros. eapply (proj2 (den_agree H (H ++ X))); [eassumption|]. intros. apply nth_app1. assumption. Qed.
Lemma dens_len : forall H vs ts, dens H vs ts -> length vs = length ts.
Proof. induction 1; cbn; congruence. Qed.
Lemma den_zero : forall H, (forall v t, den H v t -> den H (zero v) (tzero t)) /\ (forall vs ts, dens H vs ts -> dens H (map zero vs) (map tzero ts)).
Proof. intros H. apply den_dens_ind; intros; cbn; constructor; auto. Qed.

(** ** isolation: every reference is at least b, to memory that is there *)
Inductive iso (b : nat) (H : heap) : val -> Prop :=
| i_sc k n : iso b H (VScalar k n)
| i_nan k : iso b H (VNaN k)
| i_time t : iso b H (VTime t)
| i_np : iso b H VNilPtr
| i_p l w : b <= l -> nth_error H l = Some (CVal w) -> iso b H w -> iso b H (VPtr l)
| i_ni : iso b H VNilIface
| i_i ty w : iso b H w -> iso b H (VIface ty w)
| i_st es us : isos b H es -> isos b H us -> iso b H (VStruct es us)
| i_ns : iso b H VNilSlice
| i_sl l off len cap ws : b <= l -> nth_error H l = Some (CArr ws) -> isos b H ws -> iso b H (VSlice l off len cap)
| i_nm : iso b H VNilMap
| i_m l es : b <= l -> nth_error H l = Some (CMap es) -> isos b H (map fst es) -> isos b H (map snd es) -> iso b H (VMap l)
| i_a vs : isos b H vs -> iso b H (VArray vs)
with isos (b : nat) (H : heap) : list val -> Prop :=
| is_nil : isos b H []
| is_cons v vs : iso b H v -> isos b H vs -> isos b H (v :: vs).
Scheme iso_mut := Induction for iso Sort Prop with isos_mut := Induction for isos Sort Prop.
Combined Scheme iso_isos_ind from iso_mut, isos_mut.
Lemma iso_app : forall b H X, (forall v, iso b H v -> iso b (H ++ X) v) /\ (forall vs, isos b H vs -> isos b (H ++ X) vs).
Proof. intros b H X. apply iso_isos_ind; intros; econstructor; eauto using @nth_app1. Qed.
Lemma iso_mono : forall b b' H, b' <= b -> (forall v, iso b H v -> iso b' H v) /\ (forall vs, isos b H vs -> isos b' H vs).
Proof. intros b b' H L. apply iso_isos_ind; intros; econstructor; eauto; lia. Qed.
Lemma isos_cat : forall b H xs ys, isos b H xs -> isos b H ys -> isos b H (xs ++ ys).
Proof. induction 1; cbn; [auto|]. intros. constructor; auto. Qed.
Lemma isos_In : forall b H vs w, isos b H vs -> In w vs -> iso b H w.
Proof. intros b H vs w S. induction S as [|v vs Hv S IH]; intro I; [destruct I|]. destruct I as [I|I]; subst; auto. Qed.
Lemma isos_of : forall b H vs, Forall (iso b H) vs -> isos b H vs.
Proof. induction 1; constructor; auto. Qed.
Lemma iso_zero : forall b H v, iso b H (zero v).
Proof.
  intros b H. induction v using val_ind'; cbn; try (constructor; fail).
  - constructor; apply isos_of, Forall_map; assumption.
  - constructor; apply isos_of, Forall_map; assumption.
Qed.
Lemma isos_zero : forall b H vs, isos b H (map zero vs).
Proof. intros. apply isos_of, Forall_map, Forall_forall. intros. apply iso_zero. Qed.
Lemma iso_plain : forall b H v, plain v = true -> iso b H v.
Proof.
  intros b H. assert (L : forall vs, Forall (fun v => plain v = true -> iso b H v) vs -> forallb plain vs = true -> isos b H vs).
  { intros vs F. induction F; intro A; [constructor|]. cbn in A. apply andb_true_iff in A as [A1 A2]. constructor; auto. }
  induction v using val_ind'; intro A; try discriminate A; try (constructor; fail).
  - constructor. apply IHv, A.
  - cbn in A. apply andb_true_iff in A as [A1 A2]. destruct us; [|discriminate A2]. constructor; [apply L; assumption|constructor].
  - constructor. apply L; assumption.
Qed.
Lemma iso_flat : forall b H, (forall v t, den H v t -> flat t = true -> iso b H v) /\ (forall vs ts, dens H vs ts -> forallb flat ts = true -> isos b H vs).
Proof.
  intros b H. apply den_dens_ind; intros; try (constructor; auto; fail); cbn in *; try discriminate.
  - apply andb_true_iff in H2 as [A1 A2]. constructor; auto.
  - apply andb_true_iff in H2 as [A1 A2]. constructor; auto.
Qed.
Lemma iso_reach : forall b H v l, reach H v l -> iso b H v -> b <= l.
Proof.
  intros b H v l R. induction R; intro I; inversion I; subst; try assumption.
  - assert (E : CVal w0 = CVal w) by congruence. injection E as ->. auto.
  - auto.
  - match goal with J : _ \/ _ |- _ => destruct J as [J|J] end; apply IHR.
    + eapply isos_In with (vs := es); eassumption.
    + eapply isos_In with (vs := us); eassumption.
  - assert (E : CArr ws0 = CArr ws) by congruence. injection E as ->. eapply IHR, isos_In; eassumption.
  - assert (E : CMap es0 = CMap es) by congruence. injection E as ->. apply IHR; eapply isos_In; [|match goal with I : In ?w (map _ _) |- _ => exact I end]; assumption.
  - assert (E : CMap es0 = CMap es) by congruence. injection E as ->. apply IHR; eapply isos_In; [|match goal with I : In ?w (map _ _) |- _ => exact I end]; assumption.
  - eapply IHR; eapply isos_In; eassumption.
Qed.
Lemma In_skipn_firstn : forall {A} (x : A) off len l, In x (firstn len (skipn off l)) -> In x l.
Proof.
  intros A x off len l I. rewrite <- (firstn_skipn off l). apply in_or_app. right.
  rewrite <- (firstn_skipn len (skipn off l)). apply in_or_app. left. exact I.
Qed.
(** what a value shows only depends on the cells it reaches *)
Lemma den_reach : forall H H2, (forall v t, den H v t -> (forall l, reach H v l -> nth_error H2 l = nth_error H l) -> den H2 v t)
  /\ (forall vs ts, dens H vs ts -> (forall v l, In v vs -> reach H v l -> nth_error H2 l = nth_error H l) -> dens H2 vs ts).
Proof.
  intros H H2. apply den_dens_ind; intros; try (constructor; auto; fail).
  - apply d_ptr with w. { rewrite H1 by constructor. assumption. } apply H0. intros m R. apply H1. eapply r_ptr_in; eassumption.
  - constructor. apply H0. intros m R. apply H1. constructor. exact R.
  - constructor; [apply H0|apply H1]; intros v m I R; apply H3; econstructor; [left|eassumption|right|eassumption]; eassumption.
  - apply d_slice with ws; auto. { rewrite H1 by constructor. assumption. }
    apply H0. intros v m I R. apply H1. eapply r_slice_in; [eassumption| |exact R].
    apply (In_skipn_firstn v off len ws I).
  - apply d_map; auto. { rewrite H1 by constructor. assumption. } apply H0. intros v m I R. apply H1. eapply r_map_in; eassumption.
  - constructor. apply H0. intros v m I R. apply H1. econstructor; eassumption.
  - constructor; [apply H0|apply H1]. { intros m R. eapply H3; [left; reflexivity|exact R]. } intros w m I R. eapply H3; [right; exact I|exact R].
Qed.

(** ** the copy *)
Lemma bind_ok : forall {A B} (r : res A) (f : A -> res B) a, r = Ok a -> bind r f = f a.
Proof. intros; subst; reflexivity. Qed.
Lemma keys_bound : forall ks, forallb key_ok ks = true -> exists n0, forall n, n0 <= n -> forall k, In k ks -> forall G, cp_key (cp n) G k = Ok (G, k).
Proof.
  induction ks as [|k ks IH]; intro A. { exists 0. intros n _ k []. }
  cbn in A. apply andb_true_iff in A as [A1 A2]. destruct (cp_key_ok k A1) as [n1 E1]. destruct (IH A2) as [n2 E2].
  exists (max n1 n2). intros n L k' [<-|I] G; [apply E1|apply E2]; auto; lia.
Qed.
Lemma find_key : forall (pre : list (val * val)) (k v : val) post, ForallOrdPairs (fun a b => geq a b = false) (map fst (pre ++ (k, v) :: post)) -> geq k k = true ->
  find (fun e => geq (fst e) k) (pre ++ (k, v) :: post) = Some (k, v).
Proof.
  induction pre as [|[a b] pre IH]; intros k v post F R; cbn.
  - rewrite R. reflexivity.
  - cbn in F. inversion F as [|x y F1 F2]; subst. rewrite (proj1 (Forall_forall _ _) F1 k).
    + apply IH; assumption.
    + rewrite map_app. apply in_or_app. right. left. reflexivity.
Qed.
Lemma mput_new : forall (acc : list (val * val)) (k v : val), (forall a, In a (map fst acc) -> geq a k = false) -> mput acc k v = acc ++ [(k, v)].
Proof.
  induction acc as [|[a b] acc IH]; intros k v A; [reflexivity|]. cbn. rewrite (A a) by (left; reflexivity). rewrite IH; [reflexivity|].
  intros c I. apply A. right. exact I.
Qed.
Lemma fop_app : forall {A} (R : A -> A -> Prop) xs y ys, ForallOrdPairs R (xs ++ y :: ys) -> forall a, In a xs -> R a y.
Proof.
  induction xs as [|x xs IH]; intros y ys F a I; [destruct I|]. cbn in F. inversion F as [|u w F1 F2]; subst. destruct I as [<-|I].
  - apply (proj1 (Forall_forall _ _) F1). apply in_or_app. right. left. reflexivity.
  - eapply IH; eassumption.
Qed.
Lemma cp_map_ok : forall f (all ks pre acc : list (val * val)) G G' vs',
  (forall k, In k (map fst ks) -> forall G, cp_key f G k = Ok (G, k)) -> (forall k, In k (map fst ks) -> geq k k = true) ->
  all = pre ++ ks -> ForallOrdPairs (fun a b => geq a b = false) (map fst all) -> map fst acc = map fst pre ->
  cp_list f G (map snd ks) = Ok (G', vs') -> cp_map f all G acc ks = Ok (G', acc ++ combine (map fst ks) vs').
Proof.
  intros f all. induction ks as [|[k v] ks IH]; intros pre acc G G' vs' K R E F A C.
  - cbn in *. injection C as <- <-. rewrite app_nil_r. reflexivity.
  - cbn in C. destruct (f G v) as [[G1 v1]| |] eqn:E1; cbn in C; try discriminate C.
    destruct (cp_list f G1 (map snd ks)) as [[G2 vs2]| |] eqn:E2; cbn in C; try discriminate C. injection C as <- <-.
    cbn [cp_map]. rewrite E, (find_key pre k v ks); [|rewrite <- E; exact F|apply R; left; reflexivity].
    rewrite E1. cbn [bind fst snd]. rewrite (K k (or_introl eq_refl)). cbn [bind fst snd].
    rewrite mput_new.
    + rewrite <- E. rewrite (IH (pre ++ [(k, v)]) (acc ++ [(k, v1)]) G1 G2 vs2).
      * cbn. rewrite <- app_assoc. reflexivity.
      * intros; apply K; right; assumption.
      * intros; apply R; right; assumption.
      * rewrite <- app_assoc. exact E.
      * exact F.
      * rewrite !map_app, A. reflexivity.
      * exact E2.
    + intros a I. rewrite A in I. apply (fop_app (fun a b => geq a b = false) (map fst pre) k (map fst ks)); [|exact I].
      rewrite E, map_app in F. exact F.
Qed.
Definition ext (H G : heap) : Prop := forall l c, nth_error H l = Some c -> nth_error G l = Some c.
Lemma ext_app : forall H G Y, ext H G -> ext H (G ++ Y).
Proof. intros H G Y E l c N. apply nth_app1, E, N. Qed.
Lemma nth_last : forall {A} (l : list A) x, nth_error (l ++ [x]) (length l) = Some x.
Proof. intros. rewrite nth_error_app2 by lia. rewrite Nat.sub_diag. reflexivity. Qed.
Lemma cp_list_len : forall f vs G G' vs', cp_list f G vs = Ok (G', vs') -> length vs' = length vs.
Proof.
  intros f. induction vs as [|v vs IH]; intros G G' vs' C; cbn in C. { injection C as <- <-. reflexivity. }
  destruct (f G v) as [[G1 v1]| |]; cbn in C; try discriminate C. destruct (cp_list f G1 vs) as [[G2 vs2]| |] eqn:E2; cbn in C; try discriminate C.
  injection C as <- <-. cbn. f_equal. eapply IH. exact E2.
Qed.

Lemma cp_ok : forall H,
  (forall v t, den H v t -> forall G, ext H G -> keys_ok t = true -> exists n0 Y v', (forall n, n0 <= n -> cp n G v = Ok (G ++ Y, v')) /\
     den (G ++ Y) v' (blank t) /\ (arrays_flat t = true -> iso (length G) (G ++ Y) v')) /\
  (forall vs ts, dens H vs ts -> forall G, ext H G -> forallb keys_ok ts = true -> exists n0 Y vs', (forall n, n0 <= n -> cp_list (cp n) G vs = Ok (G ++ Y, vs')) /\
     dens (G ++ Y) vs' (map blank ts) /\ (forallb arrays_flat ts = true -> isos (length G) (G ++ Y) vs')).
Proof.
  intro H.
  assert (self : forall v t G, ext H G -> den H v t -> den G v (blank t) -> (arrays_flat t = true -> iso (length G) G v) -> (forall n, cp (S n) G v = Ok (G, v)) ->
    exists n0 Y v', (forall n, n0 <= n -> cp n G v = Ok (G ++ Y, v')) /\ den (G ++ Y) v' (blank t) /\ (arrays_flat t = true -> iso (length G) (G ++ Y) v')).
  { intros v t G E D D' I C. exists 1, [], v. rewrite app_nil_r. split; [|split; assumption]. intros n L. destruct n; [lia|]. apply C. }
  apply den_dens_ind; try (intros; apply self; [assumption|constructor|constructor|intros _; constructor|reflexivity]; fail).
  - (* ptr *) intros l w t N D IH G E K. destruct (IH G E K) as (n0 & Y & v' & C & D' & I).
    exists (S n0), (Y ++ [CVal v']), (VPtr (length (G ++ Y))). rewrite app_assoc. repeat split.
    + intros n L. destruct n as [|n]; [lia|]. cbn [cp]. rewrite (E _ _ N), (bind_ok _ _ _ (C n ltac:(lia))). reflexivity.
    + cbn [blank]. econstructor; [apply nth_last|apply den_app, D'].
    + intro A. econstructor; [|apply nth_last|apply iso_app, I, A]. rewrite app_length. lia.
  - (* iface *) intros ty w t D IH G E K. destruct (IH G E K) as (n0 & Y & v' & C & D' & I).
    exists (S n0), Y, (VIface ty v'). repeat split.
    + intros n L. destruct n as [|n]; [lia|]. cbn [cp]. rewrite (bind_ok _ _ _ (C n ltac:(lia))). reflexivity.
    + constructor. exact D'.
    + intro A. constructor. apply I, A.
  - (* struct *) intros es us ts ss D IH D2 _ G E K. destruct (IH G E K) as (n0 & Y & vs' & C & D' & I).
    exists (S n0), Y, (VStruct vs' (map zero us)). repeat split.
    + intros n L. destruct n as [|n]; [lia|]. cbn [cp]. rewrite (bind_ok _ _ _ (C n ltac:(lia))). reflexivity.
    + constructor; [exact D'|]. apply (proj2 (den_zero _)), dens_app, (proj2 (den_agree H G) _ _ D2 E).
    + intro A. constructor; [apply I, A|apply isos_zero].
  - (* slice *) intros l off len cap ws ts N L1 L2 D IH G E K. destruct (IH G E K) as (n0 & Y & vs' & C & D' & I).
    pose proof (cp_list_len _ _ _ _ _ (C n0 ltac:(lia))) as Lv. rewrite firstn_length, skipn_length in Lv.
    set (rest := map zero (firstn (cap - len) (skipn (off + len) ws))).
    exists (S n0), (Y ++ [CArr (vs' ++ rest)]), (VSlice (length (G ++ Y)) 0 len cap). rewrite app_assoc. repeat split.
    + intros n L. destruct n as [|n]; [lia|]. cbn [cp]. rewrite (E _ _ N), (bind_ok _ _ _ (C n ltac:(lia))). reflexivity.
    + cbn [blank]. econstructor; [apply nth_last|exact L1| |].
      * unfold rest. rewrite app_length, map_length, firstn_length, skipn_length. lia.
      * cbn [skipn]. replace len with (length vs') at 1 by lia. rewrite firstn_app, Nat.sub_diag, firstn_all. cbn [firstn]. rewrite app_nil_r. apply dens_app, D'.
    + intro A. econstructor; [|apply nth_last|apply isos_cat; [apply iso_app, I, A|apply isos_zero]]. rewrite app_length. lia.
  - (* map *) intros l es ts N F D IH G E K. cbn in K. apply andb_true_iff in K as [K1 K2].
    destruct (IH G E K2) as (n0 & Y & vs' & C & D' & I). destruct (keys_bound _ K1) as [n1 B].
    pose proof (cp_list_len _ _ _ _ _ (C n0 ltac:(lia))) as Lv. rewrite map_length in Lv.
    assert (M1 : map fst (combine (map fst es) vs') = map fst es).
    { clear -Lv. revert vs' Lv. induction es as [|[k v] es IH]; intros [|x xs] L; cbn in *; try discriminate; try reflexivity. f_equal. apply IH. lia. }
    assert (M2 : map snd (combine (map fst es) vs') = vs').
    { clear -Lv. revert vs' Lv. induction es as [|[k v] es IH]; intros [|x xs] L; cbn in *; try discriminate; try reflexivity. f_equal. apply IH. lia. }
    exists (S (max n0 n1)), (Y ++ [CMap (combine (map fst es) vs')]), (VMap (length (G ++ Y))). rewrite app_assoc. repeat split.
    + intros n L. destruct n as [|n]; [lia|]. cbn [cp]. rewrite (E _ _ N).
      rewrite (bind_ok _ _ _ (cp_map_ok (cp n) es es [] [] G (G ++ Y) vs' (B n ltac:(lia))
        (fun k I => plain_geq k (proj1 (proj1 (andb_true_iff _ _) (proj1 (forallb_forall _ _) K1 k I)))) eq_refl F eq_refl (C n ltac:(lia)))). reflexivity.
    + cbn [blank]. rewrite <- M1 at 2. econstructor; [apply nth_last|rewrite M1; exact F|]. rewrite M2. apply dens_app, D'.
    + intro A. econstructor; [|apply nth_last| |].
      * rewrite app_length. lia.
      * rewrite M1. apply isos_of, Forall_forall. intros k J. apply iso_plain.
        apply (proj1 (proj1 (andb_true_iff _ _) (proj1 (forallb_forall _ _) K1 k J))).
      * rewrite M2. apply iso_app, I, A.
  - (* array *) intros vs ts D _ G E K. apply self; auto.
    + constructor. exact D.
    + cbn [blank]. constructor. apply (proj2 (den_agree H G) _ _ D E).
    + intro A. cbn [arrays_flat] in A. constructor. apply (proj2 (iso_flat (length G) G) vs ts); [|exact A]. apply (proj2 (den_agree H G) _ _ D E).
  - intros G E _. exists 0, [], []. rewrite app_nil_r. repeat split; constructor.
  - intros v t vs ts D IH Ds IHs G E K. cbn in K. apply andb_true_iff in K as [K1 K2].
    destruct (IH G E K1) as (n0 & Y & v' & C & D' & I).
    destruct (IHs (G ++ Y) (ext_app _ _ _ E) K2) as (n1 & Z & vs' & Cs & Ds' & Is).
    exists (max n0 n1), (Y ++ Z), (v' :: vs'). rewrite app_assoc. repeat split.
    + intros n L. cbn [cp_list]. rewrite (bind_ok _ _ _ (C n ltac:(lia))). cbn [fst snd]. rewrite (bind_ok _ _ _ (Cs n ltac:(lia))). reflexivity.
    + cbn [map]. constructor; [apply den_app, D'|exact Ds'].
    + intro A. cbn in A. apply andb_true_iff in A as [A1 A2]. constructor; [apply iso_app, I, A1|].
      eapply (proj2 (iso_mono _ _ _ _)); [apply Is, A2]. Unshelve. rewrite app_length. lia.
Qed.
Lemma blank_id : forall H, (forall v t, den H v t -> all_exported t = true -> blank t = t) /\
  (forall vs ts, dens H vs ts -> forallb all_exported ts = true -> map blank ts = ts).
Proof.
  intro H. apply den_dens_ind; try reflexivity.
  - intros l w t N D IH A. cbn. f_equal. apply IH, A.
  - intros ty w t D IH A. cbn. f_equal. apply IH, A.
  - intros es us ts ss D IH D2 _ A. cbn in A. apply andb_true_iff in A as [A1 A2]. destruct ss; [|discriminate A2]. cbn. f_equal. apply IH, A1.
  - intros l off len cap ws ts N L1 L2 D IH A. cbn. f_equal. apply IH, A.
  - intros l es ts N F D IH A. cbn. f_equal. apply IH, A.
  - intros v t vs ts D IH Ds IHs A. cbn in A. apply andb_true_iff in A as [A1 A2]. cbn. f_equal; auto.
Qed.

(** ** C131: a copy shows what its source shows, except that unexported fields are zero; no memory that was there is changed *)
Theorem C131_deepcopy_copy : forall H ty v t, den H v t -> keys_ok t = true ->
  exists n0 Y v', (forall n, n0 <= n -> Copy n H (Some (ty, v)) = Ok (H ++ Y, Some (ty, v'))) /\ den (H ++ Y) v' (blank t).
Proof.
  intros H ty v t D K. destruct (proj1 (cp_ok H) v t D H (fun l c e => e) K) as (n0 & Y & v' & C & D' & _).
  exists n0, Y, v'. split; [|exact D']. intros n L. unfold Copy. rewrite (bind_ok _ _ _ (C n L)). reflexivity.
Qed.
Theorem C131_deepcopy_equal : forall H ty v t, den H v t -> keys_ok t = true -> all_exported t = true ->
  exists n0 Y v', (forall n, n0 <= n -> Copy n H (Some (ty, v)) = Ok (H ++ Y, Some (ty, v'))) /\ den (H ++ Y) v' t.
Proof.
  intros H ty v t D K A. pose proof (C131_deepcopy_copy H ty v t D K) as P. rewrite (proj1 (blank_id H) v t D A) in P. exact P.
Qed.
Theorem C131_deepcopy_nil : forall n H, Copy n H None = Ok (H, None).
Proof. reflexivity. Qed.

(** ** C132: a copy and its source share no memory *)
Theorem C132_deepcopy_isolated : forall H ty v t, den H v t -> keys_ok t = true -> arrays_flat t = true ->
  exists n0 H' v', (forall n, n0 <= n -> Copy n H (Some (ty, v)) = Ok (H', Some (ty, v'))) /\
    (forall l, reach H' v' l -> length H <= l) /\
    (* whatever is written through the copy, the source shows the same *)
    (forall H2, (forall l, ~ reach H' v' l -> nth_error H2 l = nth_error H' l) -> den H2 v t) /\
    (* whatever is written to the memory there was before the call, the copy shows the same *)
    (forall H2, (forall l, length H <= l -> nth_error H2 l = nth_error H' l) -> den H2 v' (blank t)).
Proof.
  intros H ty v t D K A. destruct (proj1 (cp_ok H) v t D H (fun l c e => e) K) as (n0 & Y & v' & C & D' & I).
  assert (R : forall l, reach (H ++ Y) v' l -> length H <= l) by (intros l R; exact (iso_reach _ _ _ _ R (I A))).
  exists n0, (H ++ Y), v'. repeat split.
  - intros n L. unfold Copy. rewrite (bind_ok _ _ _ (C n L)). reflexivity.
  - exact R.
  - intros H2 E. apply (proj1 (den_agree H H2) v t D). intros l c N. rewrite E; [apply nth_app1, N|].
    intro Q. apply R in Q. assert (l < length H) by (apply nth_error_Some; rewrite N; discriminate). lia.
  - intros H2 E. apply (proj1 (den_reach (H ++ Y) H2) v' _ D'). intros l Q. apply E, R, Q.
Qed.

(** the hypotheses hold of a struct{ A string; P *int; S []byte (with spare capacity); M map[string]any; X any } *)
Definition ex_heap : heap :=
  [CVal (VScalar 2 7); CArr [VScalar 3 9; VScalar 3 1; VScalar 3 2; VScalar 3 8]; CMap [(VScalar 1 5, VIface 4 (VPtr 0)); (VScalar 1 6, VNilIface)]].
Definition ex_val : val := VStruct [VScalar 1 11; VPtr 0; VSlice 1 1 2 3; VMap 2; VIface 9 (VArray [VScalar 2 3; VScalar 2 4])] [].
Definition ex_tree : tree := TStruct [TScalar 1 11; TPtr (TScalar 2 7); TSlice 3 [TScalar 3 1; TScalar 3 2];
  TMap [VScalar 1 5; VScalar 1 6] [TIface 4 (TPtr (TScalar 2 7)); TNilIface]; TIface 9 (TArray [TScalar 2 3; TScalar 2 4])] [].
Example ex_den : den ex_heap ex_val ex_tree.
Proof.
  constructor; [|constructor]. constructor; [constructor|]. constructor; [econstructor; [reflexivity|constructor]|].
  constructor; [eapply d_slice; [reflexivity|lia|cbn; lia|]; cbn; repeat constructor|].
  constructor; [apply (d_map ex_heap 2 [(VScalar 1 5, VIface 4 (VPtr 0)); (VScalar 1 6, VNilIface)]); [reflexivity| |]|].
  - cbn. repeat constructor.
  - cbn. constructor; [constructor; econstructor; [reflexivity|constructor]|]. repeat constructor.
  - repeat constructor.
Qed.
Example ex_ok : keys_ok ex_tree = true /\ arrays_flat ex_tree = true /\ all_exported ex_tree = true.
Proof. repeat split. Qed.
Example ex_copy : Copy 9 ex_heap (Some (0, ex_val)) = Ok (ex_heap ++ [CVal (VScalar 2 7); CArr [VScalar 3 1; VScalar 3 2; VScalar 3 0]; CVal (VScalar 2 7);
    CMap [(VScalar 1 5, VIface 4 (VPtr 5)); (VScalar 1 6, VNilIface)]],
  Some (0, VStruct [VScalar 1 11; VPtr 3; VSlice 4 0 2 3; VMap 6; VIface 9 (VArray [VScalar 2 3; VScalar 2 4])] [])).
Proof. reflexivity. Qed.

(** ** C133: references inside an array are shared *)
Theorem C133_deepcopy_array_refuted : forall H ty vs l, reach H (VArray vs) l ->
  exists H' v', (forall n, 1 <= n -> Copy n H (Some (ty, VArray vs)) = Ok (H', Some (ty, v'))) /\ reach H' v' l.
Proof. intros H ty vs l R. exists H, (VArray vs). split; [|exact R]. intros [|n] L; [lia|reflexivity]. Qed.
(** a write through the copy of a [1][]byte{{a}} shows in the source *)
Theorem C133_deepcopy_array_write_refuted : forall ty a b, a <> b ->
  let H := [CArr [VScalar 3 a]] in let v := VArray [VSlice 0 0 1 1] in
  exists H' v', (forall n, 1 <= n -> Copy n H (Some (ty, v)) = Ok (H', Some (ty, v'))) /\ den H v (TArray [TSlice 1 [TScalar 3 a]]) /\
    exists H2, (forall l, ~ reach H' v' l -> nth_error H2 l = nth_error H' l) /\ den H2 v (TArray [TSlice 1 [TScalar 3 b]]) /\ ~ den H2 v (TArray [TSlice 1 [TScalar 3 a]]).
Proof.
  intros ty a b NE H v. exists H, v. split; [intros [|n] L; [lia|reflexivity]|]. split.
  { constructor. constructor; [|constructor]. eapply d_slice; [reflexivity|lia|cbn; lia|]. cbn. repeat constructor. }
  exists [CArr [VScalar 3 b]]. split; [|split].
  - intros [|l] R; [|destruct l; reflexivity]. exfalso. apply R. econstructor; [left; reflexivity|constructor].
  - constructor. constructor; [|constructor]. eapply d_slice; [reflexivity|lia|cbn; lia|]. cbn. repeat constructor.
  - intro D. inversion D as [| | | | | | | | | | | |vs ts Ds]; subst. inversion Ds as [|? ? ? ? D1 _]; subst. inversion D1 as [| | | | | | | | |l off len cap ws ts N _ _ Dt | | |]; subst.
    cbn in N. injection N as <-. cbn in Dt. inversion Dt as [|? ? ? ? D2 _]; subst. inversion D2; subst. apply NE; reflexivity.
Qed.

(** ** C134: a copy of a cyclic value does not end *)
Lemma ring_at : forall n i, i < n -> nth_error (ring n) i = Some (CVal (VStruct [VPtr (S i mod n)] [])).
Proof.
  intros n i L. unfold ring. rewrite nth_error_map, (nth_error_nth' _ 0) by (rewrite seq_length; exact L). rewrite seq_nth by exact L. reflexivity.
Qed.
Theorem C134_deepcopy_cycle_refuted : forall n i ty fuel, i < n -> Copy fuel (ring n) (Some (ty, VPtr i)) = Loop.
Proof.
  intros n i ty fuel L. unfold Copy. assert (E : forall f i, i < n -> cp f (ring n) (VPtr i) = Loop).
  { clear i L. intro f. induction f as [f IH] using lt_wf_ind. intros i L. destruct f as [|f]; [reflexivity|]. cbn [cp]. rewrite (ring_at n i L).
    destruct f as [|f]; [reflexivity|]. cbn [cp cp_list]. rewrite IH; [reflexivity|lia|]. apply Nat.mod_upper_bound. lia. }
  rewrite E by exact L. reflexivity.
Qed.

(** ** C135: a map with a NaN key, or with the nil interface as a key, makes Copy panic *)
Lemma find_nan : forall k (es : list (val * val)), find (fun e => geq (fst e) (VNaN k)) es = None.
Proof. induction es as [|[a b] es IH]; [reflexivity|]. cbn. destruct a; exact IH. Qed.
Theorem C135_deepcopy_nan_key_refuted : forall H ty l k v es n, nth_error H l = Some (CMap ((VNaN k, v) :: es)) -> 1 <= n -> Copy n H (Some (ty, VMap l)) = Panic.
Proof.
  intros H ty l k v es [|n] N L; [lia|]. unfold Copy. cbn [cp]. rewrite N. cbn [cp_map]. rewrite find_nan. reflexivity.
Qed.
Theorem C135_deepcopy_nil_key_refuted : forall H ty l v t es, nth_error H l = Some (CMap ((VNilIface, v) :: es)) -> den H v t -> keys_ok t = true ->
  exists n0, forall n, n0 <= n -> Copy n H (Some (ty, VMap l)) = Panic.
Proof.
  intros H ty l v t es N D K. destruct (proj1 (cp_ok H) v t D H (fun l c e => e) K) as (n0 & Y & v' & C & _).
  exists (S n0). intros [|n] L; [lia|]. unfold Copy. cbn [cp]. rewrite N. cbn [cp_map find fst geq]. rewrite (bind_ok _ _ _ (C n ltac:(lia))). reflexivity.
Qed.

(** ** C136: unexported fields are lost *)
Theorem C136_deepcopy_unexported_refuted : forall n H ty es us us', map zero us = map zero us' ->
  Copy n H (Some (ty, VStruct es us)) = Copy n H (Some (ty, VStruct es us')).
Proof. intros n H ty es us us' E. destruct n as [|n]; [reflexivity|]. unfold Copy. cbn [cp]. rewrite E. reflexivity. Qed.
(** keys that differ in unexported fields only become one key: the copy of a map with any number of them has one entry *)
Lemma geq_unexp : forall k a b, geq (VStruct [] [VScalar k a]) (VStruct [] [VScalar k b]) = (a =? b)%N.
Proof. intros. cbn. rewrite Nat.eqb_refl. cbn. rewrite andb_true_r. reflexivity. Qed.
Theorem C136_deepcopy_map_keys_refuted : forall H ty l k j xs, xs <> [] -> NoDup xs ->
  nth_error H l = Some (CMap (map (fun x => (VStruct [] [VScalar k x], VScalar j x)) xs)) ->
  exists x, In x xs /\ forall n, 3 <= n -> Copy n H (Some (ty, VMap l)) = Ok (H ++ [CMap [(VStruct [] [VScalar k 0], VScalar j x)]], Some (ty, VMap (length H))).
Proof.
  intros H ty l k j xs NE ND N. set (ent := fun x => (VStruct [] [VScalar k x], VScalar j x)) in *.
  assert (F : forall x, In x xs -> find (fun e => geq (fst e) (VStruct [] [VScalar k x])) (map ent xs) = Some (ent x)).
  { intros x I. clear N NE ND. induction xs as [|y xs IH]; [destruct I|]. cbn [map find]. change (fst (ent y)) with (VStruct [] [VScalar k y]). rewrite geq_unexp.
    destruct (N.eqb_spec y x) as [->|D]; [reflexivity|]. apply IH. destruct I as [I|I]; [contradiction|exact I]. }
  assert (M : forall ys acc, (forall y, In y ys -> In y xs) -> (acc = [] \/ exists x, In x xs /\ acc = [(VStruct [] [VScalar k 0], VScalar j x)]) ->
    (ys <> [] \/ acc <> []) -> exists x, In x xs /\ forall n, 2 <= n -> cp_map (cp n) (map ent xs) H acc (map ent ys) = Ok (H, [(VStruct [] [VScalar k 0], VScalar j x)])).
  { induction ys as [|y ys IH]; intros acc Sb A B.
    - destruct A as [->|(x & I & ->)]; [destruct B as [B|B]; exfalso; apply B; reflexivity|]. exists x. split; [exact I|]. reflexivity.
    - destruct (IH [(VStruct [] [VScalar k 0], VScalar j y)]) as (x & I & E).
      + intros z J. apply Sb. right. exact J.
      + right. exists y. split; [apply Sb; left; reflexivity|reflexivity].
      + right. discriminate.
      + exists x. split; [exact I|]. intros n L. destruct n as [|[|n]]; [lia|lia|]. cbn [map cp_map]. change (ent y) with (VStruct [] [VScalar k y], VScalar j y).
        cbv iota beta. rewrite (F y (Sb y (or_introl eq_refl))). change (ent y) with (VStruct [] [VScalar k y], VScalar j y).
        cbv iota beta. cbn [cp bind cp_key cp_list fst snd map zero].
        replace (mput acc (VStruct [] [VScalar k 0]) (VScalar j y)) with [(VStruct [] [VScalar k 0], VScalar j y)]. { apply (E (S (S n)) L). }
        destruct A as [->|(x0 & _ & ->)]; [reflexivity|]. cbn [mput fst]. rewrite geq_unexp. reflexivity. }
  destruct (M xs [] (fun y I => I) (or_introl eq_refl) (or_introl NE)) as (x & I & E). exists x. split; [exact I|].
  intros [|n] L; [lia|]. unfold Copy. cbn [cp]. rewrite N. rewrite (bind_ok _ _ _ (E n ltac:(lia))). reflexivity.
Qed.
