(** GostTree.v -- model of /repo/gost/gost34112012256 (hash.go, kdf.go, tlstree.go, esptree.go) and
    of the part of Go's crypto/hmac it uses (hmac.go: New, Write, first Sum), over the modelled
    gost34112012 digest object of Gost3411.v. *)
From Coq Require Import String List NArith Arith Lia Bool.
From Verif Require Import Base Words HashAPI Buf Refine Kupyna SpecStreebog Gost3411 Gost3411P.
Import ListNotations.

(** gost34112012256/hash.go:18-20 New *)
Definition g256_new : gost := gs_reset (mkgost 32 [] 0 (zeros 64) (zeros 64)).
(** crypto/hmac over any hash.Hash [I] with constructor result [new]. *)
Section Hmac.
Context {D : Type}.
Variable I : impl D.
Variable new : D.
(** New: (inner digest after the ipad, opad). *)
Definition hmac_new (key : list N) : D * list N :=
  let key := if 64 <? length key then snd (i_sum I (fst (i_write I new key)) []) else key in
  let pad := copy_at (zeros 64) 0 key in
  (fst (i_write I new (map (fun b => N.lxor b 0x36) pad)), map (fun b => N.lxor b 0x5c) pad).
(** Sum(nil): in = inner.Sum(nil); outer.Reset(); outer.Write(opad); outer.Write(in); outer.Sum(nil).
    (The outer object may have hashed the key before, hence the Reset.) *)
Definition hmac_sum (h : D * list N) : list N :=
  let inn := snd (i_sum I (fst h) []) in
  let outer := i_reset I new in
  let outer := fst (i_write I outer (snd h)) in
  let outer := fst (i_write I outer inn) in
  snd (i_sum I outer []).
Definition hmac_write (h : D * list N) (p : list N) : D * list N := (fst (i_write I (fst h) p), snd h).
(** kdf.go:8-33 KDF *)
Definition kdf_code (key label seed : list N) : list N :=
  let fn := hmac_new key in
  let fn := hmac_write fn [1%N] in
  let fn := hmac_write fn label in
  let fn := hmac_write fn [0%N] in
  let fn := hmac_write fn seed in
  let fn := hmac_write fn [1%N] in
  let fn := hmac_write fn [0%N] in
  hmac_sum fn.
End Hmac.
Definition gs_kdf : list N -> list N -> list N -> list N := kdf_code gs_impl g256_new.

(** tlstree.go:46-52 *)
Record tlstree : Type := mktls { tl_params : N * N * N; tl_root : list N; tl_prev : N; tl_key : list N }.
(** tlstree.go:54-64 *)
Definition NewTLSTree (params : N * N * N) (root : list N) : tlstree := mktls params root 0 (zeros 32).
Definition lv (k : nat) : list N :=
  match k with 1 => bytes_of_string "level1" | 2 => bytes_of_string "level2" | _ => bytes_of_string "level3" end.
(** tlstree.go:66-88 DeriveCached *)
Definition tls_derive_cached (t : tlstree) (n : N) : tlstree * (list N * bool) :=
  let '(p0, p1, p2) := tl_params t in
  if ((0 <? n) && (N.land n p0 =? N.land (tl_prev t) p0) && (N.land n p1 =? N.land (tl_prev t) p1) && (N.land n p2 =? N.land (tl_prev t) p2))%N
  then (t, (tl_key t, true))
  else
    let pass1 := gs_kdf (tl_root t) (lv 1) (be_bytes 8 (N.land n p0)) in
    let pass2 := gs_kdf pass1 (lv 2) (be_bytes 8 (N.land n p1)) in
    let pass3 := gs_kdf pass2 (lv 3) (be_bytes 8 (N.land n p2)) in
    (mktls (tl_params t) (tl_root t) n pass3, (pass3, false)).
(** tlstree.go:90-97 Derive *)
Definition tls_derive (t : tlstree) (n : N) : tlstree * list N :=
  let '(t', (key, _)) := tls_derive_cached t n in (t', copy_at (zeros 32) 0 key).
Fixpoint tls_run (t : tlstree) (ns : list N) : list (list N) :=
  match ns with
  | [] => []
  | n :: ns => let '(t', key) := tls_derive t n in key :: tls_run t' ns
  end.

(** esptree.go:7-11 *)
Record esptree : Type := mkesp { es_root : list N; es_prev : list N; es_key : list N }.
(** esptree.go:28-48 DeriveCached; None is the panic. *)
Definition esp_derive_cached (t : esptree) (is : list N) : option (esptree * (list N * bool)) :=
  if negb (length is =? 5) then None
  else if list_eq_dec N.eq_dec (es_prev t) is then Some (t, (es_key t, true))
  else
    let pass1 := gs_kdf (es_root t) (lv 1) ([0%N] ++ [at_ is 0]) in
    let pass2 := gs_kdf pass1 (lv 2) (slice is 1 3) in
    let pass3 := gs_kdf pass2 (lv 3) (slice is 3 5) in
    Some (mkesp (es_root t) is pass3, (pass3, false)).
(** esptree.go:13-26 NewESPTree *)
Definition NewESPTree (root : list N) : option esptree :=
  option_map fst (esp_derive_cached (mkesp root [1%N; 0%N; 0%N; 0%N; 0%N] (zeros 32)) (zeros 5)).
(** esptree.go:50-57 Derive *)
Definition esp_derive (t : esptree) (is : list N) : option (esptree * list N) :=
  option_map (fun '(t', (key, _)) => (t', copy_at (zeros 32) 0 key)) (esp_derive_cached t is).
(** a sequence of Derive calls; the list stops at a panic *)
Fixpoint esp_run (t : esptree) (iss : list (list N)) : list (list N) :=
  match iss with
  | [] => []
  | is :: iss => match esp_derive t is with Some (t', key) => key :: esp_run t' iss | None => [] end
  end.

(** ** Proofs *)
Opaque gs_write gs_sum st_hash_with gs_checkSum.
Lemma g256_rel : grel 32 g256_new [].
Proof. apply grel_new. reflexivity. Qed.
Lemma gs_sum_ok : forall d m, (N.of_nat (length m) < 2 ^ 61)%N -> grel 32 d m -> snd (gs_sum d []) = streebog256 m.
Proof.
  intros d m HL H. Transparent gs_sum. unfold gs_sum. rewrite (gs_checkSum_ok 32 d m ltac:(now left) HL H). reflexivity.
Qed.
Opaque gs_sum.
Transparent st_hash_with.
Lemma streebog256_len : forall m, length (streebog256 m) = 32.
Proof.
  intros. unfold streebog256, st_hash_with. destruct (fold_left _ _ _) as [[h n] s]. rewrite skipn_length.
  pose proof st_g_len as E. cbv zeta. rewrite E. reflexivity.
Qed.
Lemma st_xor_bytes : forall a b, isbytes a -> isbytes b -> isbytes (st_xor a b).
Proof.
  intros a b Ha Hb. unfold st_xor. apply Forall_map, Forall_forall. intros i _. apply (lxor_lt 8); now apply at_isbyte.
Qed.
Lemma st_E_bytes : forall k m, isbytes k -> isbytes m -> isbytes (st_E k m).
Proof.
  assert (L : forall x, isbytes (st_LPS x)).
  { intros x. unfold st_LPS, st_L. induction (chunks 8 (st_P (st_S x))) as [|c l IH]; [constructor|]. cbn [map concat]. apply isbytes_app. split; [apply le_bytes_isbytes|exact IH]. }
  intros k m Hk Hm. unfold st_E.
  assert (G : forall l k m, isbytes k -> isbytes m -> let o := fold_left (fun '(k, m) c => (st_LPS (st_xor k (st_num c)), st_LPS (st_xor k m))) l (k, m) in isbytes (fst o) /\ isbytes (snd o)).
  { induction l as [|c l IH]; intros k0 m0 A B; [split; assumption|]. cbv zeta. rewrite fold_left_cons. apply IH; apply L. }
  specialize (G st_C k m Hk Hm). cbv zeta in G. destruct (fold_left _ st_C _) as [k' m']. destruct G. now apply st_xor_bytes.
Qed.
Lemma st_LPS_bytes : forall x, isbytes (st_LPS x).
Proof. intros x. unfold st_LPS, st_L. induction (chunks 8 (st_P (st_S x))) as [|c l IH]; [constructor|]. cbn [map concat]. apply isbytes_app. split; [apply le_bytes_isbytes|exact IH]. Qed.
Transparent st_g.
Lemma st_g_bytes : forall n h m, isbytes h -> isbytes m -> isbytes (st_g n h m).
Proof.
  intros n h m Hh Hm. unfold st_g. apply st_xor_bytes; [apply st_xor_bytes|]; try assumption. apply st_E_bytes; [apply st_LPS_bytes|assumption].
Qed.
Opaque st_g.
Lemma streebog256_bytes : forall m, isbytes m -> isbytes (streebog256 m).
Proof.
  intros m Hm. unfold streebog256, st_hash_with. fold (st_init 32).
  assert (G : forall l s, isbytes (fst (fst s)) -> Forall isbytes l -> isbytes (fst (fst (fold_left (st_step st_add) l s)))).
  { induction l as [|b l IH]; intros [[h n] s] Hh HF; [exact Hh|]. rewrite fold_left_cons. apply IH; [|now apply Forall_inv_tail in HF]. cbn [st_step fst]. apply st_g_bytes; [exact Hh|now apply Forall_inv in HF]. }
  assert (F : Forall isbytes (chunks 64 m)).
  { apply Forall_forall. intros c Hc. unfold chunks in Hc. apply in_map_iff in Hc. destruct Hc as (i & <- & _). now apply isbytes_firstn, isbytes_skipn. }
  assert (I0 : isbytes (fst (fst (st_init 32)))) by (apply Forall_forall; intros x Hx; apply repeat_spec in Hx; subst; reflexivity).
  specialize (G (chunks 64 m) (st_init 32) I0 F). destruct (fold_left _ (chunks 64 m) _) as [[h n] s]. cbn [fst] in G. cbv zeta.
  apply isbytes_skipn. apply st_g_bytes; [apply st_g_bytes; [apply st_g_bytes; [exact G|]|apply le_bytes_isbytes]|apply st_add_bytes].
  apply isbytes_app. split; [now apply isbytes_rest|constructor; [reflexivity|apply zeros_isbytes]].
Qed.
Opaque st_hash_with streebog256.
Lemma isbytes_xor_map : forall k l, (k < 256)%N -> isbytes l -> isbytes (map (fun b => N.lxor b k) l).
Proof. intros k l Hk H. apply Forall_map. unfold isbytes in H. rewrite Forall_forall in *. intros b Hb. apply (lxor_lt 8); [now apply H|exact Hk]. Qed.
Lemma pad64 : forall k, length k <= 64 -> copy_at (zeros 64) 0 k = k ++ zeros (64 - length k).
Proof.
  intros k H. unfold copy_at. rewrite zeros_length, Nat.sub_0_r, (firstn_all2 (n := 64)) by exact H. rewrite Nat.add_0_l, skipn_zeros.
  replace (64 - Nat.min 64 (length k)) with (64 - length k) by lia. reflexivity.
Qed.
Section HmacProof.
Context {D : Type}.
Variable I : impl D. Variable new : D. Variable H : list N -> list N. Variable R : D -> list N -> Prop.
Hypothesis Rnew : R new [].
Hypothesis Rreset : R (i_reset I new) [].
Hypothesis W2 : forall d m p, R d m -> isbytes p -> (N.of_nat (length m) + N.of_nat (length p) < 2 ^ 61)%N -> R (fst (i_write I d p)) (m ++ p).
Hypothesis HS : forall d m, (N.of_nat (length m) < 2 ^ 61)%N -> R d m -> snd (i_sum I d []) = H m.
Hypothesis H32 : forall m, length (H m) = 32.
Hypothesis Hby : forall m, isbytes m -> isbytes (H m).
Lemma kdf_code_ok : forall key label seed, isbytes key -> isbytes label -> isbytes seed ->
  (N.of_nat (length key) < 2 ^ 61)%N -> (N.of_nat (length label + length seed) < 2 ^ 60)%N ->
  kdf_code I new key label seed = hmac_spec H key ([1%N] ++ label ++ [0%N] ++ seed ++ [1%N; 0%N]).
Proof.
  intros key label seed Hk Hl Hs HB1 HB2. unfold kdf_code, hmac_spec, hmac_new, hmac_sum, hmac_write. cbv zeta. cbn [fst snd].
  set (k1 := if 64 <? length key then snd (i_sum I (fst (i_write I new key)) []) else key).
  assert (Ek : k1 = (if 64 <? length key then H key else key) /\ length k1 <= 64 /\ isbytes k1).
  { unfold k1. destruct (Nat.ltb_spec 64 (length key)) as [HH|HH]; [|now auto].
    rewrite (HS _ key HB1 (W2 new [] key Rnew Hk HB1)).
    split; [reflexivity|]. rewrite H32. split; [lia|now apply Hby]. }
  destruct Ek as (<- & Lk & Bk). clearbody k1. rewrite pad64 by exact Lk.
  assert (Bp : isbytes (k1 ++ zeros (64 - length k1))) by (apply isbytes_app; split; [exact Bk|apply zeros_isbytes]).
  assert (Lp : length (k1 ++ zeros (64 - length k1)) = 64) by (rewrite app_length, zeros_length; lia).
  set (pad := k1 ++ zeros (64 - length k1)) in *. clearbody pad.
  set (ip := map (fun b => N.lxor b 0x36) pad). set (op := map (fun b => N.lxor b 0x5c) pad).
  assert (Bi : isbytes ip) by (now apply isbytes_xor_map). assert (Bo : isbytes op) by (now apply isbytes_xor_map).
  assert (Li : length ip = 64) by (unfold ip; now rewrite map_length). assert (Lo : length op = 64) by (unfold op; now rewrite map_length).
  clearbody ip op.
  assert (B60 : (2 ^ 61 = 2 * 2 ^ 60)%N) by reflexivity. assert (B50 : (100 < 2 ^ 60)%N) by reflexivity.
  assert (Byte : forall b, (b < 256)%N -> isbytes [b]) by (intros; constructor; [assumption|constructor]).
  pose proof (fun X => W2 new [] ip Rnew Bi X) as R0. cbn [app length] in R0. specialize (R0 ltac:(lia)). set (d0 := fst (i_write I new ip)) in *. clearbody d0.
  pose proof (fun X => W2 d0 ip [1%N] R0 (Byte 1%N eq_refl) X) as R1. specialize (R1 ltac:(cbn [length]; lia)). set (d1 := fst (i_write I d0 [1%N])) in *. clearbody d1.
  pose proof (fun X => W2 d1 _ label R1 Hl X) as R2. specialize (R2 ltac:(rewrite app_length; cbn [length]; lia)). set (d2 := fst (i_write I d1 label)) in *. clearbody d2.
  pose proof (fun X => W2 d2 _ [0%N] R2 (Byte 0%N eq_refl) X) as R3. specialize (R3 ltac:(rewrite !app_length; cbn [length]; lia)). set (d3 := fst (i_write I d2 [0%N])) in *. clearbody d3.
  pose proof (fun X => W2 d3 _ seed R3 Hs X) as R4. specialize (R4 ltac:(rewrite !app_length; cbn [length]; lia)). set (d4 := fst (i_write I d3 seed)) in *. clearbody d4.
  pose proof (fun X => W2 d4 _ [1%N] R4 (Byte 1%N eq_refl) X) as R5. specialize (R5 ltac:(rewrite !app_length; cbn [length]; lia)). set (d5 := fst (i_write I d4 [1%N])) in *. clearbody d5.
  pose proof (fun X => W2 d5 _ [0%N] R5 (Byte 0%N eq_refl) X) as R6. specialize (R6 ltac:(rewrite !app_length; cbn [length]; lia)). set (d6 := fst (i_write I d5 [0%N])) in *. clearbody d6.
  rewrite <- !app_assoc in R6. cbn [app] in R6. clear R0 R1 R2 R3 R4 R5.
  match type of R6 with R d6 ?m => rewrite (HS d6 m) end.
  3: exact R6. 2: { rewrite !app_length, Li. cbn [length]. rewrite !app_length. cbn [length]. rewrite !app_length. cbn [length]. lia. }
  cbn [app]. set (inn := H (ip ++ _)).
  assert (Lin : length inn = 32) by apply H32.
  assert (Bin : isbytes inn).
  { unfold inn. apply Hby. apply isbytes_app. split; [exact Bi|]. constructor; [reflexivity|]. apply isbytes_app. split; [exact Hl|].
    constructor; [reflexivity|]. apply isbytes_app. split; [exact Hs|]. repeat constructor. }
  clearbody inn.
  pose proof (fun X => W2 (i_reset I new) [] op Rreset Bo X) as Q0. cbn [app length] in Q0. specialize (Q0 ltac:(lia)). set (q0 := fst (i_write I (i_reset I new) op)) in *. clearbody q0.
  pose proof (fun X => W2 q0 op inn Q0 Bin X) as Q1. specialize (Q1 ltac:(lia)).
  rewrite (HS _ (op ++ inn)); [reflexivity| |exact Q1]. rewrite app_length, Lo, Lin. lia.
Qed.
End HmacProof.
Lemma gs_kdf_ok : forall key label seed, isbytes key -> isbytes label -> isbytes seed ->
  (N.of_nat (length key) < 2 ^ 61)%N -> (N.of_nat (length label + length seed) < 2 ^ 60)%N ->
  gs_kdf key label seed = kdf_spec key label seed.
Proof.
  refine (kdf_code_ok gs_impl g256_new streebog256 (grel 32) g256_rel _ _ _ streebog256_len streebog256_bytes).
  - exact (grel_new 32 g256_new eq_refl).
  - intros d m p H Hp HL. apply (grel_write 32 d m p); [exact Hp| |exact H]. rewrite app_length. lia.
  - intros d m HL H. exact (gs_sum_ok d m HL H).
Qed.
Lemma kdf_len : forall k l s, length (kdf_spec k l s) = 32.
Proof. intros. unfold kdf_spec, hmac_spec. apply streebog256_len. Qed.
Lemma kdf_bytes : forall k l s, isbytes k -> isbytes l -> isbytes s -> isbytes (kdf_spec k l s).
Proof.
  intros k l s Hk Hl Hs. unfold kdf_spec, hmac_spec. cbv zeta. set (kk := if _ <? _ then _ else _).
  assert (Bk : isbytes (kk ++ zeros (64 - length kk))).
  { apply isbytes_app. split; [unfold kk; destruct (_ <? _); [now apply streebog256_bytes|assumption]|apply zeros_isbytes]. }
  apply streebog256_bytes, isbytes_app. split; [now apply isbytes_xor_map|]. apply streebog256_bytes, isbytes_app. split; [now apply isbytes_xor_map|].
  repeat (apply isbytes_app; split); try assumption; repeat constructor.
Qed.
Opaque kdf_spec gs_kdf.
Lemma lv_bytes : forall k, isbytes (lv k) /\ length (lv k) = 6.
Proof. intros k. destruct k as [|[|[|k]]]; (split; [repeat constructor|reflexivity]). Qed.
Lemma kdf3 : forall root a b c, isbytes root -> (N.of_nat (length root) < 2 ^ 61)%N -> isbytes a -> isbytes b -> isbytes c ->
  length a <= 8 -> length b <= 8 -> length c <= 8 ->
  gs_kdf (gs_kdf (gs_kdf root (lv 1) a) (lv 2) b) (lv 3) c = kdf_spec (kdf_spec (kdf_spec root (lv 1) a) (lv 2) b) (lv 3) c
  /\ length (kdf_spec (kdf_spec (kdf_spec root (lv 1) a) (lv 2) b) (lv 3) c) = 32.
Proof.
  intros root a b c Hr HB Ha Hb Hc La Lb Lc.
  assert (B50 : (100 < 2 ^ 60)%N) by reflexivity. assert (B51 : (100 < 2 ^ 61)%N) by reflexivity.
  destruct (lv_bytes 1) as [V1 L1]. destruct (lv_bytes 2) as [V2 L2]. destruct (lv_bytes 3) as [V3 L3].
  rewrite (gs_kdf_ok root) by (first [assumption | rewrite L1; lia]).
  pose proof (kdf_bytes root (lv 1) a Hr V1 Ha) as Bk1. pose proof (kdf_len root (lv 1) a) as Lk1.
  rewrite (gs_kdf_ok (kdf_spec root (lv 1) a)) by (first [assumption | rewrite Lk1; lia | rewrite L2; lia]).
  pose proof (kdf_bytes _ (lv 2) b Bk1 V2 Hb) as Bk2. pose proof (kdf_len (kdf_spec root (lv 1) a) (lv 2) b) as Lk2.
  rewrite (gs_kdf_ok (kdf_spec _ (lv 2) b)) by (first [assumption | rewrite Lk2; lia | rewrite L3; lia]).
  split; [reflexivity|apply kdf_len].
Qed.
