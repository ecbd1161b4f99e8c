(** PropMakwa.v -- C47, C48, C49, C75, C76, C77, C78: makwa password hashing. *)
From Coq Require Import String List NArith ZArith Znumtheory Arith Lia Bool.
From Verif Require Import Base Words Refine Makwa MakwaP Fermat MakwaR SpecSm3 Sm3Rand.
Import ListNotations.
Local Open Scope nat_scope.

(** ** C47: the base64 codec *)
(** The encoder is RFC 4648 base64 without padding characters, for every byte string. *)
Theorem C47_b64_encode : forall b, isbytes b -> b64Encode b = rfc_base64 b.
Proof. exact b64Encode_ok. Qed.
(** The decoder accepts exactly the strings over the alphabet whose length is not 1 mod 4, and returns their
    bytes (left-over bits of the last group are ignored, whatever they are). *)
Theorem C47_b64_decode_iff : forall s out, b64Decode s = Some out <->
  exists ds, Forall2 digit_char s ds /\ Datatypes.length s mod 4 <> 1 /\ out = rfc_unbase64 ds.
Proof.
  intros s out. unfold b64Decode. destruct (digits_dec s) as [[ds HF]|HN].
  - rewrite (b64_dec_loop_ok s ds [] HF). cbn [app]. split.
    + intros E. exists ds. split; [exact HF|]. destruct (Nat.eqb_spec (Datatypes.length s mod 4) 1) as [K|K]; [discriminate|]. split; [exact K|]. congruence.
    + intros [ds' [HF' [HL ->]]]. apply Nat.eqb_neq in HL. rewrite HL. rewrite (digit_char_fun s ds ds' HF HF'). reflexivity.
  - rewrite (b64_dec_loop_none s _ _ _ HN). split; [discriminate|]. intros [ds [HF _]]. destruct HN as [c [Hc Hn]].
    exfalso. clear - HF Hc Hn. induction HF as [|x d s ds Hd HF IH]; [destruct Hc|]. destruct Hc as [->|Hc]; [exact (Hn d Hd)|now apply IH].
Qed.
Theorem C47_b64_roundtrip : forall b, isbytes b -> b64Decode (b64Encode b) = Some b.
Proof. exact b64_roundtrip. Qed.
Theorem C47_b64_rejects_foreign : forall s c, In c s -> ~ In c rfc_alphabet -> b64Decode s = None.
Proof.
  intros s c Hc Hn. apply b64_dec_loop_none. exists c. split; [exact Hc|]. intros d [Hd E]. apply Hn. rewrite <- E. apply nth_In.
  change (Datatypes.length rfc_alphabet) with 64. lia.
Qed.
Example C47_nonvacuous : b64Encode [0; 1; 2; 253; 254]%N <> [] /\ b64Decode [65; 43; 47; 95]%N = None /\
  b64Decode [65; 65]%N = b64Decode [65; 66]%N /\ b64Decode [65; 65]%N = Some [0]%N.
Proof. vm_compute. repeat split; discriminate. Qed.

(** ** C48: textual form *)
(** MarshalText succeeds exactly when the low 32 bits of the work factor are 2^j or 3*2^j (2 <= value). *)
Theorem C48_marshal_ok_iff : forall d, MarshalText d <> None <->
  exists m j, (m = 2 \/ m = 3)%N /\ u32_of_int (dWorkFactor d) = (m * 2 ^ j)%N.
Proof.
  intros d. assert (B : (u32_of_int (dWorkFactor d) < 4294967296)%N).
  { unfold u32_of_int. pose proof (Z.mod_pos_bound (dWorkFactor d) 4294967296 ltac:(lia)). lia. }
  unfold MarshalText. cbv zeta. split.
  - destruct (wfMant (u32_of_int (dWorkFactor d))) as [[m j]|] eqn:E; [|intros K; now contradict K]. intros _. exists m, j. now apply wfMant_sound.
  - intros [m [j [Hm Hj]]]. rewrite Hj in *. rewrite (wfMant_complete m j Hm B). discriminate.
Qed.
(** The round trip restores everything when the work factor is a power of two, or 3. *)
(** The text: modulus identifier, kind letter, mantissa digit and two exponent digits, salt, hash. *)
Theorem C48_marshal_text : forall d m j, (m = 2 \/ m = 3)%N -> u32_of_int (dWorkFactor d) = (m * 2 ^ j)%N ->
  (j < 32)%N /\ MarshalText d = Some (b64Encode (dModulusID d) ++ [95]%N ++
    [match dPreHash d, (0 <? dPostHashLen d)%Z with true, true => 98 | true, false => 114 | false, true => 115 | false, false => 110 end;
     48 + m; 48 + j / 10; 48 + j mod 10]%N ++ [95]%N ++ b64Encode (dSalt d) ++ [95]%N ++ b64Encode (dHash d)).
Proof.
  intros d m j Hm Hj. assert (B : (m * 2 ^ j < 4294967296)%N).
  { rewrite <- Hj. unfold u32_of_int. pose proof (Z.mod_pos_bound (dWorkFactor d) 4294967296 ltac:(lia)). lia. }
  assert (L : (j < 32)%N).
  { destruct (N.lt_ge_cases j 32) as [X|X]; [exact X|]. exfalso. assert (2 ^ 32 <= 2 ^ j)%N by (apply N.pow_le_mono_r; lia).
    change (2 ^ 32)%N with 4294967296%N in *. destruct Hm; subst m; lia. }
  split; [exact L|]. unfold MarshalText. rewrite Hj, (wfMant_complete m j Hm B). cbv zeta.
  assert (T : forallb (fun c => if list_eq_dec N.eq_dec (dec (fst c) ++ dec02 (snd c)) [48 + fst c; 48 + snd c / 10; 48 + snd c mod 10]%N then true else false)
                (flat_map (fun i => [(2, N.of_nat i); (3, N.of_nat i)]%N) (seq 0 32)) = true) by (vm_compute; reflexivity).
  rewrite forallb_forall in T. specialize (T (m, j)). cbn [fst snd] in T.
  destruct (list_eq_dec N.eq_dec (dec m ++ dec02 j) [48 + m; 48 + j / 10; 48 + j mod 10]%N) as [E|E].
  - rewrite (app_assoc (dec m)), E. destruct (dPreHash d), (0 <? dPostHashLen d)%Z; reflexivity.
  - exfalso. assert (false = true); [|discriminate]. apply T. apply in_flat_map. exists (N.to_nat j). split; [apply in_seq; lia|].
    rewrite N2Nat.id. destruct Hm; subst m; [left|right; left]; reflexivity.
Qed.
Theorem C48_roundtrip_power_of_two : forall d0 d j, isbytes (dModulusID d) -> isbytes (dSalt d) -> isbytes (dHash d) ->
  ((exists i, (0 <= i < 31)%Z /\ j = i /\ dWorkFactor d = 2 ^ (i + 1)) \/ dWorkFactor d = 3)%Z ->
  (dPostHashLen d = 0 \/ (0 < dPostHashLen d /\ dPostHashLen d = Z.of_nat (Datatypes.length (dHash d))))%Z ->
  exists t, MarshalText d = Some t /\ UnmarshalText d0 t = Ok d.
Proof.
  intros d0 d j Hi Hs Hh Hw Hp.
  assert (P : (if (0 <? dPostHashLen d)%Z then Z.of_nat (Datatypes.length (dHash d)) else 0%Z) = dPostHashLen d).
  { destruct Hp as [E|[E1 E2]]; [rewrite E; reflexivity|]. apply Z.ltb_lt in E1. rewrite E1. now symmetry. }
  destruct Hw as [[i [Bi [_ Ei]]]|E3].
  - assert (B : (2 * 2 ^ Z.to_N i < 4294967296)%N). { rewrite <- N.pow_succ_r'. apply (N.pow_lt_mono_r_iff 2 _ 32); lia. }
    assert (E : u32_of_int (dWorkFactor d) = (2 * 2 ^ Z.to_N i)%N).
    { rewrite Ei. unfold u32_of_int. apply N2Z.inj. rewrite Z2N.id by (apply Z.mod_pos_bound; lia).
      assert (EE : (2 ^ (i + 1))%Z = Z.of_N (2 * 2 ^ Z.to_N i)). { rewrite N2Z.inj_mul, N2Z.inj_pow, Z2N.id by lia. change (Z.of_N 2) with 2%Z. rewrite Z.pow_add_r by lia. lia. }
      rewrite EE. apply Z.mod_small. lia. }
    destruct (unmarshal_marshal d0 d 2 (Z.to_N i) Hi Hs Hh (or_introl eq_refl) B E) as [t [T1 T2]]. exists t. split; [exact T1|]. rewrite T2, P. f_equal.
    rewrite Z2N.id by lia. change (Z.of_N 2) with 2%Z. rewrite <- Ei. destruct d; reflexivity.
  - destruct (unmarshal_marshal d0 d 3 0 Hi Hs Hh (or_intror eq_refl) ltac:(reflexivity) ltac:(rewrite E3; reflexivity)) as [t [T1 T2]].
    exists t. split; [exact T1|]. rewrite T2, P. f_equal. change (Z.of_N 3 ^ (Z.of_N 0 + 1))%Z with 3%Z. rewrite <- E3. destruct d; reflexivity.
Qed.
(** For every other encodable work factor, 3*2^j with j > 0, the text is decoded to 3^(j+1): never the
    original.  (All other fields are restored.) *)
Theorem C48_roundtrip_three_refuted : forall d0 d j, isbytes (dModulusID d) -> isbytes (dSalt d) -> isbytes (dHash d) ->
  (0 < j <= 30)%Z -> dWorkFactor d = (3 * 2 ^ j)%Z ->
  exists t d', MarshalText d = Some t /\ UnmarshalText d0 t = Ok d' /\ dWorkFactor d' = (3 ^ (j + 1))%Z /\ dWorkFactor d' <> dWorkFactor d.
Proof.
  intros d0 d j Hi Hs Hh Hj Hw.
  assert (B : (3 * 2 ^ Z.to_N j < 4294967296)%N). { assert (2 ^ Z.to_N j <= 2 ^ 30)%N by (apply N.pow_le_mono_r; lia). change (2 ^ 30)%N with 1073741824%N in *. lia. }
  assert (E : u32_of_int (dWorkFactor d) = (3 * 2 ^ Z.to_N j)%N).
  { rewrite Hw. unfold u32_of_int. apply N2Z.inj. rewrite Z2N.id by (apply Z.mod_pos_bound; lia).
    assert (EE : (3 * 2 ^ j)%Z = Z.of_N (3 * 2 ^ Z.to_N j)). { rewrite N2Z.inj_mul, N2Z.inj_pow, Z2N.id by lia. reflexivity. }
    rewrite EE. apply Z.mod_small. lia. }
  destruct (unmarshal_marshal d0 d 3 (Z.to_N j) Hi Hs Hh (or_intror eq_refl) B E) as [t [T1 T2]]. eexists. eexists. split; [exact T1|]. split; [exact T2|].
  cbn [dWorkFactor]. rewrite Z2N.id by lia. change (Z.of_N 3) with 3%Z. split; [reflexivity|]. rewrite Hw, Z.pow_add_r, Z.pow_1_r by lia.
  assert (2 ^ j < 3 ^ j)%Z by (apply Z.pow_lt_mono_l; lia). lia.
Qed.
Example C48_nonvacuous : exists t, MarshalText (mkdigest [1; 2]%N [3; 4; 5]%N [6]%N 12 true 3) = Some t /\
  UnmarshalText (mkdigest [] [] [] 0 false 0) t = Ok (mkdigest [1; 2]%N [3; 4; 5]%N [6]%N 27 true 3).
Proof. eexists. split; [reflexivity|]. vm_compute. reflexivity. Qed.

(** ** C76: malformed text *)
Theorem C76_unmarshal_panics_refuted : forall d0, UnmarshalText d0 [] = Panic.
Proof. intros. reflexivity. Qed.
(** Every text whose first field decodes and that has no underscore panics. *)
Theorem C76_unmarshal_no_separator : forall d0 t, b64Decode t <> None -> UnmarshalText d0 t = Panic.
Proof.
  intros d0 t Ht. assert (Hn : ~ In underscore t).
  { intros K. apply Ht. apply (C47_b64_rejects_foreign t underscore K). vm_compute. intros F. repeat (destruct F as [F|F]; [discriminate F|]). destruct F. }
  unfold UnmarshalText. rewrite (split_nosep _ t [] Hn). cbv zeta. cbn [app nth nth_error]. destruct (b64Decode t); [reflexivity|now contradict Ht].
Qed.
(** It never panics when there are at least four fields and the second has at least two characters. *)
Theorem C76_unmarshal_no_panic : forall d0 t, 4 <= Datatypes.length (split_at underscore [] t) ->
  2 <= Datatypes.length (nth 1 (split_at underscore [] t) []) -> UnmarshalText d0 t <> Panic.
Proof.
  intros d0 t H4 H2. unfold UnmarshalText. cbv zeta. destruct (split_at underscore [] t) as [|p0 [|p1 [|p2 [|p3 ps]]]]; cbn [Datatypes.length] in H4; try lia.
  cbn [nth nth_error] in *. destruct (b64Decode p0); [|discriminate]. apply Nat.ltb_ge in H2. rewrite H2.
  destruct (atoi (slice p1 1 2)); [|discriminate]. destruct (atoi (skipn 2 p1)); [|discriminate]. destruct (b64Decode p2); [|discriminate]. destruct (b64Decode p3); [|discriminate].
  destruct (at_ p1 0 =? 98)%N; [discriminate|]. destruct (at_ p1 0 =? 114)%N; [discriminate|]. destruct (at_ p1 0 =? 115)%N; [discriminate|]. destruct (at_ p1 0 =? 110)%N; discriminate.
Qed.

(** ** Hash functions: what is required of params.Hash *)
Definition hash_fn (H : list N -> list N) (r : nat) : Prop := 0 < r /\ forall m, Datatypes.length (H m) = r /\ isbytes (H m).

(** ** C49: Extend *)
(** For every hash function, modulus, password, salt and work factors wf1 <= wf2, extending the digest for
    wf1 gives the number that Hash computes for wf2; the byte string is the one Hash returns with its leading
    zero bytes removed. *)
Theorem C49_extend_value : forall H bs r n pw salt wf1 wf2 pre d, hash_fn H r -> isbytes pw -> (0 <= wf1 <= wf2)%Z ->
  mk_hash H bs r n pw salt wf1 pre 0 = Some d -> wfMant (u32_of_int wf2) <> None ->
  exists e e', Extend H bs r n d wf2 = Some e /\ mk_hash H bs r n pw salt wf2 pre 0 = Some e' /\
    be_val (dHash e) = be_val (dHash e') /\ dHash e' = zeros (byte_len n - Datatypes.length (dHash e)) ++ dHash e /\
    (dHash e <> [] -> at_ (dHash e) 0 <> 0%N) /\
    dModulusID e = dModulusID e' /\ dSalt e = dSalt e' /\ dWorkFactor e = dWorkFactor e' /\ dPreHash e = dPreHash e' /\ dPostHashLen e = dPostHashLen e'.
Proof.
  intros H bs r n pw salt wf1 wf2 pre d [Hr HH] Hp Hw E V.
  assert (HL : forall m, Datatypes.length (H m) = r) by (intros; apply HH). assert (HB : forall m, isbytes (H m)) by (intros; apply HH).
  apply (mk_hash_ok H bs r Hr HB n pw salt wf1 pre 0 Hp ltac:(lia)) in E. destruct E as (_ & F & Ed). cbv zeta in Ed. cbn [Z.ltb Z.compare] in Ed.
  destruct (n_ge n (proj1 F)) as [N0 _].
  set (x0 := be_val (mk_input H bs r n (prehashed H bs r pre pw) salt)) in *.
  set (z1 := (x0 ^ 2 ^ Z.to_N (wf1 + 1) mod n)%N) in *. set (z2 := (x0 ^ 2 ^ Z.to_N (wf2 + 1) mod n)%N).
  assert (L1 : (z1 < n)%N) by (now apply N.mod_lt). assert (L2 : (z2 < n)%N) by (now apply N.mod_lt).
  assert (S1 : squarings (Z.to_nat (wf1 + 1)) n x0 = z1).
  { replace (Z.to_nat (wf1 + 1)) with (S (Z.to_nat wf1)) by lia. rewrite squarings_ok by exact N0. unfold z1. do 3 f_equal. lia. }
  assert (S2 : squarings (Z.to_nat (wf2 + 1)) n x0 = z2).
  { replace (Z.to_nat (wf2 + 1)) with (S (Z.to_nat wf2)) by lia. rewrite squarings_ok by exact N0. unfold z2. do 3 f_equal. lia. }
  assert (S12 : squarings (Z.to_nat (wf2 - wf1)) n z1 = z2).
  { rewrite <- S1, <- squarings_add, <- S2. f_equal. lia. }
  assert (Lb : forall z, (z < n)%N -> (z < 256 ^ N.of_nat (byte_len n))%N) by (intros z Hz; eapply N.lt_trans; [exact Hz|apply byte_len_lt]).
  exists (mkdigest (ModulusID H bs r n) (big_bytes z2) salt wf2 pre 0). eexists. split.
  { unfold Extend. rewrite Ed. cbn [dModulusID dPostHashLen dHash dSalt dWorkFactor dPreHash]. destruct (list_eq_dec N.eq_dec (ModulusID H bs r n) (ModulusID H bs r n)) as [_|K]; [|now contradict K].
    cbn [Z.ltb Z.compare]. cbv zeta. rewrite be_val_be_small by (now apply Lb). rewrite S12. reflexivity. }
  split. { apply (mk_hash_ok H bs r Hr HB n pw salt wf2 pre 0 Hp ltac:(lia)). split; [exact V|]. split; [exact F|]. cbv zeta. cbn [Z.ltb Z.compare]. reflexivity. }
  cbn [dModulusID dPostHashLen dHash dSalt dWorkFactor dPreHash]. fold x0. fold z2. rewrite big_bytes_val, be_val_be_small by (now apply Lb).
  split; [reflexivity|]. split; [rewrite big_bytes_len; apply big_bytes_strip; now apply Lb|]. split; [|repeat split].
  intros Hne K. unfold big_bytes in *. pose proof (byte_len_lt z2) as Bz. destruct (byte_len z2) as [|l] eqn:El; [now contradict Hne|].
  assert (Z2lt : (z2 < 256 ^ N.of_nat l)%N).
  { pose proof (be_val_be_small (S l) z2 Bz) as Ev. pose proof (be_bytes_isbytes (S l) z2) as Hb. pose proof (be_bytes_length (S l) z2) as Lb'.
    destruct (be_bytes (S l) z2) as [|b0 bt]; [discriminate|]. unfold at_ in K. cbn [nth] in K. rewrite K in Ev. change (0%N :: bt) with (zeros 1 ++ bt) in Ev. rewrite be_val_zeros_app in Ev.
    rewrite <- Ev. injection Lb' as <-. apply be_val_lt. exact (Forall_inv_tail Hb). }
  apply byte_len_le in Z2lt. rewrite El in Z2lt. lia.
Qed.
Opaque wfMant mk_hash kdf.
(** Hence CheckPassword accepts the extended digest exactly when the digest that Hash computes has no leading
    zero byte. *)
Theorem C49_extend_check_iff : forall H bs r n pw salt wf1 wf2 pre d e e', hash_fn H r -> isbytes pw -> (0 <= wf1 <= wf2)%Z ->
  mk_hash H bs r n pw salt wf1 pre 0 = Some d -> mk_hash H bs r n pw salt wf2 pre 0 = Some e' -> Extend H bs r n d wf2 = Some e ->
  (CheckPassword H bs r n e pw = Accept <-> at_ (dHash e') 0 <> 0%N) /\
  (CheckPassword H bs r n e pw = BadPassword <-> at_ (dHash e') 0 = 0%N).
Proof.
  intros H bs r n pw salt wf1 wf2 pre d e e' HF Hp Hw Ed Ee Ex.
  assert (V : wfMant (u32_of_int wf2) <> None).
  { destruct HF as [Hr HH]. apply (mk_hash_ok H bs r Hr (fun m => proj2 (HH m)) n pw salt wf2 pre 0 Hp ltac:(lia)) in Ee. apply Ee. }
  destruct (C49_extend_value H bs r n pw salt wf1 wf2 pre d HF Hp Hw Ed V) as (f & f' & E1 & E2 & Ev & Ez & Enz & Fi & Fs & Fw & Fp & Fo).
  rewrite Ex in E1. injection E1 as <-. rewrite Ee in E2. injection E2 as <-.
  assert (LE : Datatypes.length (dHash e') = byte_len n /\ 0 < byte_len n /\ dModulusID e' = ModulusID H bs r n /\ dSalt e' = salt /\ dWorkFactor e' = wf2 /\ dPreHash e' = pre /\ dPostHashLen e' = 0%Z).
  { destruct HF as [Hr HH]. assert (HL : forall m, Datatypes.length (H m) = r) by (intros; apply HH). assert (HB : forall m, isbytes (H m)) by (intros; apply HH).
    apply (mk_hash_ok H bs r Hr HB n pw salt wf2 pre 0 Hp ltac:(lia)) in Ee. destruct Ee as (_ & F & ->). cbv zeta. cbn [dHash Z.ltb Z.compare dModulusID dSalt dWorkFactor dPreHash dPostHashLen]. rewrite be_bytes_length.
    split; [reflexivity|]. split; [|repeat split]. destruct (n_ge n (proj1 F)) as [N0 _]. pose proof (byte_len_lt n) as B. destruct (byte_len n); [change (256 ^ N.of_nat 0)%N with 1%N in B; lia|lia]. }
  destruct LE as (LE & LP & M1 & M2 & M3 & M4 & M5).
  assert (CP : CheckPassword H bs r n e pw = if list_eq_dec N.eq_dec (dHash e) (dHash e') then Accept else BadPassword).
  { unfold CheckPassword. rewrite Fi, Fs, Fw, Fp, Fo, M1, M2, M3, M4, M5. destruct (list_eq_dec N.eq_dec (ModulusID H bs r n) (ModulusID H bs r n)) as [_|K]; [|now contradict K]. rewrite Ee. reflexivity. }
  assert (IFF : dHash e = dHash e' <-> at_ (dHash e') 0 <> 0%N).
  { split.
    - intros Eq. rewrite <- Eq. apply Enz. intros K. rewrite Eq in K. rewrite K in LE. cbn [Datatypes.length] in LE. lia.
    - intros Nz. rewrite Ez. destruct (byte_len n - Datatypes.length (dHash e)) as [|k]; [reflexivity|]. exfalso. apply Nz. rewrite Ez. reflexivity. }
  rewrite CP. destruct (list_eq_dec N.eq_dec (dHash e) (dHash e')) as [Eq|Ne].
  - split; split; auto; [intros _; now apply IFF|discriminate|intros K; apply IFF in Eq; contradiction].
  - split; split; auto; [discriminate|intros K; apply IFF in K; contradiction|intros _]. destruct (N.eq_dec (at_ (dHash e') 0) 0) as [K|K]; [exact K|apply IFF in K; contradiction].
Qed.
(** ** C78: CheckPassword *)
(** CheckPassword accepts exactly when hashing the password with the digest's own parameters gives its hash
    (and the modulus matches); in particular it accepts the digest Hash returned. *)
Theorem C78_check_iff : forall H bs r n d pw, CheckPassword H bs r n d pw = Accept <->
  dModulusID d = ModulusID H bs r n /\
  exists e, mk_hash H bs r n pw (dSalt d) (dWorkFactor d) (dPreHash d) (dPostHashLen d) = Some e /\ dHash e = dHash d.
Proof.
  intros H bs r n d pw. unfold CheckPassword. destruct (list_eq_dec N.eq_dec (dModulusID d) (ModulusID H bs r n)) as [EM|EM]; [|split; [discriminate|intros [K _]; contradiction]].
  destruct (mk_hash H bs r n pw (dSalt d) (dWorkFactor d) (dPreHash d) (dPostHashLen d)) as [e|]; [|split; [discriminate|intros (_ & e & K & _); discriminate]].
  destruct (list_eq_dec N.eq_dec (dHash d) (dHash e)) as [EH|EH].
  - split; [|reflexivity]. intros _. split; [exact EM|]. exists e. split; [reflexivity|now symmetry].
  - split; [discriminate|]. intros (_ & e' & K & K2). injection K as <-. congruence.
Qed.
Theorem C78_check_accepts_hash : forall H bs r n pw salt wf pre post d, hash_fn H r -> isbytes pw -> (0 <= wf)%Z ->
  mk_hash H bs r n pw salt wf pre post = Some d -> CheckPassword H bs r n d pw = Accept.
Proof.
  intros H bs r n pw salt wf pre post d [Hr HH] Hp Hw E. apply C78_check_iff. pose proof E as K. apply (mk_hash_ok H bs r Hr (fun m => proj2 (HH m)) n pw salt wf pre post Hp Hw) in K.
  destruct K as (_ & _ & K). cbv zeta in K. assert (M : dModulusID d = ModulusID H bs r n /\ dSalt d = salt /\ dWorkFactor d = wf /\ dPreHash d = pre /\ dPostHashLen d = post) by (rewrite K; repeat split).
  destruct M as (M1 & -> & -> & -> & ->). split; [exact M1|]. exists d. auto.
Qed.
(** Hash fails exactly on an unencodable work factor, a modulus below 1280 bits (160 whole bytes) or a password
    (after pre-hashing) longer than 255 bytes or than the modulus length minus 32. *)
Theorem C78_hash_error_iff : forall H bs r n pw salt wf pre post, hash_fn H r -> isbytes pw -> (0 <= wf)%Z ->
  (mk_hash H bs r n pw salt wf pre post = None <->
   (forall m j, (m = 2 \/ m = 3)%N -> u32_of_int wf <> (m * 2 ^ j)%N) \/ N.to_nat (N.size n) / 8 < 160 \/
   255 < Datatypes.length (if pre then kdf H bs r pw 64 else pw) \/ N.to_nat (N.size n) / 8 - 32 < Datatypes.length (if pre then kdf H bs r pw 64 else pw)).
Proof.
  intros H bs r n pw salt wf pre post [Hr HH] Hp Hw. fold (prehashed H bs r pre pw).
  assert (B : (u32_of_int wf < 4294967296)%N).
  { unfold u32_of_int. pose proof (Z.mod_pos_bound wf 4294967296 ltac:(lia)). lia. }
  assert (WM : wfMant (u32_of_int wf) = None <-> forall m j, (m = 2 \/ m = 3)%N -> u32_of_int wf <> (m * 2 ^ j)%N).
  { destruct (wfMant (u32_of_int wf)) as [[m j]|] eqn:E.
    - split; [discriminate|]. intros K. apply wfMant_sound in E; [|exact B]. destruct E as [E1 E2]. exfalso. exact (K m j E1 E2).
    - split; [|reflexivity]. intros _ m j Hm K. rewrite K in E, B. rewrite (wfMant_complete m j Hm B) in E. discriminate. }
  destruct (mk_hash H bs r n pw salt wf pre post) as [d|] eqn:E.
  - apply (mk_hash_ok H bs r Hr (fun m => proj2 (HH m)) n pw salt wf pre post Hp Hw) in E. destruct E as (V & (F1 & F2 & F3) & _).
    split; [discriminate|]. intros [K|[K|[K|K]]]; [apply WM in K; contradiction|lia|lia|lia].
  - split; [|reflexivity]. intros _. destruct (wfMant (u32_of_int wf)) as [c|] eqn:EW; [|left; now apply WM]. right.
    destruct (Nat.lt_ge_cases (N.to_nat (N.size n) / 8) 160) as [K1|K1]; [now left|right].
    destruct (Nat.lt_ge_cases 255 (Datatypes.length (prehashed H bs r pre pw))) as [K2|K2]; [now left|right].
    destruct (Nat.lt_ge_cases (N.to_nat (N.size n) / 8 - 32) (Datatypes.length (prehashed H bs r pre pw))) as [K3|K3]; [exact K3|exfalso].
    assert (K : exists d, mk_hash H bs r n pw salt wf pre post = Some d).
    { eexists. apply (mk_hash_ok H bs r Hr (fun m => proj2 (HH m)) n pw salt wf pre post Hp Hw). split; [rewrite EW; discriminate|]. split; [split; [exact K1|split; [exact K2|exact K3]]|]. cbv zeta. reflexivity. }
    destruct K as [d K]. rewrite K in E. discriminate.
Qed.

(** ** C49, continued *)
(** This happens: SM3, a 1280-bit Blum modulus, password "makwa", salt 1d 00, extended from 2 to 3. *)
Definition ext_n : N := 0x9881c67c7b54f09be102311725527597f0b8318c3407d31f625a5b5141db377130cd41d8dc9ba1e5f32df29ec766ecde2fa4f28717583ab4ac88bf7916c609d4fa9f17048e57196468342f1d506cf0ad8276e69fbcb2cb788c77fdee0605ec7f20929855f1e4f463afe05cd902cbf6220adf47d7ee1662d796a73cfb24c565579e95f3e8b9a76d29fd48d01be883bf1d5e7d7e7f6feb68e5851d8e0b17916ce9.
Definition ext_pw : list N := [109; 97; 107; 119; 97]%N.
Lemma sm3_is_hash : hash_fn sm3_spec 32.
Proof.
  split; [lia|]. intros m. split; [apply sm3_spec_len|]. unfold sm3_spec. apply Forall_concat. apply Forall_forall. intros l Hl. apply in_map_iff in Hl. destruct Hl as [x [<- _]]. apply be_bytes_isbytes.
Qed.
Transparent wfMant mk_hash kdf sm3_spec.
Lemma ext_leading_zero : match mk_hash sm3_spec 64 32 ext_n ext_pw [29; 0]%N 3 false 0 with Some e => (at_ (dHash e) 0 =? 0)%N | None => false end = true.
Proof. vm_compute. reflexivity. Qed.
Opaque wfMant mk_hash kdf sm3_spec.
Theorem C49_extend_refuted : exists n pw salt d e, isbytes pw /\ mk_hash sm3_spec 64 32 n pw salt 2 false 0 = Some d /\
  CheckPassword sm3_spec 64 32 n d pw = Accept /\ Extend sm3_spec 64 32 n d 3 = Some e /\ CheckPassword sm3_spec 64 32 n e pw = BadPassword.
Proof.
  pose proof ext_leading_zero as Z0. destruct sm3_is_hash as [Hr HH]. pose proof (fun m => proj2 (HH m)) as HB. assert (Hp : isbytes ext_pw) by (repeat constructor).
  destruct (mk_hash sm3_spec 64 32 ext_n ext_pw [29; 0]%N 3 false 0) as [e'|] eqn:E3; [|discriminate]. apply N.eqb_eq in Z0.
  pose proof E3 as E3'. apply (mk_hash_ok sm3_spec 64 32 Hr HB ext_n ext_pw [29; 0]%N 3 false 0 Hp ltac:(lia)) in E3'. destruct E3' as (_ & F & _).
  assert (V2 : wfMant (u32_of_int 2) <> None). { change (u32_of_int 2) with (2 * 2 ^ 0)%N. rewrite (wfMant_complete 2 0 (or_introl eq_refl)) by reflexivity. discriminate. }
  assert (V3 : wfMant (u32_of_int 3) <> None). { change (u32_of_int 3) with (3 * 2 ^ 0)%N. rewrite (wfMant_complete 3 0 (or_intror eq_refl)) by reflexivity. discriminate. }
  assert (E2 : exists d, mk_hash sm3_spec 64 32 ext_n ext_pw [29; 0]%N 2 false 0 = Some d).
  { eexists. apply (mk_hash_ok sm3_spec 64 32 Hr HB ext_n ext_pw [29; 0]%N 2 false 0 Hp ltac:(lia)). split; [exact V2|]. split; [exact F|]. cbv zeta. reflexivity. }
  destruct E2 as [d E2]. destruct (C49_extend_value sm3_spec 64 32 ext_n ext_pw [29; 0]%N 2 3 false d sm3_is_hash Hp ltac:(lia) E2 V3) as (e & _ & Ex & _).
  exists ext_n, ext_pw, [29; 0]%N, d, e. split; [exact Hp|]. split; [exact E2|]. split; [|split; [exact Ex|]].
  - exact (C78_check_accepts_hash sm3_spec 64 32 ext_n ext_pw [29; 0]%N 2 false 0 d sm3_is_hash Hp ltac:(lia) E2).
  - apply (C49_extend_check_iff sm3_spec 64 32 ext_n ext_pw [29; 0]%N 2 3 false d e e' sm3_is_hash Hp ltac:(lia) E2 E3 Ex). exact Z0.
Qed.

(** ** C77: invalid work factors are rejected *)
Transparent mk_hash.
(** The check looks at the low 32 bits only: for workFactor = 2 - 2^32 the loop runs zero times and the
    "digest" of every admissible password ends in the password itself. *)
Theorem C77_negative_work_factor_refuted : forall H bs r n pw salt, hash_fn H r -> isbytes pw ->
  N.to_nat (N.size n) mod 8 = 0 -> 160 <= N.to_nat (N.size n) / 8 -> Datatypes.length pw <= 255 -> Datatypes.length pw <= N.to_nat (N.size n) / 8 - 32 ->
  exists d pre, mk_hash H bs r n pw salt (2 - 2 ^ 32) false 0 = Some d /\ dHash d = pre ++ pw ++ [N.of_nat (Datatypes.length pw)].
Proof.
  intros H bs r n pw salt [Hr HH] Hp M8 F1 F2 F3. assert (F : fits n pw) by (split; [exact F1|split; [exact F2|exact F3]]).
  pose proof (fun m => proj1 (HH m)) as HL. pose proof (fun m => proj2 (HH m)) as HB.
  assert (EW : wfMant (u32_of_int (2 - 2 ^ 32)) = Some (2, 0)%N) by reflexivity.
  unfold mk_hash. rewrite EW. cbv zeta. pose proof (proj1 (fits_dec n pw) F) as [G1 G2]. rewrite G1, G2.
  change ([0%N] ++ kdf H bs r (salt ++ pw ++ [N.of_nat (Datatypes.length pw)]) (N.to_nat (N.size n) / 8 - 2 - Datatypes.length pw) ++ pw ++ [N.of_nat (Datatypes.length pw)]) with (mk_input H bs r n pw salt).
  change (Z.to_nat (2 - 2 ^ 32 + 1)) with 0. change (0 <? 0)%Z with false. cbv iota. eexists. exists ([0%N] ++ kdf H bs r (salt ++ pw ++ [N.of_nat (Datatypes.length pw)]) (N.to_nat (N.size n) / 8 - 2 - Datatypes.length pw)). split; [reflexivity|].
  cbn [dHash]. unfold squarings. cbn [Nat.iter]. pose proof (mk_input_lt H bs r Hr HL HB n pw salt F Hp) as LT.
  rewrite mk_pad_ok by (eapply N.lt_trans; [exact LT|apply byte_len_lt]).
  assert (BL : byte_len n = N.to_nat (N.size n) / 8).
  { unfold byte_len. pose proof (Nat.div_mod (N.to_nat (N.size n)) 8 ltac:(lia)) as D. rewrite D at 1. rewrite M8, Nat.add_0_r. rewrite Nat.mul_comm, Nat.div_add_l by lia. change (7 / 8) with 0. lia. }
  rewrite BL. rewrite (be_bytes_unique (mk_input H bs r n pw salt)); [unfold mk_input; cbv zeta; rewrite <- !app_assoc; reflexivity|exact (mk_input_bytes H bs r Hr HB n pw salt F Hp)|now apply mk_input_len|reflexivity].
Qed.
Opaque mk_hash.

(** ** C75: Recover *)
Lemma first_some_in : forall A B (f : A -> option B) l x, In x l -> f x <> None -> exists y v, In v l /\ f v = Some y /\ first_some f l = Some y.
Proof.
  induction l as [|a l IH]; intros x Hx Hf; [destruct Hx|]. cbn [first_some]. destruct (f a) as [y|] eqn:E.
  - exists y, a. split; [now left|]. split; [exact E|reflexivity].
  - destruct Hx as [->|Hx]; [contradiction|]. destruct (IH x Hx Hf) as (y & v & Hv & E1 & E2). exists y, v. split; [now right|]. auto.
Qed.
Theorem C75_recover : forall H bs r p q iq n pw salt wf d, hash_fn H r ->
  prime (Z.of_N p) -> prime (Z.of_N q) -> p <> q -> (p mod 4 = 3)%N -> (q mod 4 = 3)%N -> n = (p * q)%N -> ((iq * q) mod p = 1)%N ->
  N.to_nat (N.size n) mod 8 = 0 -> isbytes pw -> (0 <= wf)%Z ->
  mk_hash H bs r n pw salt wf false 0 = Some d ->
  exists pw', Recover H bs r n p q iq d = Some pw' /\ isbytes pw' /\ mk_hash H bs r n pw' salt wf false 0 = Some d.
Proof.
  intros H bs r p q iq n pw salt wf d [Hr HH] Pp Pq Pne P4 Q4 En Iq M8 Hp Hw E.
  pose proof (fun m => proj1 (HH m)) as HL. pose proof (fun m => proj2 (HH m)) as HB.
  apply (mk_hash_ok H bs r Hr HB n pw salt wf false 0 Hp Hw) in E. destruct E as (V & F & Ed). cbv zeta in Ed. change (0 <? 0)%Z with false in Ed. cbv iota in Ed. unfold prehashed in *.
  destruct (n_ge n (proj1 F)) as [N0 _].
  assert (BL : byte_len n = N.to_nat (N.size n) / 8).
  { unfold byte_len. pose proof (Nat.div_mod (N.to_nat (N.size n)) 8 ltac:(lia)) as D. rewrite D at 1. rewrite M8, Nat.add_0_r. rewrite Nat.mul_comm, Nat.div_add_l by lia. change (7 / 8) with 0. lia. }
  set (x0 := be_val (mk_input H bs r n pw salt)) in *. set (y := (x0 ^ 2 ^ Z.to_N (wf + 1) mod n)%N) in *.
  assert (Ly : (y < n)%N) by (now apply N.mod_lt). assert (L0 : (x0 < n)%N) by (exact (mk_input_lt H bs r Hr HL HB n pw salt F Hp)).
  destruct (cands_ok p q iq n Pp Pq Pne P4 Q4 En Iq x0 wf y Hw L0 eq_refl) as [InX All].
  assert (ER : Recover H bs r n p q iq d = first_some (try_candidate H bs r n salt) (cands p q iq (Z.to_N (wf + 1)) y)).
  { unfold Recover. rewrite Ed. cbn [dPreHash dPostHashLen dModulusID dHash dSalt dWorkFactor]. change (false || (0 <? 0)%Z) with false. cbv iota.
    destruct (list_eq_dec N.eq_dec (ModulusID H bs r n) (ModulusID H bs r n)) as [_|K]; [|now contradict K]. cbv zeta. rewrite be_val_be_small by (eapply N.lt_trans; [exact Ly|apply byte_len_lt]). reflexivity. }
  (* what a successful candidate means *)
  assert (TC : forall v pw', (v < n)%N -> try_candidate H bs r n salt v = Some pw' -> isbytes pw' /\ fits n pw' /\ v = be_val (mk_input H bs r n pw' salt)).
  { intros v pw' Lv. unfold try_candidate. cbv zeta. rewrite mk_pad_ok by (eapply N.lt_trans; [exact Lv|apply byte_len_lt]). rewrite be_bytes_length.
    set (buf := be_bytes (byte_len n) v). assert (Bb : isbytes buf) by apply be_bytes_isbytes. assert (Lb : Datatypes.length buf = byte_len n) by apply be_bytes_length.
    assert (Ev : be_val buf = v) by (apply be_val_be_small; eapply N.lt_trans; [exact Lv|apply byte_len_lt]). clearbody buf.
    destruct (negb (at_ buf 0 =? 0)%N); [discriminate|]. set (u := N.to_nat (N.land (at_ buf (byte_len n - 1)) 255)). destruct (Nat.ltb_spec (byte_len n) (u + 32)) as [C|C]; [discriminate|].
    set (w := slice buf (byte_len n - u - 1) (byte_len n - 1)). destruct (list_eq_dec N.eq_dec _ buf) as [Eb|]; [|discriminate]. intros K. injection K as <-.
    assert (Lw : Datatypes.length w = u) by (unfold w, slice; rewrite firstn_length, skipn_length; lia).
    assert (Hu : u < 256). { unfold u. pose proof (w8_lt (at_ buf (byte_len n - 1))). unfold w8 in *. lia. }
    assert (Bw : isbytes w) by (unfold w, slice; apply Forall_firstn', isbytes_skipn, Bb).
    split; [exact Bw|]. split; [split; [exact (proj1 F)|split; lia]|]. rewrite <- Ev, <- Eb. unfold mk_input. cbv zeta. rewrite Lw, <- BL. reflexivity. }
  (* the hashed number itself is a successful candidate *)
  assert (T0 : try_candidate H bs r n salt x0 <> None).
  { unfold try_candidate. cbv zeta. rewrite mk_pad_ok by (eapply N.lt_trans; [exact L0|apply byte_len_lt]). rewrite be_bytes_length.
    assert (Eb : be_bytes (byte_len n) x0 = mk_input H bs r n pw salt).
    { apply be_bytes_unique; [exact (mk_input_bytes H bs r Hr HB n pw salt F Hp)|rewrite BL; now apply mk_input_len|reflexivity]. }
    rewrite Eb. pose proof (mk_input_len H bs r Hr HL n pw salt F) as Li. destruct F as (F1 & F2 & F3). rewrite <- BL in *.
    assert (A0 : at_ (mk_input H bs r n pw salt) 0 = 0%N) by reflexivity. rewrite A0. cbn [N.eqb negb].
    assert (Es : mk_input H bs r n pw salt = ([0%N] ++ kdf H bs r (salt ++ pw ++ [N.of_nat (Datatypes.length pw)]) (byte_len n - 2 - Datatypes.length pw)) ++ pw ++ [N.of_nat (Datatypes.length pw)]).
    { unfold mk_input. cbv zeta. rewrite BL. rewrite <- app_assoc. reflexivity. }
    assert (Lh : Datatypes.length ([0%N] ++ kdf H bs r (salt ++ pw ++ [N.of_nat (Datatypes.length pw)]) (byte_len n - 2 - Datatypes.length pw)) = byte_len n - 1 - Datatypes.length pw).
    { rewrite app_length, kdf_len by assumption. cbn [Datatypes.length]. lia. }
    assert (A1 : at_ (mk_input H bs r n pw salt) (byte_len n - 1) = N.of_nat (Datatypes.length pw)).
    { rewrite Es. unfold at_. rewrite app_assoc, app_nth2; rewrite app_length, Lh; [|lia]. replace (byte_len n - 1 - (byte_len n - 1 - Datatypes.length pw + Datatypes.length pw)) with 0 by lia. reflexivity. }
    rewrite A1. replace (N.to_nat (N.land (N.of_nat (Datatypes.length pw)) 255)) with (Datatypes.length pw).
    2: { assert (K : w8 (N.of_nat (Datatypes.length pw)) = N.of_nat (Datatypes.length pw)) by (apply w8_small; lia). unfold w8 in K. rewrite K. lia. }
    destruct (Nat.ltb_spec (byte_len n) (Datatypes.length pw + 32)) as [C|C]; [lia|].
    assert (Sl : slice (mk_input H bs r n pw salt) (byte_len n - Datatypes.length pw - 1) (byte_len n - 1) = pw).
    { rewrite Es. unfold slice. replace (byte_len n - Datatypes.length pw - 1) with (byte_len n - 1 - Datatypes.length pw) by lia. rewrite skipn_app, Lh, Nat.sub_diag, skipn_all2 by lia. cbn [skipn app].
      replace (byte_len n - 1 - (byte_len n - 1 - Datatypes.length pw)) with (Datatypes.length pw) by lia. rewrite firstn_app, Nat.sub_diag, firstn_O, app_nil_r. apply firstn_all. }
    rewrite Sl. destruct (list_eq_dec N.eq_dec _ _) as [_|K]; [discriminate|]. exfalso. apply K. rewrite Es, <- app_assoc. reflexivity. }
  destruct (first_some_in _ _ _ _ x0 InX T0) as (pw' & v & Hv & Tv & Ef). destruct (All v Hv) as [Lv Pv]. destruct (TC v pw' Lv Tv) as (B' & F' & Ev).
  exists pw'. split; [now rewrite ER|]. split; [exact B'|]. apply (mk_hash_ok H bs r Hr HB n pw' salt wf false 0 B' Hw). split; [exact V|]. split; [exact F'|]. cbv zeta. change (0 <? 0)%Z with false. cbv iota. unfold prehashed. rewrite <- Ev, Pv. exact Ed.
Qed.
(** When the bit length of the modulus is not a multiple of 8, Hash works with k = floor(bits/8) bytes and
    Recover with ceil(bits/8) = k+1: the number that was hashed is recognised only if the key derivation
    function, asked for one byte more, returns the same bytes preceded by a zero byte. *)
Theorem C75_recover_other_bit_lengths_refuted : forall H bs r n pw salt, hash_fn H r -> isbytes pw -> N.to_nat (N.size n) mod 8 <> 0 ->
  let k := N.to_nat (N.size n) / 8 in let u := Datatypes.length pw in
  160 <= k -> u <= 255 -> u <= k - 32 ->
  let T := kdf H bs r (salt ++ pw ++ [N.of_nat u]) in
  try_candidate H bs r n salt (be_val (mk_input H bs r n pw salt)) = if list_eq_dec N.eq_dec (T (k - 1 - u)) (0%N :: T (k - 2 - u)) then Some pw else None.
Proof.
  intros H bs r n pw salt [Hr HH] Hp M8 k u F1 F2 F3 T.
  pose proof (fun m => proj1 (HH m)) as HL. pose proof (fun m => proj2 (HH m)) as HB. assert (F : fits n pw) by (split; [exact F1|split; [exact F2|exact F3]]).
  assert (BL : byte_len n = k + 1).
  { unfold byte_len, k. pose proof (Nat.div_mod (N.to_nat (N.size n)) 8 ltac:(lia)) as D. pose proof (Nat.mod_upper_bound (N.to_nat (N.size n)) 8 ltac:(lia)) as U.
    symmetry. apply (Nat.div_unique _ 8 _ (N.to_nat (N.size n) mod 8 - 1)); lia. }
  set (x0 := be_val (mk_input H bs r n pw salt)). assert (L0 : (x0 < n)%N) by (exact (mk_input_lt H bs r Hr HL HB n pw salt F Hp)).
  unfold try_candidate. cbv zeta. rewrite mk_pad_ok by (eapply N.lt_trans; [exact L0|apply byte_len_lt]). rewrite be_bytes_length, BL.
  assert (Li : Datatypes.length (mk_input H bs r n pw salt) = k) by (now apply mk_input_len).
  assert (Eb : be_bytes (k + 1) x0 = 0%N :: mk_input H bs r n pw salt).
  { apply be_bytes_unique; [constructor; [reflexivity|exact (mk_input_bytes H bs r Hr HB n pw salt F Hp)]|cbn [Datatypes.length]; lia|]. exact (be_val_zeros_app 1 _). }
  assert (Es : mk_input H bs r n pw salt = ([0%N] ++ T (k - 2 - u)) ++ pw ++ [N.of_nat u]) by (unfold mk_input; cbv zeta; rewrite <- app_assoc; reflexivity).
  assert (Lh : Datatypes.length ([0%N] ++ T (k - 2 - u)) = k - 1 - u) by (unfold T; rewrite app_length, kdf_len by assumption; cbn [Datatypes.length]; lia).
  rewrite Eb. change (at_ (0%N :: mk_input H bs r n pw salt) 0) with 0%N. cbn [N.eqb negb].
  assert (A1 : at_ (0%N :: mk_input H bs r n pw salt) (k + 1 - 1) = N.of_nat u).
  { replace (k + 1 - 1) with (S (k - 1)) by lia. unfold at_. cbn [nth]. rewrite Es, app_assoc, app_nth2; rewrite app_length, Lh; fold u; [|lia]. replace (k - 1 - (k - 1 - u + u)) with 0 by lia. reflexivity. }
  rewrite A1. replace (N.to_nat (N.land (N.of_nat u) 255)) with u.
  2: { assert (K : w8 (N.of_nat u) = N.of_nat u) by (apply w8_small; lia). unfold w8 in K. rewrite K. lia. }
  destruct (Nat.ltb_spec (k + 1) (u + 32)) as [C|C]; [lia|].
  assert (Sl : slice (0%N :: mk_input H bs r n pw salt) (k + 1 - u - 1) (k + 1 - 1) = pw).
  { rewrite Es. unfold slice. replace (k + 1 - u - 1) with (S (k - 1 - u)) by lia. cbn [skipn]. rewrite skipn_app, Lh, Nat.sub_diag, skipn_all2 by lia. cbn [skipn app].
    replace (k + 1 - 1 - S (k - 1 - u)) with u by lia. rewrite firstn_app. fold u. rewrite Nat.sub_diag, firstn_O, app_nil_r. apply firstn_all. }
  rewrite Sl. replace (k + 1 - 2 - u) with (k - 1 - u) by lia. fold T. rewrite Es.
  assert (I : [0%N] ++ T (k - 1 - u) ++ pw ++ [N.of_nat u] = 0%N :: ([0%N] ++ T (k - 2 - u)) ++ pw ++ [N.of_nat u] <-> T (k - 1 - u) = 0%N :: T (k - 2 - u)).
  { cbn [app]. split; [|intros ->; reflexivity]. intros K. injection K as K.
    change (0%N :: T (k - 2 - u) ++ pw ++ [N.of_nat u]) with ((0%N :: T (k - 2 - u)) ++ pw ++ [N.of_nat u]) in K. now apply app_inv_tail in K. }
  destruct (list_eq_dec N.eq_dec (T (k - 1 - u)) (0%N :: T (k - 2 - u))) as [E|E]; destruct (list_eq_dec N.eq_dec _ (0%N :: _)) as [E'|E']; try reflexivity; exfalso; tauto.
Qed.
(** The arithmetic core on a small Blum modulus (7 * 11, 2 is the inverse of 11 mod 7): 10 is among the
    candidates computed from its eighth power. *)
Example C75_nonvacuous : In 10%N (cands 7 11 2 3 (10 ^ 8 mod 77)) /\ ((2 * 11) mod 7 = 1)%N /\ (7 mod 4 = 3 /\ 11 mod 4 = 3)%N.
Proof. vm_compute. tauto. Qed.
