(** PropWrap.v -- final theorems about crc16 and the hash wrapper package. *)
From Coq Require Import List NArith Arith Lia Bool.
From Verif Require Import Base SpecCrc16 Crc16 HashWrap.
Import ListNotations.

(** ** C11 *)
Theorem C11_x25_is_bitwise_crc : forall s, isbytes s -> x25_value s = crc16_bitwise 0x8408 0xffff 0xffff s.
Proof. exact x25_value_ok. Qed.
Theorem C11_modbus_is_bitwise_crc : forall s, isbytes s -> modbus_value s = crc16_bitwise 0xa001 0xffff 0 s.
Proof. exact modbus_value_ok. Qed.
Example C11_check_value : isbytes [49; 50; 51; 52; 53; 54; 55; 56; 57]%N /\
  crc16_bitwise 0x8408 0xffff 0xffff [49; 50; 51; 52; 53; 54; 55; 56; 57]%N = 0x906e%N /\
  crc16_bitwise 0xa001 0xffff 0 [49; 50; 51; 52; 53; 54; 55; 56; 57]%N = 0x4b37%N.
Proof. split; [repeat constructor|]. vm_compute. auto. Qed.

(** ** C12: false: leading zeros are dropped, and the wrapper then fails or returns one byte. *)
Theorem C12_four_digits_refuted :
  (exists s, isbytes s /\ length (x25_Checksum s) <> 4 /\ CRC16_X25 s = None) /\
  (exists s, isbytes s /\ length (modbus_Checksum s) <> 4 /\ CRC16_Modbus s = None).
Proof.
  split; [exists [15%N]|exists [225%N]]; (split; [repeat constructor|]; vm_compute; split; [discriminate|reflexivity]).
Qed.
(** Exactly what the wrapper returns for every input: an error when the value has an odd number of
    hexadecimal digits, one byte below 0x100, else the two bytes. *)
Theorem C12_wrapper_result : forall s, isbytes s ->
  CRC16_X25 s = crc16_wrapped (crc16_bitwise 0x8408 0xffff 0xffff s) /\
  CRC16_Modbus s = crc16_wrapped (crc16_bitwise 0xa001 0xffff 0 s).
Proof. exact (fun s H => conj (CRC16_X25_lemma s H) (CRC16_Modbus_lemma s H)). Qed.

(** ** C55 *)
Theorem C55_dataset_is_finite_map : forall (K V : Type) (eqb : K -> K -> bool),
  (forall a b, reflect (a = b) (eqb a b)) ->
  forall ops,
  let d := fold_left (ds_step K V eqb) ops (ds_new K V) in
  let m := fold_left (fm_step K V eqb) ops (fun _ => None) in
  (forall k, ds_get K V eqb d k = m k) /\
  (forall k, ds_has K V eqb d k = true <-> m k <> None) /\
  (forall k, In k (ds_names K V d) <-> m k <> None) /\
  NoDup (ds_names K V d) /\ ds_len K V d = length (ds_names K V d).
Proof. exact ds_lemma. Qed.
Example C55_nonvacuous : ds_get nat nat Nat.eqb
  (fold_left (ds_step nat nat Nat.eqb) [DAdd nat nat 1 10; DAdd nat nat 1 11; DAdd nat nat 2 5; DRemove nat nat 2] (ds_new nat nat)) 1 = Some 11.
Proof. reflexivity. Qed.
Theorem C55_generate_fresh_ids : forall n max, (max < 2 ^ 64)%N -> (N.of_nat n <= 2 ^ 64)%N ->
  NoDup (generate_n n max) /\ forall i, i < n -> nth i (generate_n n max) 0%N = ((max + N.of_nat i) mod 2 ^ 64)%N.
Proof. exact (fun n max Hm Hn => conj (generate_distinct n max Hm Hn) (fun i Hi => generate_nth n max i Hi Hm)). Qed.

(** ** C56 *)
Theorem C56_left_crc_padding : forall text size, 0 < size ->
  exists k, LeftCRCPadding text size = repeat 48%N k ++ text /\ k < size /\
            length (LeftCRCPadding text size) mod size = 0 /\
            (forall j, (j + length text) mod size = 0 -> k <= j).
Proof. exact LeftCRCPadding_lemma. Qed.
Example C56_nonvacuous : LeftCRCPadding [56; 56; 102]%N 4 = [48; 56; 56; 102]%N.
Proof. reflexivity. Qed.

(** ** C60: for any number of goroutines, each calling any sequence of methods, under every schedule *)
Theorem C60_locked_methods_race_free : forall progs s,
  Forall (Forall locked) progs -> wsteps (start progs) s -> ~ race s.
Proof. exact dataset_race_free_lemma. Qed.
Theorem C60_locked_methods_deadlock_free : forall progs s,
  Forall (Forall locked) progs -> wsteps (start progs) s ->
  (exists t, In t (threads s) /\ t <> []) -> exists s', wstep s s'.
Proof. exact dataset_no_deadlock_lemma. Qed.
Example C60_nonvacuous : Forall (Forall locked) [[MAdd; MGet]; [MHas; MRemove]; [MClean]].
Proof. unfold locked. repeat constructor; discriminate. Qed.
Theorem C60_names_all_len_race_refuted : forall m, m = MNames \/ m = MAll \/ m = MLen ->
  exists s, wsteps (start [[m]; [MAdd]]) s /\ race s.
Proof. exact dataset_race_refuted_lemma. Qed.

(** ** C61 *)
Theorem C61_chain_error_reported_refuted : exists ops,
  some_call_failed wrap_new ops = true /\ werr (fold_left wrap_step ops wrap_new) = false.
Proof. exact wrap_error_lost_lemma. Qed.
Theorem C61_plain_chain_keeps_error : forall ops w, forallb keeps_error ops = true -> werr w = true ->
  werr (fold_left wrap_step ops w) = true.
Proof. exact wrap_keeps_lemma. Qed.

(** Which calls report: the last call with an error result decides, whatever happened before it. *)
Definition hex_char (c : N) : Prop := (48 <= c <= 57 \/ 65 <= c <= 70 \/ 97 <= c <= 102)%N.
Definition hex_text (s : list N) : Prop := Nat.Even (length s) /\ Forall hex_char s.
Lemma unhex_char : forall c, unhex c <> None <-> hex_char c.
Proof.
  intros c. unfold unhex, hex_char.
  destruct (N.leb_spec 48 c), (N.leb_spec c 57), (N.leb_spec 97 c), (N.leb_spec c 102), (N.leb_spec 65 c), (N.leb_spec c 70);
    cbn [andb]; split; intros; try discriminate; try lia; try congruence.
Qed.
Lemma hex_ok_n : forall n s, length s < n -> (snd (hex_decode_partial s) = false <-> hex_text s).
Proof.
  induction n as [|n IH]; intros s L; [lia|]. destruct s as [|a [|b t]].
  - cbn. split; auto. intros _. split; [now exists 0|constructor].
  - cbn. split; [discriminate|]. intros (E & _). cbn in E. destruct E as (k & E). lia.
  - cbn [hex_decode_partial]. pose proof (unhex_char a) as A. pose proof (unhex_char b) as B. cbn [length] in L.
    specialize (IH t ltac:(lia)). unfold hex_text in *.
    destruct (unhex a) as [x|]; [destruct (unhex b) as [y|]|].
    + destruct (hex_decode_partial t) as [r e]. cbn [snd] in *. rewrite IH. split.
      * intros ((k & E) & F). split; [exists (S k); cbn [length]; lia|]. constructor; [apply A; discriminate|]. constructor; [apply B; discriminate|exact F].
      * intros ((k & E) & F). inversion F as [|? ? _ F']. inversion F' as [|? ? _ F'']. split; [|exact F'']. cbn [length] in E. exists (k - 1). lia.
    + cbn [snd]. split; [discriminate|]. intros (_ & F). inversion F as [|? ? _ F']. inversion F' as [|? ? F'' _]. apply B in F''. now elim F''.
    + cbn [snd]. split; [discriminate|]. intros (_ & F). inversion F as [|? ? F' _]. apply A in F'. now elim F'.
Qed.
Theorem C61_last_call_decides : forall ops w f s d h,
  let e := fold_left wrap_step ops w in
  werr (wrap_step e (FuncHash f)) = snd (f (wdata e)) /\ wdata (wrap_step e (FuncHash f)) = fst (f (wdata e)) /\
  (werr (wrap_step e (FromHexString s)) = false <-> hex_text s) /\
  werr (wrap_step e SumByUnknown) = true /\ wdata (wrap_step e SumByUnknown) = wdata e /\
  (werr (wrap_step e CRC16X25) = false <-> hex_text (x25_Checksum (wdata e))) /\
  wrap_step e (FromBytes d) = mkwrap d (werr e) /\ wrap_step e (ChecksumW h) = mkwrap (h (wdata e)) (werr e).
Proof.
  intros ops w f s d h e. clearbody e. cbn [wrap_step]. destruct (f (wdata e)) as [fd fe].
  pose proof (hex_ok_n (S (length s)) s (le_n _)) as K. destruct (hex_decode_partial s) as [hd he].
  pose proof (hex_ok_n (S (length (x25_Checksum (wdata e)))) (x25_Checksum (wdata e)) (le_n _)) as Q.
  destruct (hex_decode_partial (x25_Checksum (wdata e))) as [cd ce]. cbn [werr wdata fst snd] in *.
  do 2 (split; [reflexivity|]). split; [exact K|]. do 2 (split; [reflexivity|]). split; [exact Q|]. split; reflexivity.
Qed.
Example C61_last_nonvacuous : hex_text [52; 49; 55; 65]%N /\ ~ hex_text [52; 49; 122; 122]%N.
Proof.
  split; [split; [now exists 2|]; repeat constructor; unfold hex_char; lia|]. intros (_ & F).
  inversion F as [|? ? _ F1]. inversion F1 as [|? ? _ F2]. inversion F2 as [|? ? F3 _]. unfold hex_char in F3. lia.
Qed.

Print Assumptions C11_x25_is_bitwise_crc.
Print Assumptions C11_modbus_is_bitwise_crc.
Print Assumptions C12_four_digits_refuted.
Print Assumptions C12_wrapper_result.
Print Assumptions C55_dataset_is_finite_map.
Print Assumptions C55_generate_fresh_ids.
Print Assumptions C56_left_crc_padding.
Print Assumptions C60_locked_methods_race_free.
Print Assumptions C60_locked_methods_deadlock_free.
Print Assumptions C60_names_all_len_race_refuted.
Print Assumptions C61_chain_error_reported_refuted.
Print Assumptions C61_plain_chain_keeps_error.
