(** Crc16.v -- model of /repo/crc16/x25/x25.go, /repo/crc16/modbus/modbus.go and the wrapper
    /repo/hash/crc16.go, with their hexadecimal output. *)
From Coq Require Import List NArith Arith Lia Bool.
From Verif Require Import Base Words SpecCrc16.
Import ListNotations.

(** crc16/x25/x25.go:7-40 *)
Definition x25_sbox : list N := [
  0; 4489; 8978; 12955; 17956; 22445; 25910; 29887;
  35912; 40385; 44890; 48851; 51820; 56293; 59774; 63735;
  4225; 264; 13203; 8730; 22181; 18220; 30135; 25662;
  40137; 36160; 49115; 44626; 56045; 52068; 63999; 59510;
  8450; 12427; 528; 5017; 26406; 30383; 17460; 21949;
  44362; 48323; 36440; 40913; 60270; 64231; 51324; 55797;
  12675; 8202; 4753; 792; 30631; 26158; 21685; 17724;
  48587; 44098; 40665; 36688; 64495; 60006; 55549; 51572;
  16900; 21389; 24854; 28831; 1056; 5545; 10034; 14011;
  52812; 57285; 60766; 64727; 34920; 39393; 43898; 47859;
  21125; 17164; 29079; 24606; 5281; 1320; 14259; 9786;
  57037; 53060; 64991; 60502; 39145; 35168; 48123; 43634;
  25350; 29327; 16404; 20893; 9506; 13483; 1584; 6073;
  61262; 65223; 52316; 56789; 43370; 47331; 35448; 39921;
  29575; 25102; 20629; 16668; 13731; 9258; 5809; 1848;
  65487; 60998; 56541; 52564; 47595; 43106; 39673; 35696;
  33800; 38273; 42778; 46739; 49708; 54181; 57662; 61623;
  2112; 6601; 11090; 15067; 20068; 24557; 28022; 31999;
  38025; 34048; 47003; 42514; 53933; 49956; 61887; 57398;
  6337; 2376; 15315; 10842; 24293; 20332; 32247; 27774;
  42250; 46211; 34328; 38801; 58158; 62119; 49212; 53685;
  10562; 14539; 2640; 7129; 28518; 32495; 19572; 24061;
  46475; 41986; 38553; 34576; 62383; 57894; 53437; 49460;
  14787; 10314; 6865; 2904; 32743; 28270; 23797; 19836;
  50700; 55173; 58654; 62615; 32808; 37281; 41786; 45747;
  19012; 23501; 26966; 30943; 3168; 7657; 12146; 16123;
  54925; 50948; 62879; 58390; 37033; 33056; 46011; 41522;
  23237; 19276; 31191; 26718; 7393; 3432; 16371; 11898;
  59150; 63111; 50204; 54677; 41258; 45219; 33336; 37809;
  27462; 31439; 18516; 23005; 11618; 15595; 3696; 8185;
  63375; 58886; 54429; 50452; 45483; 40994; 37561; 33584;
  31687; 27214; 22741; 18780; 15843; 11370; 7921; 3960]%N.

(** crc16/modbus/modbus.go:7-40 *)
Definition mb_table : list N := [
  0; 49345; 49537; 320; 49921; 960; 640; 49729;
  50689; 1728; 1920; 51009; 1280; 50625; 50305; 1088;
  52225; 3264; 3456; 52545; 3840; 53185; 52865; 3648;
  2560; 51905; 52097; 2880; 51457; 2496; 2176; 51265;
  55297; 6336; 6528; 55617; 6912; 56257; 55937; 6720;
  7680; 57025; 57217; 8000; 56577; 7616; 7296; 56385;
  5120; 54465; 54657; 5440; 55041; 6080; 5760; 54849;
  53761; 4800; 4992; 54081; 4352; 53697; 53377; 4160;
  61441; 12480; 12672; 61761; 13056; 62401; 62081; 12864;
  13824; 63169; 63361; 14144; 62721; 13760; 13440; 62529;
  15360; 64705; 64897; 15680; 65281; 16320; 16000; 65089;
  64001; 15040; 15232; 64321; 14592; 63937; 63617; 14400;
  10240; 59585; 59777; 10560; 60161; 11200; 10880; 59969;
  60929; 11968; 12160; 61249; 11520; 60865; 60545; 11328;
  58369; 9408; 9600; 58689; 9984; 59329; 59009; 9792;
  8704; 58049; 58241; 9024; 57601; 8640; 8320; 57409;
  40961; 24768; 24960; 41281; 25344; 41921; 41601; 25152;
  26112; 42689; 42881; 26432; 42241; 26048; 25728; 42049;
  27648; 44225; 44417; 27968; 44801; 28608; 28288; 44609;
  43521; 27328; 27520; 43841; 26880; 43457; 43137; 26688;
  30720; 47297; 47489; 31040; 47873; 31680; 31360; 47681;
  48641; 32448; 32640; 48961; 32000; 48577; 48257; 31808;
  46081; 29888; 30080; 46401; 30464; 47041; 46721; 30272;
  29184; 45761; 45953; 29504; 45313; 29120; 28800; 45121;
  20480; 37057; 37249; 20800; 37633; 21440; 21120; 37441;
  38401; 22208; 22400; 38721; 21760; 38337; 38017; 21568;
  39937; 23744; 23936; 40257; 24320; 40897; 40577; 24128;
  23040; 39617; 39809; 23360; 39169; 22976; 22656; 38977;
  34817; 18624; 18816; 35137; 19200; 35777; 35457; 19008;
  19968; 36545; 36737; 20288; 36097; 19904; 19584; 35905;
  17408; 33985; 34177; 17728; 34561; 18368; 18048; 34369;
  33281; 17088; 17280; 33601; 16640; 33217; 32897; 16448]%N.

(** crc16/x25/x25.go:43-54 Checksum without the final formatting *)
Definition x25_value (s : list N) : N :=
  let fcs := fold_left (fun fcs b => N.lxor (N.shiftr fcs 8) (at_ x25_sbox (N.to_nat (N.land (N.lxor fcs b) 0xff)))) s 0xffff%N in
  N.lxor fcs 0xffff%N.
(** crc16/modbus/modbus.go:43-53 Checksum without the final formatting *)
Definition modbus_value (s : list N) : N :=
  fold_left (fun crc v =>
    let n := w8 (N.lxor v crc) in
    let crc := N.shiftr crc 8 in
    N.lxor crc (at_ mb_table (N.to_nat n))) s 0xffff%N.

(** strconv.FormatInt(v, 16) for v >= 0: lower-case digits, no leading zeros, "0" for 0.
    Fuel 16 covers every uint64. *)
Definition hexchar (d : N) : N := if (d <? 10)%N then (48 + d)%N else (87 + d)%N.
Fixpoint fmt_hex_fuel (fuel : nat) (v : N) : list N :=
  match fuel with
  | O => []
  | S f => if (v <? 16)%N then [hexchar v] else fmt_hex_fuel f (v / 16) ++ [hexchar (v mod 16)]
  end.
Definition fmt_hex (v : N) : list N := fmt_hex_fuel 16 v.

(** x25.go:56, modbus.go:55 *)
Definition x25_Checksum (s : list N) : list N := fmt_hex (x25_value s).
Definition modbus_Checksum (s : list N) : list N := fmt_hex (modbus_value s).

(** encoding/hex.DecodeString: None = error (odd length or a non-digit). *)
Definition unhex (c : N) : option N :=
  if ((48 <=? c) && (c <=? 57))%N then Some (c - 48)%N
  else if ((97 <=? c) && (c <=? 102))%N then Some (c - 87)%N
  else if ((65 <=? c) && (c <=? 70))%N then Some (c - 55)%N else None.
Fixpoint hex_decode (s : list N) : option (list N) :=
  match s with
  | [] => Some []
  | [_] => None
  | a :: b :: t =>
    match unhex a, unhex b, hex_decode t with
    | Some x, Some y, Some r => Some ((16 * x + y)%N :: r)
    | _, _, _ => None
    end
  end.
(** hash/crc16.go:9-15, 18-24: the wrapper decodes the string again; None = Error set. *)
Definition CRC16_X25 (data : list N) : option (list N) := hex_decode (x25_Checksum data).
Definition CRC16_Modbus (data : list N) : option (list N) := hex_decode (modbus_Checksum data).

(** * Proofs *)
Lemma odd_lxor : forall a b, N.odd (N.lxor a b) = xorb (N.odd a) (N.odd b).
Proof. intros. rewrite <- !N.bit0_odd. apply N.lxor_spec. Qed.

Lemma crc_bit_lxor : forall p a b, crc_bit p (N.lxor a b) = N.lxor (crc_bit p a) (crc_bit p b).
Proof.
  intros. unfold crc_bit. rewrite odd_lxor, N.shiftr_lxor.
  destruct (N.odd a), (N.odd b); cbn [xorb]; apply N.bits_inj; intros i; rewrite !N.lxor_spec;
  destruct (N.testbit (N.shiftr a 1) i), (N.testbit (N.shiftr b 1) i), (N.testbit p i); reflexivity.
Qed.
Lemma crc_iter_lxor : forall n p a b,
  Nat.iter n (crc_bit p) (N.lxor a b) = N.lxor (Nat.iter n (crc_bit p) a) (Nat.iter n (crc_bit p) b).
Proof. induction n; intros; simpl; auto. now rewrite IHn, crc_bit_lxor. Qed.
Lemma crc_bit_even : forall p k y, crc_bit p (N.shiftl y (N.succ k)) = N.shiftl y k.
Proof.
  intros. unfold crc_bit.
  rewrite <- N.bit0_odd, N.shiftl_spec_low by lia.
  rewrite N.shiftr_shiftl_l by lia. f_equal. lia.
Qed.
Lemma crc_iter_shift : forall n p y k, Nat.iter n (crc_bit p) (N.shiftl y (N.of_nat n + k)) = N.shiftl y k.
Proof.
  induction n; intros p y k.
  - reflexivity.
  - replace (N.of_nat (S n) + k)%N with (N.of_nat n + N.succ k)%N by lia.
    change (crc_bit p (Nat.iter n (crc_bit p) (N.shiftl y (N.of_nat n + N.succ k))) = N.shiftl y k).
    rewrite IHn. apply crc_bit_even.
Qed.
Lemma split8 : forall x, x = N.lxor (N.shiftl (N.shiftr x 8) 8) (N.land x 255).
Proof.
  intros. apply N.bits_inj. intros i. rewrite N.lxor_spec, N.land_spec. change 255%N with (N.ones 8).
  destruct (N.lt_ge_cases i 8).
  - rewrite N.shiftl_spec_low, N.ones_spec_low by assumption. now destruct (N.testbit x i).
  - rewrite N.shiftl_spec_high', N.shiftr_spec', N.ones_spec_high by assumption.
    replace (i - 8 + 8)%N with i by lia. now destruct (N.testbit x i).
Qed.
Lemma crc_byte_table : forall p tab, length tab = 256 ->
  forallb (fun n => (Nat.iter 8 (crc_bit p) (N.of_nat n) =? at_ tab n)%N) (seq 0 256) = true ->
  forall c b, (b < 256)%N ->
  crc_byte p c b = N.lxor (N.shiftr c 8) (at_ tab (N.to_nat (N.land (N.lxor c b) 255))).
Proof.
  intros p tab Hl Ht c b Hb. unfold crc_byte.
  rewrite (split8 (N.lxor c b)) at 1. rewrite crc_iter_lxor.
  rewrite (crc_iter_shift 8 p _ 0), N.shiftl_0_r.
  rewrite N.shiftr_lxor. replace (N.shiftr b 8) with 0%N.
  2:{ symmetry. rewrite N.shiftr_div_pow2. apply N.div_small. assumption. }
  rewrite N.lxor_0_r. f_equal.
  set (n := N.land (N.lxor c b) 255).
  assert (n < 256)%N by (apply w8_lt).
  rewrite forallb_forall in Ht. specialize (Ht (N.to_nat n)).
  rewrite N2Nat.id in Ht. apply N.eqb_eq, Ht. apply in_seq. lia.
Qed.

Lemma x25_value_ok : forall s, isbytes s -> x25_value s = crc16_bitwise 0x8408 0xffff 0xffff s.
Proof.
  intros s H. unfold x25_value, crc16_bitwise. f_equal.
  apply fold_left_ext_in. intros c b Hb. symmetry. apply (crc_byte_table 0x8408 x25_sbox).
  - reflexivity.
  - vm_compute. reflexivity.
  - eapply Forall_forall in H; eauto.
Qed.
Lemma modbus_value_ok : forall s, isbytes s -> modbus_value s = crc16_bitwise 0xa001 0xffff 0 s.
Proof.
  intros s H. unfold modbus_value, crc16_bitwise. rewrite N.lxor_0_r.
  apply fold_left_ext_in. intros c b Hb. symmetry. cbv zeta. unfold w8. rewrite (N.lxor_comm b c).
  apply (crc_byte_table 0xa001 mb_table).
  - reflexivity.
  - vm_compute. reflexivity.
  - eapply Forall_forall in H; eauto.
Qed.

Lemma crc_bit_16 : forall p c, (p < 2 ^ 16)%N -> (c < 2 ^ 16)%N -> (crc_bit p c < 2 ^ 16)%N.
Proof.
  intros. unfold crc_bit. destruct (N.odd c).
  - apply lxor_lt; auto. apply shiftr_lt; auto.
  - apply shiftr_lt; auto.
Qed.
Lemma crc_fold_16 : forall p s c, (p < 2 ^ 16)%N -> (c < 2 ^ 16)%N -> isbytes s -> (fold_left (crc_byte p) s c < 2 ^ 16)%N.
Proof.
  induction s as [|b s IH]; intros c Hp Hc Hs; auto. inversion Hs; subst. simpl. apply IH; auto.
  unfold crc_byte. assert (K : (N.lxor c b < 2 ^ 16)%N) by (apply lxor_lt; auto; unfold isbyte in *; lia).
  generalize dependent (N.lxor c b). intros x Kx. generalize 8. intros n.
  induction n; simpl; auto. apply crc_bit_16; auto.
Qed.
Lemma x25_value_lt : forall s, isbytes s -> (x25_value s < 65536)%N.
Proof.
  intros. rewrite x25_value_ok by auto. unfold crc16_bitwise. apply (lxor_lt 16); [|reflexivity].
  apply crc_fold_16; auto; reflexivity.
Qed.
Lemma modbus_value_lt : forall s, isbytes s -> (modbus_value s < 65536)%N.
Proof.
  intros. rewrite modbus_value_ok by auto. unfold crc16_bitwise. apply (lxor_lt 16); [|reflexivity].
  apply crc_fold_16; auto; reflexivity.
Qed.

(** What the wrapper returns for a 16-bit value. *)
Definition crc16_wrapped (v : N) : option (list N) :=
  if (v <? 0x10)%N then None else if (v <? 0x100)%N then Some [v]
  else if (v <? 0x1000)%N then None else Some (be_bytes 2 v).

Lemma unhex_hexchar : forall d, (d < 16)%N -> unhex (hexchar d) = Some d.
Proof.
  intros d H. unfold hexchar, unhex.
  destruct (N.ltb_spec d 10).
  - replace ((48 <=? 48 + d) && (48 + d <=? 57))%N with true; [f_equal; lia|].
    symmetry. apply andb_true_intro. split; apply N.leb_le; lia.
  - replace ((48 <=? 87 + d) && (87 + d <=? 57))%N with false.
    + replace ((97 <=? 87 + d) && (87 + d <=? 102))%N with true; [f_equal; lia|].
      symmetry. apply andb_true_intro. split; apply N.leb_le; lia.
    + symmetry. apply andb_false_intro2. apply N.leb_gt. lia.
Qed.
Lemma hex_decode_pair : forall a b t, (a < 16)%N -> (b < 16)%N ->
  hex_decode (hexchar a :: hexchar b :: t) = match hex_decode t with Some r => Some ((16 * a + b)%N :: r) | None => None end.
Proof. intros. cbn [hex_decode]. rewrite !unhex_hexchar by assumption. reflexivity. Qed.

Lemma hex_decode_fmt : forall v, (v < 65536)%N -> hex_decode (fmt_hex v) = crc16_wrapped v.
Proof.
  intros v Hv. unfold fmt_hex, crc16_wrapped.
  assert (D : forall x, (x mod 16 < 16)%N) by (intros; apply N.mod_lt; discriminate).
  assert (Q : forall x n, (x < 16 * n)%N -> (x / 16 < n)%N) by (intros; apply N.div_lt_upper_bound; [discriminate|assumption]).
  assert (E : forall x, (16 * (x / 16) + x mod 16 = x)%N) by (intros; symmetry; apply N.div_mod; discriminate).
  cbn [fmt_hex_fuel]. destruct (N.ltb_spec v 16) as [H1|H1]; [reflexivity|].
  destruct (N.ltb_spec v 0x100) as [H2|H2].
  - specialize (Q v 16%N H2). apply N.ltb_lt in Q as Q'. rewrite Q'.
    cbn [app]. rewrite hex_decode_pair by auto. cbn [hex_decode]. rewrite E. reflexivity.
  - assert (G1 : (16 <= v / 16)%N) by (apply N.div_le_lower_bound; [discriminate|lia]).
    apply N.ltb_ge in G1 as G1'. rewrite G1'.
    destruct (N.ltb_spec v 0x1000) as [H3|H3].
    + assert (Q1 : (v / 16 / 16 < 16)%N) by (apply Q, Q; lia). apply N.ltb_lt in Q1 as Q1'. rewrite Q1'.
      cbn [app]. rewrite hex_decode_pair by auto. reflexivity.
    + assert (G2 : (16 <= v / 16 / 16)%N) by (apply N.div_le_lower_bound; [discriminate|]; apply N.div_le_lower_bound; [discriminate|lia]).
      apply N.ltb_ge in G2 as G2'. rewrite G2'.
      assert (Q2 : (v / 16 / 16 / 16 < 16)%N) by (apply Q, Q, Q; lia). apply N.ltb_lt in Q2 as Q2'. rewrite Q2'.
      cbn [app]. rewrite !hex_decode_pair by auto. cbn [hex_decode].
      rewrite E. f_equal. unfold be_bytes. cbn [le_bytes rev app].
      rewrite !w8_mod, N.shiftr_div_pow2. change (2 ^ 8)%N with (16 * 16)%N. rewrite <- N.div_div by discriminate.
      rewrite (N.mod_small (v / 16 / 16) 256) by (apply Q, Q; lia).
      do 2 f_equal. rewrite <- (E v) at 3. rewrite <- (E (v / 16)%N) at 2.
      generalize (D v) (D (v / 16)%N). generalize (v / 16 / 16)%N (v mod 16)%N ((v / 16) mod 16)%N. intros a b c Hb Hc.
      symmetry. replace (16 * (16 * a + c) + b)%N with (16 * c + b + a * 256)%N by lia.
      rewrite N.mod_add by discriminate. apply N.mod_small. lia.
Qed.

Lemma CRC16_X25_lemma : forall s, isbytes s -> CRC16_X25 s = crc16_wrapped (crc16_bitwise 0x8408 0xffff 0xffff s).
Proof. intros. unfold CRC16_X25, x25_Checksum. rewrite hex_decode_fmt by now apply x25_value_lt. now rewrite x25_value_ok. Qed.
Lemma CRC16_Modbus_lemma : forall s, isbytes s -> CRC16_Modbus s = crc16_wrapped (crc16_bitwise 0xa001 0xffff 0 s).
Proof. intros. unfold CRC16_Modbus, modbus_Checksum. rewrite hex_decode_fmt by now apply modbus_value_lt. now rewrite modbus_value_ok. Qed.
