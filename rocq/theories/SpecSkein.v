(** SpecSkein.v -- Threefish, UBI and Skein, written from "The Skein Hash Function Family", version 1.3,
    independent of the Go code. *)
From Coq Require Import List NArith Arith Bool.
From Verif Require Import Base HashAPI SpecCmac.
Import ListNotations.

Inductive variant := V256 | V512 | V1024.
(** number of words N_w, number of rounds N_r (table 2) *)
Definition nw (v : variant) : nat := match v with V256 => 4 | V512 => 8 | V1024 => 16 end.
Definition nr (v : variant) : nat := match v with V256 | V512 => 72 | V1024 => 80 end.
(** block size N_b in bytes *)
Definition nb (v : variant) : nat := 8 * nw v.
(** table 3: the word permutation pi *)
Definition tf_pi (v : variant) : list nat :=
  match v with
  | V256 => [0; 3; 2; 1]
  | V512 => [2; 1; 4; 7; 6; 5; 0; 3]
  | V1024 => [0; 9; 2; 13; 6; 11; 4; 15; 10; 7; 12; 3; 14; 5; 8; 1]
  end.
(** table 4: the rotation constants R_{d,j}, one row per d = 0..7 *)
Definition tf_R (v : variant) : list (list N) :=
  match v with
  | V256 => [[14; 16]; [52; 57]; [23; 40]; [5; 37]; [25; 33]; [46; 12]; [58; 22]; [32; 32]]
  | V512 => [[46; 36; 19; 37]; [33; 27; 14; 42]; [17; 49; 36; 39]; [44; 9; 54; 56];
             [39; 30; 34; 24]; [13; 50; 10; 17]; [25; 29; 39; 43]; [8; 35; 56; 22]]
  | V1024 => [[24; 13; 8; 47; 8; 17; 22; 37]; [38; 19; 10; 55; 49; 18; 23; 52];
              [33; 4; 51; 13; 34; 41; 59; 17]; [5; 20; 48; 41; 47; 28; 16; 25];
              [41; 9; 37; 31; 12; 47; 44; 30]; [16; 34; 56; 51; 4; 53; 42; 41];
              [31; 44; 47; 46; 19; 42; 44; 25]; [9; 48; 35; 52; 23; 31; 37; 20]]
  end%N.
(** section 3.3.2: the key schedule.  [k] has N_w words, [t] = (t0, t1). *)
Definition C240 : N := 0x1BD11BDAA9FC1A22.
Definition tf_k (k : list N) : list N := k ++ [fold_left N.lxor k C240].
Definition tf_t (t : N * N) : list N := [fst t; snd t; N.lxor (fst t) (snd t)].
Definition tf_subkey (v : variant) (k : list N) (t : N * N) (s i : nat) : N :=
  let base := at_ (tf_k k) ((s + i) mod (nw v + 1)) in
  if i =? nw v - 3 then add64 base (at_ (tf_t t) (s mod 3))
  else if i =? nw v - 2 then add64 base (at_ (tf_t t) ((s + 1) mod 3))
  else if i =? nw v - 1 then add64 base (N.of_nat s)
  else base.
(** section 3.3: e = v + subkey every four rounds; MIX on consecutive pairs; permute *)
Definition tf_addkey (v : variant) (k : list N) (t : N * N) (s : nat) (x : list N) : list N :=
  map (fun i => add64 (at_ x i) (tf_subkey v k t s i)) (seq 0 (nw v)).
Definition tf_mix (r x0 x1 : N) : N * N := let y0 := add64 x0 x1 in (y0, N.lxor (rotl64 x1 r) y0).
Definition tf_mixes (v : variant) (d : nat) (x : list N) : list N :=
  flat_map (fun j => let '(y0, y1) := tf_mix (at_ (nth (d mod 8) (tf_R v) []) j) (at_ x (2 * j)) (at_ x (2 * j + 1)) in [y0; y1])
           (seq 0 (nw v / 2)).
Definition tf_permute (v : variant) (x : list N) : list N := map (fun p => at_ x p) (tf_pi v).
Definition tf_round (v : variant) (k : list N) (t : N * N) (x : list N) (d : nat) : list N :=
  let e := if d mod 4 =? 0 then tf_addkey v k t (d / 4) x else x in
  tf_permute v (tf_mixes v d e).
Definition threefish (v : variant) (k : list N) (t : N * N) (p : list N) : list N :=
  tf_addkey v k t (nr v / 4) (fold_left (tf_round v k t) (seq 0 (nr v)) p).

(** byte strings to words and back (section 3.2), least significant byte first *)
Definition to_words (x : list N) : list N := map le_val (chunks 8 x).
Definition to_bytes (w : list N) : list N := flat_map (le_bytes 8) w.

(** section 3.4: UBI.  The tweak holds the position (96 bits), the type (6 bits at 120) and the flags First (126) and
    Final (127).  [ubi v G m typ]: all blocks but the last carry the number of bytes so far, the last the total length. *)
Definition tweak_of (pos typ : N) (first final : bool) : N :=
  pos mod 2 ^ 96 + typ * 2 ^ 120 + (if first then 2 ^ 126 else 0) + (if final then 2 ^ 127 else 0).
Definition tw_words (t : N) : N * N := (t mod 2 ^ 64, t / 2 ^ 64)%N.
Definition ubi_block (v : variant) (G : list N) (t : N) (b : list N) : list N :=
  let p := to_words b in xorblk (threefish v G (tw_words t) p) p.
(** message padded with zeros to a positive multiple of the block size *)
Definition ubi_pad (v : variant) (m : list N) : list N :=
  m ++ zeros (match m with [] => nb v | _ => (nb v - length m mod nb v) mod nb v end).
Definition ubi (v : variant) (G : list N) (m : list N) (typ : N) : list N :=
  let bl := chunks (nb v) (ubi_pad v m) in
  let last := length bl - 1 in
  fold_left (fun G i =>
     ubi_block v G (tweak_of (N.of_nat (Nat.min (length m) ((i + 1) * nb v))) typ (i =? 0) (i =? last)) (nth i bl []))
    (seq 0 (length bl)) G.

(** section 3.5: Skein with optional key, personalisation, public key, key id and nonce (absent when empty). *)
Record config := mkconfig { cKey : list N; cPersonal : list N; cPublicKey : list N; cKeyID : list N; cNonce : list N }.
Definition no_config := mkconfig [] [] [] [] [].
Definition opt_ubi (v : variant) (typ : N) (arg : list N) (G : list N) : list N :=
  match arg with [] => G | _ => ubi v G arg typ end.
(** configuration string: "SHA3", version 1, output length in bits, no tree *)
Definition cfg_string (outlen : nat) : list N :=
  [0x53; 0x48; 0x41; 0x33; 1; 0; 0; 0]%N ++ le_bytes 8 (8 * N.of_nat outlen) ++ zeros 16.
Definition skein_chain (v : variant) (outlen : nat) (c : config) : list N :=
  let G := opt_ubi v 0 (cKey c) (zeros (nw v)) in
  let G := ubi v G (cfg_string outlen) 4 in
  let G := opt_ubi v 8 (cPersonal c) G in
  let G := opt_ubi v 12 (cPublicKey c) G in
  let G := opt_ubi v 16 (cKeyID c) G in
  opt_ubi v 20 (cNonce c) G.
Definition skein_output (v : variant) (G : list N) (outlen : nat) : list N :=
  firstn outlen (flat_map (fun i => to_bytes (ubi v G (le_bytes 8 (N.of_nat i)) 63)) (seq 0 ((outlen + nb v - 1) / nb v))).
Definition skein (v : variant) (outlen : nat) (c : config) (m : list N) : list N :=
  skein_output v (ubi v (skein_chain v outlen c) m 48) outlen.

(** Call histories in which every Sum is preceded by a Write since the creation or the last Reset ([w] says whether
    there already was one). *)
Fixpoint written_first (w : bool) (ops : list op) : bool :=
  match ops with
  | [] => true
  | Write _ :: t => written_first true t
  | Sum _ :: t => w && written_first w t
  | Reset :: t => written_first false t
  end.

(** Known answers: appendix B (the initial chaining value of Skein-512-256) and appendix C (Skein-256-256 and
    Skein-512-512 of the byte FF). *)
Example skein512_256_iv : skein_chain V512 32 no_config =
  [0xCCD044A12FDB3E13; 0xE83590301A79A9EB; 0x55AEA0614F816E6F; 0x2A2767A4AE9B94DB;
   0xEC06025E74DD7683; 0xE7A436CDC4746251; 0xC36FBAF9393AD185; 0x3EEDBA1833EDFC13]%N.
Proof. vm_compute. reflexivity. Qed.
Example skein256_kat : skein V256 32 no_config [255]%N = be_bytes 32 0x0B98DCD198EA0E50A7A244C444E25C23DA30C10FC9A1F270A6637F1F34E67ED2.
Proof. vm_compute. reflexivity. Qed.
Example skein512_kat : skein V512 64 no_config [255]%N =
  be_bytes 64 0x71B7BCE6FE6452227B9CED6014249E5BF9A9754C3AD618CCC4E0AAE16B316CC8CA698D864307ED3E80B6EF1570812AC5272DC409B5A012DF2A579102F340617A.
Proof. vm_compute. reflexivity. Qed.
Example skein1024_kat : skein V1024 128 no_config [255]%N =
  be_bytes 128 0xE62C05802EA0152407CDD8787FDA9E35703DE862A4FBC119CFF8590AFE79250BCCC8B3FAF1BD2422AB5C0D263FB2F8AFB3F796F048000381531B6F00D85161BC0FFF4BEF2486B1EBCD3773FABF50AD4AD5639AF9040E3F29C6C931301BF79832E9DA09857E831E82EF8B4691C235656515D437D2BDA33BCEC001C67FFDE15BA8.
Proof. vm_compute. reflexivity. Qed.
