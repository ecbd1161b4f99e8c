(** SpecAscon.v -- Ascon v1.2 (Dobraunig, Eichlseder, Mendel, Schlaeffer; NIST LWC submission) and
    Ascon-Mac (IACR ePrint 2021/1574), written from the specifications, independent of the Go code.
    The state is five 64-bit words x0..x4; x0 holds the most significant bits. *)
From Coq Require Import List NArith Arith Bool.
From Verif Require Import Base.
Import ListNotations.

(** The number below 2^n whose bit [i] is [f i]. *)
Fixpoint of_bits (n : nat) (f : N -> bool) : N :=
  match n with O => 0 | S k => of_bits k f + (if f (N.of_nat k) then 2 ^ N.of_nat k else 0) end%N.

(** Table 5 of the specification: the 5-bit S-box. *)
Definition ascon_sbox : list N :=
  [0x04; 0x0b; 0x1f; 0x14; 0x1a; 0x15; 0x09; 0x02; 0x1b; 0x05; 0x08; 0x12; 0x1d; 0x03; 0x06; 0x1c;
   0x1e; 0x13; 0x07; 0x0e; 0x00; 0x0d; 0x11; 0x18; 0x10; 0x0c; 0x01; 0x19; 0x16; 0x0a; 0x0f; 0x17]%N.
Definition ast := (N * N * N * N * N)%type.
Definition b2n (b : bool) : N := if b then 1%N else 0%N.
(** Section 2.6.2: the S-box is applied to the five bits of each column; x0 is the most significant. *)
Definition ascon_column (s : ast) (i : N) : N :=
  let '(x0, x1, x2, x3, x4) := s in
  (16 * b2n (N.testbit x0 i) + 8 * b2n (N.testbit x1 i) + 4 * b2n (N.testbit x2 i) + 2 * b2n (N.testbit x3 i) + b2n (N.testbit x4 i))%N.
Definition ascon_S (s : ast) : ast :=
  let out k := of_bits 64 (fun i => N.testbit (nth (N.to_nat (ascon_column s i)) ascon_sbox 0%N) k) in
  (out 4, out 3, out 2, out 1, out 0)%N.
(** Section 2.6.3. *)
Definition ascon_L (s : ast) : ast :=
  let '(x0, x1, x2, x3, x4) := s in
  let sigma x a b := N.lxor x (N.lxor (rotr64 x a) (rotr64 x b)) in
  (sigma x0 19 28, sigma x1 61 39, sigma x2 1 6, sigma x3 10 17, sigma x4 7 41)%N.
(** Sections 2.6 and 2.6.1: round [i] of p^12 adds 0xf0 - 0x0f i to x2; p^r uses the last r rounds. *)
Definition ascon_round (s : ast) (i : nat) : ast :=
  let '(x0, x1, x2, x3, x4) := s in
  ascon_L (ascon_S (x0, x1, N.lxor x2 (0xf0 - 0x0f * N.of_nat i), x3, x4)%N).
Definition ascon_p (r : nat) (s : ast) : ast := fold_left ascon_round (seq (12 - r) r) s.

(** The first word, and adding a 64-bit block to it. *)
Definition ax0 (s : ast) : N := let '(x0, _, _, _, _) := s in x0.
Definition axor0 (s : ast) (v : N) : ast := let '(x0, x1, x2, x3, x4) := s in (N.lxor x0 v, x1, x2, x3, x4).
(** Padding: a 1 bit, then zeros up to a multiple of 64 bits; the last block is never empty. *)
Definition apad (bs : nat) (m : list N) : list N := rest bs m ++ 0x80%N :: zeros (bs - 1 - length (rest bs m)).

(** ** Hashing (Section 2.5): absorb with p^b between blocks, p^a after the last, squeeze with p^b. *)
Definition ascon_absorb (b : nat) (s0 : ast) (m : list N) : ast :=
  let s := fold_left (fun s blk => ascon_p b (axor0 s (be_val blk))) (chunks 8 m) s0 in
  ascon_p 12 (axor0 s (be_val (apad 8 m))).
(** Output word [i] and the first [n] output bytes. *)
Definition ascon_word (b : nat) (s : ast) (i : nat) : N := ax0 (Nat.iter i (ascon_p b) s).
Definition ascon_stream (b : nat) (s : ast) (n : nat) : list N :=
  firstn n (flat_map (fun i => be_bytes 8 (ascon_word b s i)) (seq 0 (n / 8 + 1))).
(** IV = 0^8 || r || a || a-b || h *)
Definition ascon_hash_iv (b : nat) (h : N) : ast := (64 * 2 ^ 48 + 12 * 2 ^ 40 + (12 - N.of_nat b) * 2 ^ 32 + h, 0, 0, 0, 0)%N.
Definition ascon_hash (b : nat) (m : list N) : list N :=
  ascon_stream b (ascon_absorb b (ascon_p 12 (ascon_hash_iv b 256)) m) 32.
Definition ascon_xof (m : list N) (n : nat) : list N :=
  ascon_stream 12 (ascon_absorb 12 (ascon_p 12 (ascon_hash_iv 12 0)) m) n.

(** ** Ascon-128 (Section 2.4): k = 128, r = 64, a = 12, b = 6. *)
Definition ascon128_init (key nonce : list N) : ast :=
  let k0 := be_val (firstn 8 key) in let k1 := be_val (skipn 8 key) in
  let '(x0, x1, x2, x3, x4) :=
    ascon_p 12 (0x80400c0600000000, k0, k1, be_val (firstn 8 nonce), be_val (skipn 8 nonce))%N in
  (x0, x1, x2, N.lxor x3 k0, N.lxor x4 k1).
Definition ascon128_ad (s : ast) (ad : list N) : ast :=
  let s := if length ad =? 0 then s
           else fold_left (fun s blk => ascon_p 6 (axor0 s (be_val blk))) (chunks 8 ad ++ [apad 8 ad]) s in
  let '(x0, x1, x2, x3, x4) := s in (x0, x1, x2, x3, N.lxor x4 1).
(** Encryption of whole blocks, then of the last (partial, possibly empty) one. *)
Definition ascon128_enc_step (st : ast * list N) (blk : list N) : ast * list N :=
  let '(s, c) := st in
  let s := axor0 s (be_val blk) in (ascon_p 6 s, c ++ be_bytes 8 (ax0 s)).
Definition ascon128_final (s : ast) (key : list N) : list N :=
  let k0 := be_val (firstn 8 key) in let k1 := be_val (skipn 8 key) in
  let '(x0, x1, x2, x3, x4) := s in
  let '(_, _, _, x3, x4) := ascon_p 12 (x0, N.lxor x1 k0, N.lxor x2 k1, x3, x4) in
  be_bytes 8 (N.lxor x3 k0) ++ be_bytes 8 (N.lxor x4 k1).
Definition ascon128 (key nonce ad pt : list N) : list N * list N :=
  let s := ascon128_ad (ascon128_init key nonce) ad in
  let '(s, c) := fold_left ascon128_enc_step (chunks 8 pt) (s, []) in
  let s := axor0 s (be_val (apad 8 pt)) in
  (c ++ firstn (length (rest 8 pt)) (be_bytes 8 (ax0 s)), ascon128_final s key).

(** ** Ascon-Mac (ePrint 2021/1574, Section 3): r_i = 256, r_o = 128, a = 12, t = 128. *)
Definition ascon_mac_init (key : list N) : ast :=
  ascon_p 12 (0x80808c0000000080, be_val (firstn 8 key), be_val (skipn 8 key), 0, 0)%N.
Definition axor256 (s : ast) (b : list N) : ast :=
  let '(x0, x1, x2, x3, x4) := s in
  (N.lxor x0 (be_val (slice b 0 8)), N.lxor x1 (be_val (slice b 8 16)),
   N.lxor x2 (be_val (slice b 16 24)), N.lxor x3 (be_val (slice b 24 32)), x4).
Definition ascon_mac (key m : list N) : list N :=
  let s := fold_left (fun s blk => ascon_p 12 (axor256 s blk)) (chunks 32 m) (ascon_mac_init key) in
  let '(x0, x1, x2, x3, x4) := axor256 s (apad 32 m) in
  let '(x0, x1, _, _, _) := ascon_p 12 (x0, x1, x2, x3, N.lxor x4 1) in
  be_bytes 8 x0 ++ be_bytes 8 x1.

(** Known answers: Ascon-Hash of the empty message (LWC KAT), and Ascon-128 with
    key = nonce = 000102..0f, empty plaintext and associated data. *)
Example ascon_hash_kat : ascon_hash 12 [] =
  be_bytes 32 0x7346bc14f036e87ae03d0997913088f5f68411434b3cf8b54fa796a80d251f91.
Proof. vm_compute. reflexivity. Qed.
Definition iota (n : nat) : list N := map N.of_nat (seq 0 n).
Example ascon128_kat : ascon128 (iota 16) (iota 16) [] [] = ([], be_bytes 16 0xE355159F292911F794CB1432A0103A8A).
Proof. vm_compute. reflexivity. Qed.
(** Ascon-Mac KAT 1: key 000102..0f, empty message. *)
Example ascon_mac_kat : ascon_mac (iota 16) [] = be_bytes 16 0xEB1AF688825D66BF2D53E135F9323315.
Proof. vm_compute. reflexivity. Qed.
