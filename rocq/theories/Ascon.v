(** Ascon.v -- model of /repo/ascon (ascon.go, hash.go, aead.go, mac.go, utils.go) and proofs. *)
From Coq Require Import List NArith Arith Lia Bool.
From Verif Require Import Base Words HashAPI Buf Buf2 Refine Stream SpecAscon.
Import ListNotations.

(** ascon/ascon.go:115-128 roundConstant *)
Definition roundConstant : list N := [0xf0; 0xe1; 0xd2; 0xc3; 0xb4; 0xa5; 0x96; 0x87; 0x78; 0x69; 0x5a; 0x4b]%N.
(** ascon/ascon.go:138-175, one iteration of the loop of roundGeneric; rotl(x, -n) is RotateLeft64 *)
Definition ascon_iter (s : ast) (r : N) : ast :=
  let '(x0, x1, x2, x3, x4) := s in
  let x2 := N.lxor x2 r in
  let x0 := N.lxor x0 x4 in
  let x4 := N.lxor x4 x3 in
  let x2 := N.lxor x2 x1 in
  let t0 := N.lxor x4 (N.land (not64 x0) x1) in
  let t1 := N.lxor x0 (N.land (not64 x1) x2) in
  let t2 := N.lxor x1 (N.land (not64 x2) x3) in
  let t3 := N.lxor x2 (N.land (not64 x3) x4) in
  let t4 := N.lxor x3 (N.land (not64 x4) x0) in
  let x0 := t1 in let x1 := t2 in let x2 := t3 in let x3 := t4 in let x4 := t0 in
  let x1 := N.lxor x1 x0 in
  let x3 := N.lxor x3 x2 in
  let x0 := N.lxor x0 x4 in
  let x2 := not64 x2 in
  (N.lxor (N.lxor x0 (rotl64 x0 (64 - 19))) (rotl64 x0 (64 - 28)),
   N.lxor (N.lxor x1 (rotl64 x1 (64 - 61))) (rotl64 x1 (64 - 39)),
   N.lxor (N.lxor x2 (rotl64 x2 (64 - 1))) (rotl64 x2 (64 - 6)),
   N.lxor (N.lxor x3 (rotl64 x3 (64 - 10))) (rotl64 x3 (64 - 17)),
   N.lxor (N.lxor x4 (rotl64 x4 (64 - 7))) (rotl64 x4 (64 - 41)))%N.
(** ascon/ascon.go:130-184 roundGeneric (numRounds <= 12) *)
Definition roundGeneric (s : ast) (n : nat) : ast := fold_left ascon_iter (skipn (12 - n) roundConstant) s.
(** s[0] ^= v *)
Definition xor_s0 (s : ast) (v : N) : ast := let '(x0, x1, x2, x3, x4) := s in (N.lxor x0 v, x1, x2, x3, x4).
Definition s0of (s : ast) : N := let '(x0, _, _, _, _) := s in x0.

(** ascon/hash.go:90-97 struct digest *)
Record adig := mkad { asd : ast; abuf : list N; alen : nat; ab : nat; adone : bool }.
(** ascon/hash.go:137-145 initHash (blockSize, a, b, h), then roundA; h in {0, 256}, b <= a *)
Definition initHash (blockSize a b : nat) (h : N) : ast :=
  roundGeneric (w64 (N.shiftl (N.of_nat blockSize) 48 + N.shiftl (N.of_nat a) 40 + N.shiftl (N.of_nat (a - b)) 32 + h), 0, 0, 0, 0)%N 12.
(** ascon/hash.go:105-132 reset *)
Definition ad_reset (b : nat) : adig :=
  if (b =? 0) || (b =? 12) then
    mkad (0xee9398aadb67f03d, 0x8bb21831c60f1002, 0xb48a92db98d5da62, 0x43189921b8f8e3e8, 0x348fa5c9d525e140)%N (zeros 8) 0 12 false
  else if b =? 8 then
    mkad (0x01470194fc6528a6, 0x738ec38ac0adffa7, 0x2ec8e3296c76384c, 0xd6f6a54d7f52377d, 0xa13c42a223be8d87)%N (zeros 8) 0 8 false
  else mkad (initHash 64 12 b 256) (zeros 8) 0 b false.
(** absorbing one block: d.s[0] ^= getu64(b); d.roundB() *)
Definition ad_block (b : nat) (s : ast) (blk : list N) : ast := roundGeneric (xor_s0 s (be_val (firstn 8 blk))) b.
(** ascon/hash.go:155-189 write (the panic after Read is in the callers) *)
Definition ad_write (d : adig) (p : list N) : adig :=
  let '(s, x, nx) := writeC 8 (ad_block (ab d)) (asd d) (abuf d) (alen d) p in
  mkad s x nx (ab d) (adone d).
(** ascon/hash.go:191-208 finish *)
Definition ad_finish (d : adig) : adig :=
  let buf := firstn (alen d) (abuf d) ++ zeros (8 - alen d) in
  let buf := upd buf (alen d) (N.lor (at_ buf (alen d)) 0x80) in
  mkad (roundGeneric (xor_s0 (asd d) (be_val (firstn 8 buf))) 12) buf 0 (ab d) (adone d).
(** ascon/hash.go:210-225 sum (on a copy) *)
Definition ad_sum (d0 : adig) (b : list N) : list N :=
  let d := ad_finish d0 in
  snd (fold_left (fun (sb : ast * list N) i =>
    let '(s, b) := sb in
    let s := if i =? 0 then s else roundGeneric s (ab d) in
    (s, b ++ be_bytes 8 (s0of s))) (seq 0 4) (asd d, b)).

(** ascon/hash.go:11-21 NewHash, NewHasha *)
Definition NewHash : adig := ad_reset 12.
Definition NewHasha : adig := ad_reset 8.
(** ascon/hash.go:45-51 Write, 34-36 Sum, 28-30 Reset of type Hash *)
Definition hash_write (d : adig) (p : list N) : adig * nat :=
  let d := if ab d =? 0 then ad_reset (ab d) else d in (ad_write d p, length p).
Definition ascon_hash_impl : impl adig :=
  mkimpl hash_write (fun d b => (d, ad_sum d b)) (fun d => ad_reset (ab d)).
(** The zero value of type Hash (var h ascon.Hash) *)
Definition zero_hash : adig := mkad (0, 0, 0, 0, 0)%N (zeros 8) 0 0 false.

(** ascon/hash.go:69-73 Xof.Reset *)
Definition xof_reset (d : adig) : adig := mkad (initHash 64 12 12 0) (abuf d) 0 12 false.
(** ascon/hash.go:57-61 NewXof *)
Definition NewXof : adig := xof_reset zero_hash.
(** ascon/hash.go:75-82 Xof.Write; None = panic (Write after Read) *)
Definition xof_write (d : adig) (p : list N) : option (adig * nat) :=
  let d := if ab d =? 0 then xof_reset d else d in
  if adone d then None else Some (ad_write d p, length p).
(** ascon/hash.go:254-258: the loop over whole blocks; [n] bytes remain to be read *)
Fixpoint read_blocks (fuel : nat) (b : nat) (s : ast) (n : nat) : ast * list N * nat :=
  match fuel with
  | O => (s, [], n)
  | S f => if 8 <=? n then
             let s := roundGeneric s b in
             let '(s', out, n') := read_blocks f b s (n - 8) in
             (s', be_bytes 8 (s0of s) ++ out, n')
           else (s, [], n)
  end.
(** ascon/hash.go:228-272 read of [n] bytes; the result is the new state and the bytes stored *)
Definition ad_read (d : adig) (n : nat) : adig * list N :=
  let d := if adone d then d else let d := ad_finish d in mkad (asd d) (abuf d) (alen d) (ab d) true in
  if n =? 0 then (d, [])
  else
    let k := Nat.min n (8 - alen d) in
    let partial := (0 <? alen d) && (alen d <? 8) in
    let out1 := if partial then firstn k (skipn (alen d) (abuf d)) else [] in
    let len := if partial then alen d + k else alen d in
    if partial && ((len <? 8) || (n =? k)) then
      (mkad (asd d) (abuf d) len (ab d) true, out1)
    else
      let n := if partial then n - k else n in
      let '(len, out2, n) := if (8 <=? n) && (len =? 0) then (8, be_bytes 8 (s0of (asd d)), n - 8) else (len, [], n) in
      let '(s, out3, n) := read_blocks n (ab d) (asd d) n in
      if 0 <? n then
        let s := if len =? 8 then roundGeneric s (ab d) else s in
        let buf := be_bytes 8 (s0of s) in
        (mkad s buf (Nat.min n 8) (ab d) true, out1 ++ out2 ++ out3 ++ firstn n buf)
      else (mkad s (abuf d) len (ab d) true, out1 ++ out2 ++ out3).
(** ascon/hash.go:84-91 Xof.Read *)
Definition xof_read (d : adig) (n : nat) : adig * list N :=
  let d := if ab d =? 0 then xof_reset d else d in ad_read d n.

(** ** AEAD *)
(** ascon/ascon.go:8-21 expandKey, with blockSize 64, A 12, B 6; the key has 16 bytes *)
Definition expandKey (key nonce : list N) : ast :=
  roundGeneric (N.shiftl (w8 (N.of_nat (length key * 8))) 56 + N.shiftl 64 48 + N.shiftl 12 40 + N.shiftl (12 - 6) 32,
                be_val (slice key 0 8), be_val (slice key 8 16), be_val (slice nonce 0 8), be_val (slice nonce 8 16))%N 12.
(** ascon/ascon.go:23-50 mixAdditionalData *)
Definition mixAD (s : ast) (ad : list N) : ast :=
  if length ad <=? 0 then s
  else
    let '(s, ad) := loopB 8 (ad_block 6) (S (length ad)) s ad in
    if 0 <? length ad then
      let buf := copy_at (zeros 8) 0 ad in
      let n := Nat.min 8 (length ad) in
      let buf := upd buf n (N.lor (at_ buf n) 0x80) in
      roundGeneric (xor_s0 s (be_val buf)) 6
    else roundGeneric (xor_s0 s (N.shiftl 0x80 56)) 6.
(** ascon/ascon.go:56-62 and 85-92: loops of encrypt and decrypt; (state, output, input left) *)
Fixpoint enc_loop (fuel : nat) (s : ast) (p : list N) : ast * list N * list N :=
  match fuel with
  | O => (s, [], p)
  | S f => if 8 <=? length p then
             let s := xor_s0 s (be_val (firstn 8 p)) in
             let '(s', c, p') := enc_loop f (roundGeneric s 6) (skipn 8 p) in
             (s', be_bytes 8 (s0of s) ++ c, p')
           else (s, [], p)
  end.
Definition set_s0 (s : ast) (v : N) : ast := let '(_, x1, x2, x3, x4) := s in (v, x1, x2, x3, x4).
Fixpoint dec_loop (fuel : nat) (s : ast) (c : list N) : ast * list N * list N :=
  match fuel with
  | O => (s, [], c)
  | S f => if 8 <=? length c then
             let x := be_val (firstn 8 c) in
             let '(s', p, c') := dec_loop f (roundGeneric (set_s0 s x) 6) (skipn 8 c) in
             (s', be_bytes 8 (N.lxor x (s0of s)) ++ p, c')
           else (s, [], c)
  end.
(** ascon/ascon.go:52-79 encrypt: new state and contents of dst (len(p)+16 bytes, initially zero) *)
Definition ascon_encrypt (s : ast) (plaintext : list N) : ast * list N * nat :=
  let dst := zeros (length plaintext + 16) in
  let '(s, out, p) := enc_loop (S (length plaintext)) s plaintext in
  let dst := copy_at dst 0 out in
  if 0 <? length p then
    let buf := copy_at (zeros 8) 0 p in
    let n := Nat.min 8 (length p) in
    let buf := upd buf n (N.lor (at_ buf n) 0x80) in
    let s := xor_s0 s (be_val buf) in
    (s, copy_at dst (length out) (be_bytes 8 (s0of s)), length out + n)
  else (xor_s0 s (N.shiftl 0x80 56), dst, length out).
(** ascon/aead.go:60-67, 114-121: initialisation and additional data *)
Definition aead_start (key nonce ad : list N) : ast :=
  let '(x0, x1, x2, x3, x4) := expandKey key nonce in
  let k0 := be_val (slice key 0 8) in let k1 := be_val (slice key 8 16) in
  let '(x0, x1, x2, x3, x4) := mixAD (x0, x1, x2, N.lxor x3 k0, N.lxor x4 k1) ad in
  (x0, x1, x2, x3, N.lxor x4 1).
(** ascon/aead.go:78-89, 126-136: finalisation, the tag words *)
Definition aead_tag (key : list N) (s : ast) : N * N :=
  let k0 := be_val (slice key 0 8) in let k1 := be_val (slice key 8 16) in
  let '(x0, x1, x2, x3, x4) := s in
  let '(_, _, _, x3, x4) := roundGeneric (x0, N.lxor x1 k0, N.lxor x2 k1, x3, x4) 12 in
  (N.lxor x3 k0, N.lxor x4 k1).
(** ascon/aead.go:46-92 Seal; None = panic (nonce length) *)
Definition Seal (key dst nonce plaintext ad : list N) : option (list N) :=
  if negb (length nonce =? 16) then None
  else
    let s := aead_start key nonce ad in
    let '(s, c, off) := ascon_encrypt s plaintext in
    let '(t0, t1) := aead_tag key s in
    Some (dst ++ copy_at (copy_at c off (be_bytes 8 t0)) (off + 8) (be_bytes 8 t1)).
(** ascon/ascon.go:94-112 the last part of decrypt: [c] the last bytes (fewer than 8), p = dst of the
    same length; returns the plaintext bytes and the new state *)
Definition dec_last (s : ast) (c : list N) : ast * list N :=
  if 0 <? length c then
    let p := map (fun i => N.lxor (at_ c i) (w8 (N.shiftr (s0of s) (56 - N.of_nat i * 8)))) (seq 0 (length c)) in
    let x := fold_left (fun x i => N.lor x (shl64 (at_ p i) (56 - N.of_nat i * 8))) (seq 0 (length c)) 0%N in
    let x := N.lor x (N.shiftl 0x80 (56 - N.of_nat (length c) * 8)) in
    (xor_s0 s x, p)
  else (xor_s0 s (N.shiftl 0x80 56), []).
Definition ascon_decrypt (s : ast) (c : list N) : ast * list N :=
  let '(s, out, c') := dec_loop (S (length c)) s c in
  let '(s, p) := dec_last s c' in (s, out ++ p).
(** ascon/aead.go:94-151 Open; None = panic, otherwise (returned slice, is the error nil) *)
Definition Open (key dst nonce ciphertext ad : list N) : option (list N * bool) :=
  if negb (length nonce =? 16) then None
  else if length ciphertext <? 16 then Some (dst, false)
  else
    let n := length ciphertext - 16 in
    let expected := skipn n ciphertext in
    let s := aead_start key nonce ad in
    let '(s, p) := ascon_decrypt s (firstn n ciphertext) in
    let '(t0, t1) := aead_tag key s in
    let t0 := N.lxor t0 (be_val (slice expected 0 8)) in
    let t1 := N.lxor t1 (be_val (slice expected 8 16)) in
    let t := N.lor (w32 (N.shiftr t0 32)) (w32 t0) in
    let t := N.lor t (N.lor (w32 (N.shiftr t1 32)) (w32 t1)) in
    Some (dst ++ p, (t =? 0)%N).

(** ** MAC *)
(** ascon/mac.go:9-13 *)
Record amac := mkam { msd : ast; mbuf : list N; mlen : nat }.
Definition mac_xor (s : ast) (b : list N) : ast :=
  let '(x0, x1, x2, x3, x4) := s in
  (N.lxor x0 (be_val (slice b 0 8)), N.lxor x1 (be_val (slice b 8 16)),
   N.lxor x2 (be_val (slice b 16 24)), N.lxor x3 (be_val (slice b 24 32)), x4).
Definition mac_block (s : ast) (b : list N) : ast := roundGeneric (mac_xor s b) 12.
(** ascon/mac.go:138-157 expandKey; None = panic *)
Definition NewMAC (key : list N) : option amac :=
  if negb (length key =? 16) then None
  else Some (mkam (roundGeneric (N.shiftl (w8 (N.of_nat (length key * 8))) 56 + N.shiftl 128 48 + N.shiftl (N.lor 0x80 12) 40 + 128,
                                 be_val (slice key 0 8), be_val (slice key 8 16), 0, 0)%N 12) (zeros 32) 0).
(** ascon/mac.go:42-75 write *)
Definition mac_write (d : amac) (p : list N) : amac * nat :=
  let '(s, x, nx) := writeC 32 mac_block (msd d) (mbuf d) (mlen d) p in (mkam s x nx, length p).
(** ascon/mac.go:77-101 finish: the state *)
Definition mac_finish (d : amac) : ast :=
  let s := if mlen d =? 0 then xor_s0 (msd d) (N.shiftl 0x80 56)
           else let buf := firstn (mlen d) (mbuf d) ++ zeros (32 - mlen d) in
                let buf := upd buf (mlen d) (N.lor (at_ buf (mlen d)) 0x80) in
                mac_xor (msd d) buf in
  let '(x0, x1, x2, x3, x4) := s in roundGeneric (x0, x1, x2, x3, N.lxor x4 1) 12.
(** ascon/mac.go:103-112 Sum *)
Definition mac_sum (d : amac) (b : list N) : amac * list N :=
  let '(x0, x1, _, _, _) := mac_finish d in (d, (b ++ be_bytes 8 x0) ++ be_bytes 8 x1).
(** ascon/mac.go:116-134 Verify *)
Definition mac_verify (d : amac) (mac : list N) : bool :=
  if negb (length mac =? 16) then false
  else let '(x0, x1, _, _, _) := mac_finish d in
    let t0 := N.lxor x0 (be_val (slice mac 0 8)) in
    let t1 := N.lxor x1 (be_val (slice mac 8 16)) in
    let t := N.lor (w32 (N.shiftr t0 32)) (w32 t0) in
    let t := N.lor t (N.lor (w32 (N.shiftr t1 32)) (w32 t1)) in
    (t =? 0)%N.
(** Type MAC has no Reset; [impl] needs one, so it is never called in the theorems. *)
Definition mac_impl : impl amac := mkimpl mac_write mac_sum (fun d => d).

(** * Proofs *)
(** ** The permutation *)
Lemma of_bits_spec : forall n f i, N.testbit (of_bits n f) i = ((i <? N.of_nat n)%N && f i)%bool.
Proof.
  assert (B : forall n f, (of_bits n f < 2 ^ N.of_nat n)%N).
  { induction n as [|n IH]; intros f; [reflexivity|]. cbn [of_bits]. rewrite Nat2N.inj_succ, N.pow_succ_r'.
    specialize (IH f). destruct (f (N.of_nat n)); lia. }
  induction n as [|n IH]; intros f i; [cbn [of_bits]; rewrite N.bits_0; destruct i; reflexivity|].
  cbn [of_bits]. replace (if f (N.of_nat n) then 2 ^ N.of_nat n else 0)%N with (N.b2n (f (N.of_nat n)) * 2 ^ N.of_nat n)%N
    by (destruct (f (N.of_nat n)); cbn [N.b2n]; lia).
  rewrite add_shift_lxor by apply B. rewrite N.lxor_spec, IH.
  destruct (N.lt_trichotomy i (N.of_nat n)) as [H|[H|H]].
  - rewrite N.shiftl_spec_low by assumption. rewrite xorb_false_r.
    destruct (N.ltb_spec i (N.of_nat n)), (N.ltb_spec i (N.of_nat (S n))); try lia; reflexivity.
  - subst i. rewrite N.shiftl_spec_high' by lia. rewrite N.sub_diag.
    destruct (N.ltb_spec (N.of_nat n) (N.of_nat n)), (N.ltb_spec (N.of_nat n) (N.of_nat (S n))); try lia.
    cbn [andb xorb]. destruct (f (N.of_nat n)); reflexivity.
  - rewrite N.shiftl_spec_high' by lia. 
    destruct (N.ltb_spec i (N.of_nat n)), (N.ltb_spec i (N.of_nat (S n))); try lia. cbn [andb xorb].
    replace (N.b2n (f (N.of_nat n))) with (N.b2n (f (N.of_nat n)) mod 2 ^ 1)%N by (destruct (f (N.of_nat n)); reflexivity).
    rewrite N.mod_pow2_bits_high by lia. reflexivity.
Qed.
Definition awf (s : ast) : Prop := let '(x0, x1, x2, x3, x4) := s in is64 x0 /\ is64 x1 /\ is64 x2 /\ is64 x3 /\ is64 x4.
Lemma not64_bit : forall x i, (i < 64)%N -> N.testbit (not64 x) i = negb (N.testbit x i).
Proof.
  intros x i H. unfold not64. rewrite N.lxor_spec. change 18446744073709551615%N with (N.ones 64). rewrite N.ones_spec_low by assumption.
  apply xorb_true_r.
Qed.
Lemma not64_is64 : forall x, is64 x -> is64 (not64 x).
Proof. intros. unfold not64. apply lxor_is64; auto. reflexivity. Qed.
Lemma land_is64 : forall a b, is64 a -> is64 (N.land a b).
Proof. intros. now apply land_lt_l. Qed.
Ltac w64s := repeat first [assumption | apply not64_is64 | apply lxor_is64 | apply land_is64 | apply rotl64_is64].
Lemma word_eq : forall a b, is64 a -> (forall i, (i < 64)%N -> N.testbit a i = b i) -> a = of_bits 64 b.
Proof.
  intros a b Ha H. apply N.bits_inj. intros i. rewrite of_bits_spec. change (N.of_nat 64) with 64%N.
  destruct (N.ltb_spec i 64) as [L|L]; cbn [andb]; auto. apply (proj1 (lt_pow2_bits 64 a) Ha i L).
Qed.
Lemma iter_ok : forall s i, awf s -> i < 12 -> ascon_iter s (at_ roundConstant i) = ascon_round s i /\ awf (ascon_round s i).
Proof.
  intros [[[[x0 x1] x2] x3] x4] i (H0 & H1 & H2 & H3 & H4) Hi.
  assert (EC : at_ roundConstant i = (0xf0 - 0x0f * N.of_nat i)%N /\ is64 (at_ roundConstant i)).
  { do 12 (destruct i as [|i]; [vm_compute; split; reflexivity|]). lia. }
  destruct EC as [EC HC]. unfold ascon_round. rewrite <- EC. set (c := at_ roundConstant i) in *. clearbody c.
  assert (HS : is64 (N.lxor x2 c)) by now apply lxor_is64.
  set (y2 := N.lxor x2 c) in *. 
  assert (K : forall x0 x1 y2 x3 x4, is64 x0 -> is64 x1 -> is64 y2 -> is64 x3 -> is64 x4 ->
    ascon_S (x0, x1, y2, x3, x4) =
      (let u0 := N.lxor x0 x4 in let u4 := N.lxor x4 x3 in let u2 := N.lxor y2 x1 in
       let t0 := N.lxor u4 (N.land (not64 u0) x1) in
       let t1 := N.lxor u0 (N.land (not64 x1) u2) in
       let t2 := N.lxor x1 (N.land (not64 u2) x3) in
       let t3 := N.lxor u2 (N.land (not64 x3) u4) in
       let t4 := N.lxor x3 (N.land (not64 u4) u0) in
       (N.lxor t1 t0, N.lxor t2 t1, not64 t3, N.lxor t4 t3, t0))).
  { clear. intros x0 x1 x2 x3 x4 H0 H1 H2 H3 H4. cbv zeta. unfold ascon_S. symmetry.
    repeat match goal with |- (_, _) = (_, _) => apply f_equal2 end; (apply word_eq; [w64s|]); intros i Hi; unfold ascon_column;
      repeat (rewrite ?N.lxor_spec, ?N.land_spec; rewrite ?not64_bit by assumption);
      destruct (N.testbit x0 i), (N.testbit x1 i), (N.testbit x2 i), (N.testbit x3 i), (N.testbit x4 i); reflexivity. }
  rewrite (K x0 x1 y2 x3 x4) by assumption. cbv zeta. unfold ascon_iter. fold y2. unfold ascon_L, rotr64. rewrite !N.lxor_assoc.
  split; [reflexivity|]. unfold awf. repeat split; w64s.
Qed.
Lemma roundGeneric_ok : forall n s, awf s -> n <= 12 -> roundGeneric s n = ascon_p n s /\ awf (ascon_p n s).
Proof.
  intros n s Hs Hn. unfold roundGeneric, ascon_p.
  assert (E : skipn (12 - n) roundConstant = map (at_ roundConstant) (seq (12 - n) n)).
  { do 13 (destruct n as [|n]; [vm_compute; reflexivity|]). lia. }
  rewrite E. clear E.
  assert (G : forall l s, awf s -> Forall (fun i => i < 12) l ->
    fold_left ascon_iter (map (at_ roundConstant) l) s = fold_left ascon_round l s /\ awf (fold_left ascon_round l s)).
  { clear. induction l as [|i l IH]; intros s Hs HF; [cbn; auto|]. inversion HF; subst. cbn [map fold_left].
    destruct (iter_ok s i Hs H1) as [-> W]. now apply IH. }
  apply G; auto. apply Forall_forall. intros i Hi. apply in_seq in Hi. lia.
Qed.

(** ** Absorbing *)
Lemma be_val_is64 : forall l, isbytes l -> length l <= 8 -> is64 (be_val l).
Proof.
  intros l H L. unfold is64, be_val. apply N.lt_le_trans with (2 ^ N.of_nat (8 * length (rev l)))%N.
  - apply le_val_lt. now apply isbytes_rev.
  - apply N.pow_le_mono_r; [discriminate|]. rewrite rev_length. lia.
Qed.
Lemma xor_s0_ok : forall s v, xor_s0 s v = axor0 s v.
Proof. intros [[[[? ?] ?] ?] ?] v. reflexivity. Qed.
Lemma axor0_wf : forall s v, awf s -> is64 v -> awf (axor0 s v).
Proof. intros [[[[x0 x1] x2] x3] x4] v (H0 & H1 & H2 & H3 & H4) Hv. unfold awf, axor0. repeat split; auto. now apply lxor_is64. Qed.
Lemma s0of_ok : forall s, s0of s = ax0 s.
Proof. intros [[[[? ?] ?] ?] ?]. reflexivity. Qed.
Lemma ax0_is64 : forall s, awf s -> is64 (ax0 s).
Proof. intros [[[[x0 x1] x2] x3] x4] (H0 & _). exact H0. Qed.
Definition blk_ok (n : nat) (b : list N) : Prop := length b = n /\ isbytes b.
Lemma chunks_blk_ok : forall n m, 0 < n -> isbytes m -> Forall (blk_ok n) (chunks n m).
Proof.
  intros n m Hn Hm. apply Forall_forall. intros b Hb.
  pose proof (proj1 (Forall_forall _ _) (chunks_all_length N n m Hn) b Hb) as L. split; auto.
  assert (isbytes (concat (chunks n m))).
  { pose proof (chunks_concat N n m Hn) as C. rewrite <- C in Hm. apply isbytes_app in Hm. apply Hm. }
  apply Forall_forall. intros x Hx. apply (proj1 (Forall_forall _ _) H). apply in_concat. eauto.
Qed.
Lemma ad_block_ok : forall b s blk, b <= 12 -> awf s -> blk_ok 8 blk ->
  ad_block b s blk = ascon_p b (axor0 s (be_val blk)) /\ awf (ad_block b s blk).
Proof.
  intros b s blk Hb Hs [L B]. unfold ad_block. rewrite firstn_all2 by lia. rewrite xor_s0_ok.
  assert (W : awf (axor0 s (be_val blk))) by (apply axor0_wf; auto; apply be_val_is64; auto; lia).
  destruct (roundGeneric_ok b _ W Hb) as [-> W']. auto.
Qed.
Lemma absorb_ok : forall b s bl, b <= 12 -> awf s -> Forall (blk_ok 8) bl ->
  fold_left (ad_block b) bl s = fold_left (fun s blk => ascon_p b (axor0 s (be_val blk))) bl s /\ awf (fold_left (ad_block b) bl s).
Proof.
  intros b s bl Hb Hs HF. apply (fold_left_agree _ _ _ _ awf (blk_ok 8)); auto; intros; now apply ad_block_ok.
Qed.
Lemma pad_upd : forall (r : list N) k, 0 < k ->
  upd (r ++ zeros k) (length r) (N.lor (at_ (r ++ zeros k) (length r)) 0x80) = r ++ 0x80%N :: zeros (k - 1).
Proof.
  intros r k Hk. destruct k as [|k]; [lia|]. change (zeros (S k)) with (0%N :: zeros k). unfold at_. rewrite nth_middle, upd_app_at.
  cbn [N.lor]. now replace (S k - 1) with k by lia.
Qed.
Lemma apad_ok : forall n m, 0 < n -> isbytes m -> blk_ok n (apad n m).
Proof.
  intros n m Hn Hm. pose proof (rest_length_lt N n m Hn). unfold apad. split.
  - rewrite app_length. cbn [length]. rewrite zeros_length. lia.
  - apply isbytes_app. split; [now apply isbytes_rest|]. constructor; [reflexivity|apply zeros_isbytes].
Qed.
Definition ad_rel (b : nat) (s0 : ast) (d : adig) (m : list N) : Prop :=
  isbytes m /\ ab d = b /\ adone d = false /\ asd d = fold_left (ad_block b) (chunks 8 m) s0 /\ buf_ok 8 8 (abuf d) (alen d) m.
Lemma ad_write_rel : forall b s0 d m p, ad_rel b s0 d m -> isbytes p -> ad_rel b s0 (ad_write d p) (m ++ p).
Proof.
  intros b s0 d m p (Hm & Eb & Ed & Es & Hb) Hp. unfold ad_write. rewrite Es, Eb.
  destruct (writeC_plain 8 (ad_block b) ltac:(lia) s0 m p _ _ Hb) as (x' & nx' & E & Hb'). rewrite E.
  unfold ad_rel. cbn [asd abuf alen ab adone]. split; [now apply isbytes_app|]. auto.
Qed.
Lemma ad_finish_ok : forall b s0 d m, b <= 12 -> awf s0 -> ad_rel b s0 d m ->
  asd (ad_finish d) = ascon_absorb b s0 m /\ awf (asd (ad_finish d)) /\ alen (ad_finish d) = 0 /\ ab (ad_finish d) = b.
Proof.
  intros b s0 d m Hb Hs0 (Hm & Eb & Ed & Es & (Lx & En & Ex)). pose proof (rest_length_lt N 8 m ltac:(lia)) as LR.
  unfold ad_finish. cbn [asd alen ab]. rewrite Ex, En. rewrite pad_upd by lia.
  replace (8 - length (rest 8 m) - 1) with (8 - 1 - length (rest 8 m)) by lia. fold (apad 8 m).
  destruct (apad_ok 8 m ltac:(lia) Hm) as [LP BP]. rewrite firstn_all2 by lia.
  destruct (absorb_ok b s0 (chunks 8 m) Hb Hs0 (chunks_blk_ok 8 m ltac:(lia) Hm)) as [EA WA].
  rewrite Es, xor_s0_ok. unfold ascon_absorb. rewrite <- EA.
  assert (W : awf (axor0 (fold_left (ad_block b) (chunks 8 m) s0) (be_val (apad 8 m)))) by (apply axor0_wf; auto; apply be_val_is64; auto; lia).
  destruct (roundGeneric_ok 12 _ W ltac:(lia)) as [-> W']. auto.
Qed.
(** ** Output *)
Lemma iter_S' : forall A (f : A -> A) n x, Nat.iter (S n) f x = f (Nat.iter n f x).
Proof. reflexivity. Qed.
Lemma rounds_iter : forall b s i, b <= 12 -> awf s ->
  Nat.iter i (fun s => roundGeneric s b) s = Nat.iter i (ascon_p b) s /\ awf (Nat.iter i (ascon_p b) s).
Proof.
  intros b s i Hb Hs. induction i as [|i [IH W]]; [split; auto|]. rewrite !iter_S', IH. now apply roundGeneric_ok.
Qed.
Definition wbytes (b : nat) (s : ast) (i : nat) : list N := be_bytes 8 (ascon_word b s i).
Lemma wbytes_len : forall b s i, length (wbytes b s i) = 8.
Proof. intros. apply be_bytes_length. Qed.
Lemma stream_bytes : forall b s n, ascon_stream b s n = map (sbyte 8 (wbytes b s)) (seq 0 n).
Proof.
  intros b s n. unfold ascon_stream. fold (wbytes b s). rewrite (stream_firstn 8 (wbytes b s) ltac:(lia) (wbytes_len b s)); auto.
  pose proof (Nat.div_mod n 8 ltac:(lia)). pose proof (Nat.mod_upper_bound n 8 ltac:(lia)). lia.
Qed.
Lemma ad_sum_ok : forall b s0 d m inp, b <= 12 -> awf s0 -> ad_rel b s0 d m ->
  ad_sum d inp = inp ++ ascon_stream b (ascon_absorb b s0 m) 32.
Proof.
  intros b s0 d m inp Hb Hs0 R. destruct (ad_finish_ok b s0 d m Hb Hs0 R) as (ES & W & _ & EB).
  unfold ad_sum. rewrite EB, ES. rewrite ES in W. set (S := ascon_absorb b s0 m) in *. clearbody S.
  unfold ascon_stream. change (32 / 8 + 1) with 5. cbn [seq fold_left flat_map Nat.eqb snd].
  pose proof (fun i => proj1 (rounds_iter b S i Hb W)) as RI. unfold ascon_word. rewrite <- !RI. rewrite !iter_S'.
  change (Nat.iter 0 (fun s => roundGeneric s b) S) with S. rewrite !s0of_ok.
  set (w1 := roundGeneric S b). set (w2 := roundGeneric w1 b). set (w3 := roundGeneric w2 b). rewrite <- !app_assoc. f_equal.
Qed.

(** ** The hash objects *)
Definition ivs (b : nat) : ast := ascon_p 12 (ascon_hash_iv b 256).
Lemma reset_12 : forall b, b = 0 \/ b = 12 -> ad_reset b = mkad (ivs 12) (zeros 8) 0 12 false.
Proof. intros b [-> | ->]; vm_compute; reflexivity. Qed.
Lemma reset_8 : ad_reset 8 = mkad (ivs 8) (zeros 8) 0 8 false.
Proof. vm_compute. reflexivity. Qed.
Lemma ivs_wf : forall b, b = 12 \/ b = 8 -> awf (ivs b).
Proof.
  intros b H. assert (W : awf (ascon_hash_iv b 256)) by (unfold ascon_hash_iv, awf; destruct H as [-> | ->]; repeat split; reflexivity).
  destruct (roundGeneric_ok 12 _ W ltac:(lia)) as [_ W']. exact W'.
Qed.
Global Opaque ascon_p ivs roundGeneric.
Lemma fresh_rel : forall b s0, ad_rel b s0 (mkad s0 (zeros 8) 0 b false) [].
Proof. intros. unfold ad_rel. cbn. repeat split; constructor. Qed.
Lemma hash_refines : forall b ops d m, b = 12 \/ b = 8 -> Forall op_bytes ops -> ad_rel b (ivs b) d m ->
  run ascon_hash_impl d ops = ideal_run (ascon_hash b) m ops.
Proof.
  intros b ops d m Hb HF HR. apply (run_refines_bytes _ ascon_hash_impl (ascon_hash b) (ad_rel b (ivs b))); auto.
  - intros d0 m0 p Hp R. pose proof R as (_ & Eb & _). cbn [i_write ascon_hash_impl]. unfold hash_write.
    assert (Z : ab d0 =? 0 = false) by (rewrite Eb; destruct Hb as [-> | ->]; reflexivity). rewrite Z. cbn [fst]. now apply ad_write_rel.
  - intros d0 m0 i R. cbn [i_sum ascon_hash_impl snd]. rewrite (ad_sum_ok b (ivs b) d0 m0 i ltac:(destruct Hb; lia) (ivs_wf b Hb) R). reflexivity.
  - intros d0 m0 R. pose proof R as (_ & Eb & _). cbn [i_reset ascon_hash_impl]. rewrite Eb.
    destruct Hb as [-> | ->]; [rewrite reset_12 by auto|rewrite reset_8]; apply fresh_rel.
Qed.

(** ** Reading *)
Definition rd_inv (b : nat) (S : ast) (d : adig) (pos : nat) : Prop :=
  ab d = b /\ adone d = true /\ alen d <= 8 /\ exists q,
  asd d = Nat.iter q (ascon_p b) S /\ pos = 8 * q + alen d /\ (alen d = 0 -> q = 0) /\
  (0 < alen d < 8 -> abuf d = wbytes b S q).
Lemma read_blocks_ok : forall fuel b S q n, b <= 12 -> awf S -> n <= fuel ->
  read_blocks fuel b (Nat.iter q (ascon_p b) S) n =
  (Nat.iter (q + n / 8) (ascon_p b) S, map (sbyte 8 (wbytes b S)) (seq (8 * (q + 1)) (8 * (n / 8))), n mod 8).
Proof.
  induction fuel as [|f IH]; intros b S q n Hb HS HF.
  - assert (n = 0) as -> by lia. cbn [read_blocks]. change (0 / 8) with 0. now rewrite Nat.add_0_r, Nat.mul_0_r.
  - cbn [read_blocks]. destruct (Nat.leb_spec 8 n) as [G|G].
    + destruct (rounds_iter b S q Hb HS) as [_ W]. destruct (roundGeneric_ok b _ W Hb) as [-> W'].
      rewrite <- iter_S'. rewrite IH by (auto; lia).
      assert (E : n / 8 = Datatypes.S ((n - 8) / 8)).
      { replace n with ((n - 8) + 1 * 8) at 1 by lia. rewrite Nat.div_add by lia. lia. }
      assert (E' : n mod 8 = (n - 8) mod 8).
      { replace n with ((n - 8) + 1 * 8) at 1 by lia. now rewrite Nat.mod_add by lia. }
      rewrite E', E. f_equal. f_equal; [f_equal; lia|].
      replace (8 * Datatypes.S ((n - 8) / 8)) with (8 + 8 * ((n - 8) / 8)) by lia. rewrite seq_app, map_app.
      replace (q + 1) with (Datatypes.S q) by lia.
      rewrite (sbyte_block 8 (wbytes b S) ltac:(lia) (wbytes_len b S)). rewrite s0of_ok.
      change (be_bytes 8 (ax0 (Nat.iter (Datatypes.S q) (ascon_p b) S))) with (wbytes b S (Datatypes.S q)). f_equal. f_equal. f_equal. lia.
    + rewrite Nat.div_small, Nat.mod_small by lia. now rewrite Nat.add_0_r, Nat.mul_0_r.
Qed.
Lemma ad_read_ok : forall b S d pos n, b <= 12 -> awf S -> rd_inv b S d pos ->
  exists d', ad_read d n = (d', map (sbyte 8 (wbytes b S)) (seq pos n)) /\ rd_inv b S d' (pos + n).
Proof.
  intros b S d pos n Hb HS (Eb & Ed & Hl & q & Es & Ep & Hq & Hbuf). unfold ad_read. rewrite Ed. cbv zeta.
  pose proof (wbytes_len b S) as WL.
  destruct (Nat.eqb_spec n 0) as [Hn|Hn].
  { subst n. exists d. cbn [seq map]. split; auto. rewrite Nat.add_0_r. unfold rd_inv. repeat split; auto. exists q. auto. }
  rewrite Eb, Es.
  (* the part after the leftover bytes *)
  assert (K : forall q len n out1 pos0, (len = 0 /\ q = 0 \/ len = 8) -> pos0 = 8 * q + len ->
    exists d',
    (let '(len, out2, n) := if (8 <=? n) && (len =? 0) then (8, be_bytes 8 (s0of (Nat.iter q (ascon_p b) S)), n - 8) else (len, [], n) in
      let '(s, out3, n) := read_blocks n b (Nat.iter q (ascon_p b) S) n in
      if 0 <? n then
        let s := if len =? 8 then roundGeneric s b else s in
        let buf := be_bytes 8 (s0of s) in
        (mkad s buf (Nat.min n 8) b true, out1 ++ out2 ++ out3 ++ firstn n buf)
      else (mkad s (abuf d) len b true, out1 ++ out2 ++ out3)) = (d', out1 ++ map (sbyte 8 (wbytes b S)) (seq pos0 n)) /\ rd_inv b S d' (pos0 + n)).
  { clear q pos n Hn Es Ep Hq Hbuf. intros q len n out1 pos0 HL EP.
    assert (K8 : forall n out2 p, p = 8 * q + 8 -> exists d',
      (let '(s, out3, n) := read_blocks n b (Nat.iter q (ascon_p b) S) n in
      if 0 <? n then
        let s := if 8 =? 8 then roundGeneric s b else s in
        let buf := be_bytes 8 (s0of s) in
        (mkad s buf (Nat.min n 8) b true, out1 ++ out2 ++ out3 ++ firstn n buf)
      else (mkad s (abuf d) 8 b true, out1 ++ out2 ++ out3)) = (d', out1 ++ out2 ++ map (sbyte 8 (wbytes b S)) (seq p n)) /\ rd_inv b S d' (p + n)).
    { clear n EP. intros n out2 p Ep. rewrite read_blocks_ok by auto.
      pose proof (Nat.div_mod n 8 ltac:(lia)) as DM. pose proof (Nat.mod_upper_bound n 8 ltac:(lia)) as MU.
      assert (SP : map (sbyte 8 (wbytes b S)) (seq p n) = map (sbyte 8 (wbytes b S)) (seq (8 * (q + 1)) (8 * (n / 8))) ++ map (sbyte 8 (wbytes b S)) (seq (8 * (q + n / 8 + 1)) (n mod 8))).
      { rewrite <- map_app. f_equal. rewrite DM at 1. rewrite seq_app. f_equal; f_equal; lia. }
      rewrite SP. destruct (Nat.ltb_spec 0 (n mod 8)) as [G|G].
      - change (8 =? 8) with true. cbv iota zeta. destruct (rounds_iter b S (q + n / 8) Hb HS) as [_ W]. destruct (roundGeneric_ok b _ W Hb) as [-> _].
        rewrite <- iter_S'. eexists. split; [f_equal; f_equal; f_equal; f_equal|].
        + pose proof (sbyte_part 8 (wbytes b S) ltac:(lia) WL (q + n / 8 + 1) 0 (n mod 8) ltac:(lia)) as P.
          rewrite Nat.add_0_r in P. rewrite P. cbn [skipn]. unfold wbytes, ascon_word. rewrite s0of_ok. now rewrite Nat.add_1_r.
        + unfold rd_inv. cbn [ab adone alen asd abuf]. replace (Nat.min (n mod 8) 8) with (n mod 8) by lia.
          repeat split; auto; try lia. exists (Datatypes.S (q + n / 8)). split; auto. split; [lia|]. split; [lia|].
          intros _. unfold wbytes, ascon_word. now rewrite s0of_ok.
      - assert (n mod 8 = 0) as Z by lia. rewrite Z. cbn [seq map]. rewrite app_nil_r. eexists. split; [reflexivity|].
        unfold rd_inv. cbn [ab adone alen asd abuf]. repeat split; auto. exists (q + n / 8). split; auto. split; [lia|]. split; lia. }
    destruct (Nat.leb_spec 8 n) as [G|G]; cbn [andb].
    - destruct (Nat.eqb_spec len 0) as [L0|L0].
      + destruct HL as [[_ Q0]|HL]; [|lia]. subst q len.
        destruct (K8 (n - 8) (be_bytes 8 (s0of (Nat.iter 0 (ascon_p b) S))) 8 ltac:(lia)) as (d' & E & R).
        exists d'. split.
        * etransitivity; [exact E|]. f_equal. f_equal. subst pos0. replace n with (8 + (n - 8)) at 2 by lia. rewrite seq_app, map_app. f_equal.
        * subst pos0. replace (8 * 0 + 0 + n) with (8 + (n - 8)) by lia. exact R.
      + assert (len = 8) as -> by lia. destruct (K8 n [] pos0 ltac:(lia)) as (d' & E & R). exists d'. split; [exact E|exact R].
    - destruct HL as [[-> ->]| ->].
      + rewrite read_blocks_ok by auto. rewrite Nat.div_small, Nat.mod_small by lia. rewrite Nat.mul_0_r. cbn [seq map Nat.add].
        destruct (Nat.ltb_spec 0 n) as [Z|Z].
        * change (0 =? 8) with false. cbv iota zeta. change (Nat.iter 0 (ascon_p b) S) with S. eexists. split; [f_equal; f_equal|].
          -- pose proof (sbyte_part 8 (wbytes b S) ltac:(lia) WL 0 0 n ltac:(lia)) as P. rewrite Nat.mul_0_r in P. cbn [skipn] in P.
             subst pos0. cbn [app]. change (8 * 0 + 0) with (0 + 0). etransitivity; [|symmetry; exact P]. unfold wbytes, ascon_word. change (Nat.iter 0 (ascon_p b) S) with S. now rewrite s0of_ok.
          -- unfold rd_inv. cbn [ab adone alen asd abuf]. replace (Nat.min n 8) with n by lia. repeat split; auto; try lia.
             exists 0. split; [auto|]. split; [lia|]. split; [lia|]. intros _. unfold wbytes, ascon_word. now rewrite s0of_ok.
        * assert (n = 0) as -> by lia. eexists. split; [reflexivity|]. unfold rd_inv. cbn [ab adone alen asd abuf]. repeat split; auto; try lia.
          exists 0. split; auto. split; [lia|]. split; lia.
      + destruct (K8 n [] pos0 ltac:(lia)) as (d' & E & R). exists d'. split; [exact E|exact R]. }
  destruct (Nat.ltb_spec 0 (alen d)) as [G1|G1]; cbn [andb].
  - destruct (Nat.ltb_spec (alen d) 8) as [G2|G2]; cbn [andb].
    + set (k := Nat.min n (8 - alen d)).
      assert (P : firstn k (skipn (alen d) (abuf d)) = map (sbyte 8 (wbytes b S)) (seq pos k)).
      { rewrite (Hbuf (conj G1 G2)), Ep. symmetry. apply sbyte_part; auto; lia. }
      rewrite P. destruct (Nat.ltb_spec (alen d + k) 8) as [G3|G3]; cbn [orb].
      * assert (k = n) by lia. rewrite H. eexists. split; [reflexivity|]. unfold rd_inv. cbn [ab adone alen asd abuf]. repeat split; auto; try lia.
        exists q. split; auto. split; [lia|]. split; [lia|auto].
      * destruct (Nat.eqb_spec n k) as [G4|G4].
        -- rewrite <- G4. eexists. split; [reflexivity|]. unfold rd_inv. cbn [ab adone alen asd abuf]. repeat split; auto; try lia.
           exists q. split; auto. split; [lia|]. split; [lia|]. lia.
        -- destruct (K q (alen d + k) (n - k) (map (sbyte 8 (wbytes b S)) (seq pos k)) (pos + k) ltac:(right; lia) ltac:(lia)) as (d' & E & R).
           exists d'. split; [|replace (pos + n) with (pos + k + (n - k)) by lia; exact R].
           etransitivity; [|etransitivity; [exact E|]].
           ++ reflexivity.
           ++ f_equal. rewrite <- map_app, <- seq_app. f_equal. f_equal. lia.
    + destruct (K q (alen d) n [] pos ltac:(right; lia) Ep) as (d' & E & R). exists d'. split; auto.
  - destruct (K q (alen d) n [] pos ltac:(left; split; [lia|apply Hq; lia]) Ep) as (d' & E & R). exists d'. split; auto.
Qed.

(** Clients of Xof: Write, Read(n bytes), Reset; a Write after a Read panics. *)
Inductive xop := XWrite (p : list N) | XRead (n : nat) | XReset.
Inductive xobs := XWrote (n : nat) | XBytes (out : list N) | XPanic.
Fixpoint xof_run (d : adig) (ops : list xop) : list xobs :=
  match ops with
  | [] => []
  | XWrite p :: t => match xof_write d p with None => [XPanic] | Some (d', n) => XWrote n :: xof_run d' t end
  | XRead n :: t => let '(d', out) := xof_read d n in XBytes out :: xof_run d' t
  | XReset :: t => xof_run (xof_reset d) t
  end.
Definition ivx : ast := ascon_p 12 (ascon_hash_iv 12 0).
Lemma initx : initHash 64 12 12 0 = ivx.
Proof. vm_compute. reflexivity. Qed.
Lemma ivx_wf : awf ivx.
Proof. vm_compute. repeat split; reflexivity. Qed.
Lemma xof_ivx : forall m n, ascon_xof m n = ascon_stream 12 (ascon_absorb 12 ivx m) n.
Proof. reflexivity. Qed.
Global Opaque ivx.
(** Xof state: either writing (history m) or reading at a position. *)
Definition xof_rel (d : adig) (m : list N) (rp : option nat) : Prop :=
  match rp with
  | None => ad_rel 12 ivx d m
  | Some pos => isbytes m /\ length (abuf d) = 8 /\ rd_inv 12 (ascon_absorb 12 ivx m) d pos
  end.
Lemma xof_bytes : forall m k n, map (sbyte 8 (wbytes 12 (ascon_absorb 12 ivx m))) (seq k n) = skipn k (ascon_xof m (k + n)).
Proof.
  intros m k n. rewrite xof_ivx, stream_bytes, seq_app, map_app. cbn [plus].
  now rewrite skipn_app_len by now rewrite map_length, seq_length.
Qed.
Lemma ad_read_buf : forall d n, length (abuf d) = 8 -> adone d = true -> length (abuf (fst (ad_read d n))) = 8.
Proof.
  intros d n Hl Hd. unfold ad_read. rewrite Hd. cbv zeta. destruct (n =? 0); [exact Hl|].
  destruct ((0 <? alen d) && (alen d <? 8) && _); [exact Hl|].
  match goal with |- context [if ?c then (8, _, _) else _] => destruct c end;
  match goal with |- context [read_blocks ?a ?b ?c ?e] => destruct (read_blocks a b c e) as [[? ?] ?] end;
  match goal with |- context [0 <? ?k] => destruct (0 <? k) end; cbn [fst abuf]; auto; apply be_bytes_length.
Qed.
Lemma xof_rel_b : forall d m rp, xof_rel d m rp -> ab d =? 0 = false /\ length (abuf d) = 8.
Proof.
  intros d m [pos|] H; cbn [xof_rel] in H.
  - destruct H as (_ & L & (-> & _)). auto.
  - destruct H as (_ & -> & _ & _ & (L & _)). auto.
Qed.
Lemma xof_reset_rel : forall d, length (abuf d) = 8 -> xof_rel (xof_reset d) [] None.
Proof. intros d L. cbn [xof_rel]. unfold ad_rel, xof_reset. cbn [ab adone asd abuf alen]. rewrite initx. repeat split; auto; constructor. Qed.
Lemma absorb_wf : forall m, isbytes m -> awf (ascon_absorb 12 ivx m).
Proof.
  intros m Hm. unfold ascon_absorb.
  destruct (absorb_ok 12 ivx (chunks 8 m) ltac:(lia) ivx_wf (chunks_blk_ok 8 m ltac:(lia) Hm)) as [EA WA]. rewrite EA in WA.
  destruct (apad_ok 8 m ltac:(lia) Hm) as [LP BP].
  eapply roundGeneric_ok; [|lia]. apply axor0_wf; auto. apply be_val_is64; auto. lia.
Qed.
Lemma xof_read_rel : forall d m rp n, xof_rel d m rp ->
  let k := match rp with None => 0 | Some k => k end in
  snd (xof_read d n) = skipn k (ascon_xof m (k + n)) /\ xof_rel (fst (xof_read d n)) m (Some (k + n)).
Proof.
  intros d m rp n H. destruct (xof_rel_b d m rp H) as [Z L]. unfold xof_read. rewrite Z. cbv zeta.
  destruct rp as [pos|]; cbn [xof_rel] in H.
  - destruct H as (Hm & _ & R). pose proof R as (_ & Ed & _).
    destruct (ad_read_ok 12 _ d pos n ltac:(lia) (absorb_wf m Hm) R) as (d' & E & R').
    pose proof (ad_read_buf d n L Ed) as L'. rewrite E in *. cbn [fst snd] in *. split; [apply xof_bytes|]. cbn [xof_rel]. auto.
  - pose proof H as (Hm & Eb & Ed & Es & Hb).
    destruct (ad_finish_ok 12 ivx d m ltac:(lia) ivx_wf H) as (ES & W & EL & EB).
    set (d1 := mkad (asd (ad_finish d)) (abuf (ad_finish d)) 0 12 true).
    assert (E1 : ad_read d n = ad_read d1 n).
    { unfold ad_read. rewrite Ed. cbv iota. unfold d1 at 1. cbn [adone]. cbv zeta iota.
      replace (mkad (asd (ad_finish d)) (abuf (ad_finish d)) (alen (ad_finish d)) (ab (ad_finish d)) true) with d1 by (unfold d1; now rewrite EL, EB).
      reflexivity. }
    assert (L1 : length (abuf d1) = 8).
    { unfold d1, ad_finish. cbn [abuf]. rewrite upd_length, app_length, firstn_length, zeros_length.
      pose proof (buf_ok_nx_lt 8 8 _ _ _ ltac:(lia) Hb). lia. }
    assert (R : rd_inv 12 (ascon_absorb 12 ivx m) d1 0).
    { unfold rd_inv, d1. cbn [ab adone alen asd abuf]. repeat split; auto; try lia. exists 0. split; [exact ES|]. split; [lia|]. split; [auto|]. lia. }
    rewrite E1. destruct (ad_read_ok 12 _ d1 0 n ltac:(lia) (absorb_wf m Hm) R) as (d' & E & R').
    pose proof (ad_read_buf d1 n L1 eq_refl) as L'. rewrite E in *. cbn [fst snd plus] in *. split; [|cbn [xof_rel]; auto].
    exact (xof_bytes m 0 n).
Qed.
Fixpoint ideal_xof (m : list N) (rp : option nat) (ops : list xop) : list xobs :=
  match ops with
  | [] => []
  | XWrite p :: t => match rp with
                     | None => XWrote (length p) :: ideal_xof (m ++ p) None t
                     | Some _ => [XPanic]
                     end
  | XRead n :: t => let k := match rp with None => 0 | Some k => k end in
                    XBytes (skipn k (ascon_xof m (k + n))) :: ideal_xof m (Some (k + n)) t
  | XReset :: t => ideal_xof [] None t
  end.
Definition xop_bytes (o : xop) : Prop := match o with XWrite p => isbytes p | _ => True end.
Lemma xof_run_ok : forall ops d m rp, Forall xop_bytes ops -> xof_rel d m rp -> xof_run d ops = ideal_xof m rp ops.
Proof.
  induction ops as [|o ops IH]; intros d m rp HF HR; auto. inversion HF as [|? ? Ho HF']; subst.
  destruct (xof_rel_b d m rp HR) as [Z L]. destruct o as [p|n|]; cbn [xof_run ideal_xof].
  - unfold xof_write. rewrite Z. destruct rp as [pos|]; cbn [xof_rel] in HR.
    + destruct HR as (_ & _ & (_ & -> & _)). reflexivity.
    + pose proof HR as (_ & _ & -> & _). f_equal. apply IH; auto. cbn [xof_rel]. now apply ad_write_rel.
  - destruct (xof_read_rel d m rp n HR) as [E R]. cbv zeta. destruct (xof_read d n) as [d' out]. cbn [fst snd] in *.
    rewrite E. f_equal. now apply IH.
  - apply IH; auto. now apply xof_reset_rel.
Qed.

(** ** AEAD *)
Lemma slice8 : forall (l : list N), length l = 16 -> slice l 0 8 = firstn 8 l /\ slice l 8 16 = skipn 8 l.
Proof. intros l L. unfold slice. split; [reflexivity|]. apply firstn_all2. rewrite skipn_length. lia. Qed.
Definition kwf (k : list N) : Prop := length k = 16 /\ isbytes k.
Lemma kwf_words : forall k, kwf k -> is64 (be_val (firstn 8 k)) /\ is64 (be_val (skipn 8 k)).
Proof.
  intros k [L B]. split; apply be_val_is64.
  - now apply isbytes_firstn.
  - rewrite firstn_length. lia.
  - now apply isbytes_skipn.
  - rewrite skipn_length. lia.
Qed.
Lemma copy_pad : forall (p : list N) k, length p <= k -> copy_at (zeros k) 0 p = p ++ zeros (k - length p).
Proof.
  intros p k H. unfold copy_at. rewrite zeros_length, firstn_O, firstn_all2 by lia. cbn [app]. rewrite skipn_zeros. f_equal. f_equal. lia.
Qed.
Lemma shl80 : be_val (0x80%N :: zeros 7) = N.shiftl 0x80 56.
Proof. reflexivity. Qed.
Lemma mixAD_ok : forall s ad, awf s -> isbytes ad ->
  mixAD s ad = (if length ad =? 0 then s else fold_left (fun s blk => ascon_p 6 (axor0 s (be_val blk))) (chunks 8 ad ++ [apad 8 ad]) s) /\ awf (mixAD s ad).
Proof.
  intros s ad Hs Ha. unfold mixAD. destruct (Nat.leb_spec (length ad) 0) as [G|G]; destruct (Nat.eqb_spec (length ad) 0) as [Z|Z]; try lia; [auto|].
  rewrite loopB_ok by lia.
  destruct (absorb_ok 6 s (chunks 8 ad) ltac:(lia) Hs (chunks_blk_ok 8 ad ltac:(lia) Ha)) as [EA WA].
  rewrite EA in WA |- *. clear EA. rewrite fold_left_app. cbn [fold_left]. set (s1 := fold_left _ (chunks 8 ad) s) in *. clearbody s1.
  destruct (apad_ok 8 ad ltac:(lia) Ha) as [LP BP]. pose proof (rest_length_lt N 8 ad ltac:(lia)) as LR.
  assert (W1 : awf (axor0 s1 (be_val (apad 8 ad)))) by (apply axor0_wf; auto; apply be_val_is64; auto; lia).
  destruct (roundGeneric_ok 6 _ W1 ltac:(lia)) as [ER WR].
  destruct (Nat.ltb_spec 0 (length (rest 8 ad))) as [Q|Q].
  - rewrite copy_pad by lia. replace (Nat.min 8 (length (rest 8 ad))) with (length (rest 8 ad)) by lia. rewrite pad_upd by lia.
    replace (8 - length (rest 8 ad) - 1) with (8 - 1 - length (rest 8 ad)) by lia. fold (apad 8 ad). rewrite xor_s0_ok, ER. auto.
  - assert (EP : be_val (apad 8 ad) = N.shiftl 128 56).
    { unfold apad. assert (rest 8 ad = []) as -> by (apply length_zero_iff_nil; lia). apply shl80. }
    rewrite xor_s0_ok, <- EP, ER. auto.
Qed.
Lemma start_ok : forall key nonce ad, kwf key -> kwf nonce -> isbytes ad ->
  aead_start key nonce ad = ascon128_ad (ascon128_init key nonce) ad /\ awf (aead_start key nonce ad).
Proof.
  intros key nonce ad Hk Hn Ha. pose proof (kwf_words key Hk) as [K0 K1]. pose proof (kwf_words nonce Hn) as [N0' N1'].
  destruct Hk as [Lk Bk]. destruct Hn as [Ln Bn].
  unfold aead_start, expandKey, ascon128_ad, ascon128_init. rewrite Lk.
  destruct (slice8 key Lk) as [-> ->]. destruct (slice8 nonce Ln) as [-> ->].
  change (N.shiftl (w8 (N.of_nat (16 * 8))) 56 + N.shiftl 64 48 + N.shiftl 12 40 + N.shiftl (12 - 6) 32)%N with 0x80400c0600000000%N.
  set (s := (9241399655273594880%N, be_val (firstn 8 key), be_val (skipn 8 key), be_val (firstn 8 nonce), be_val (skipn 8 nonce))).
  assert (Ws : awf s) by (unfold s, awf; repeat split; auto; reflexivity).
  destruct (roundGeneric_ok 12 s Ws ltac:(lia)) as [-> W]. destruct (ascon_p 12 s) as [[[[x0 x1] x2] x3] x4]. destruct W as (W0 & W1 & W2 & W3 & W4).
  set (u := (x0, x1, x2, N.lxor x3 (be_val (firstn 8 key)), N.lxor x4 (be_val (skipn 8 key)))).
  assert (Wu : awf u) by (unfold u, awf; repeat split; auto; apply lxor_is64; auto).
  destruct (mixAD_ok u ad Wu Ha) as [EM WM]. rewrite <- EM. destruct (mixAD u ad) as [[[[y0 y1] y2] y3] y4].
  split; [reflexivity|]. destruct WM as (? & ? & ? & ? & ?). unfold awf. repeat split; auto. apply lxor_is64; auto. reflexivity.
Qed.
Lemma tag_ok : forall key s, kwf key -> awf s ->
  let '(t0, t1) := aead_tag key s in
  ascon128_final s key = be_bytes 8 t0 ++ be_bytes 8 t1 /\ is64 t0 /\ is64 t1.
Proof.
  intros key [[[[x0 x1] x2] x3] x4] Hk (W0 & W1 & W2 & W3 & W4). pose proof (kwf_words key Hk) as [K0 K1]. destruct Hk as [Lk Bk].
  unfold aead_tag, ascon128_final. destruct (slice8 key Lk) as [-> ->].
  set (u := (x0, N.lxor x1 (be_val (firstn 8 key)), N.lxor x2 (be_val (skipn 8 key)), x3, x4)).
  assert (Wu : awf u) by (unfold u, awf; repeat split; auto; apply lxor_is64; auto).
  destruct (roundGeneric_ok 12 u Wu ltac:(lia)) as [-> W]. destruct (ascon_p 12 u) as [[[[y0 y1] y2] y3] y4].
  destruct W as (? & ? & ? & ? & ?). split; auto. split; apply lxor_is64; auto.
Qed.
