(** SpecVmac.v -- VMAC (draft-krovetz-vmac-01) over a 128-bit block cipher.  [E] is encryption of a 16-byte block under the user's key. *)
From Coq Require Import List NArith Arith Bool.
From Verif Require Import Base.
Import ListNotations.

Section S.
Variable E : list N -> list N.
(** KDF: block i of the key material of the given index. *)
Definition kdf_block (index : N) (i : nat) : list N := E (index :: zeros 14 ++ [N.of_nat i]).
(** The big-endian 64-bit words of the L1 key of iteration [it]: blocks it .. it+7 of index 128. *)
Definition l1_key (it : nat) : list N := flat_map (fun i => map be_val (chunks 8 (kdf_block 128 i))) (seq it 8).
(** The L2 key: block [it] of index 192 with the three top bits of each 32-bit word cleared. *)
Definition l2_key (it : nat) : N := N.land (be_val (kdf_block 192 it)) 0x1fffffff1fffffff1fffffff1fffffff.
Definition p64 : N := 2 ^ 64 - 257.
Definition p127 : N := 2 ^ 127 - 1.
(** The L3 keys: the pairs of 64-bit words of index 224, without those holding a word >= p64.  (The block counter is one byte.) *)
Definition l3_pairs : list (N * N) :=
  filter (fun k => (fst k <? p64)%N && (snd k <? p64)%N) (map (fun i => let b := kdf_block 224 i in (be_val (firstn 8 b), be_val (skipn 8 b))) (seq 0 256)).
Definition l3_key (it : nat) : N * N := nth it l3_pairs (0, 0)%N.

(** NH on lists of 64-bit words. *)
Fixpoint nh_sum (k m : list N) : N :=
  match k, m with
  | k1 :: k2 :: k', m1 :: m2 :: m' => (((m1 + k1) mod 2 ^ 64) * ((m2 + k2) mod 2 ^ 64) + nh_sum k' m')%N
  | _, _ => 0%N
  end.
Definition NH (k m : list N) : N := (nh_sum k m mod 2 ^ 126)%N.
(** The 128-byte blocks of the message; an incomplete last one is zero-padded to a multiple of 16 bytes. *)
Definition pad16 (l : list N) : list N := l ++ zeros ((16 - length l mod 16) mod 16).
Definition vblocks (m : list N) : list (list N) := chunks 128 m ++ (if length m mod 128 =? 0 then [] else [pad16 (rest 128 m)]).
Definition L1 (it : nat) (m : list N) : list N := map (fun b => NH (l1_key it) (map le_val (chunks 8 b))) (vblocks m).
Definition L2 (it : nat) (bits : N) (a : list N) : N :=
  let k := l2_key it in
  let y := match a with [] => k | _ => fold_left (fun y x => (y * k + x) mod p127)%N a 1%N end in
  ((y + (bits mod 1024) * 2 ^ 64) mod p127)%N.
Definition L3 (it : nat) (x : N) : N :=
  let d := (2 ^ 64 - 2 ^ 32)%N in let '(k1, k2) := l3_key it in (((x / d + k1) * (x mod d + k2)) mod p64)%N.
Definition VHASH (it : nat) (m : list N) : N := L3 it (L2 it (8 * N.of_nat (length m)) (L1 it m)).
(** PDF: the pad for a tag of 8 or 16 bytes.  Two consecutive nonces share a block when the tag has 8 bytes. *)
Definition PDF (size : nat) (nonce : list N) : list N :=
  let index := (last nonce 0 mod (16 / N.of_nat size))%N in
  let block := zeros (16 - length nonce) ++ removelast nonce ++ [last nonce 0 - index]%N in
  slice (E block) (N.to_nat index * size) (N.to_nat index * size + size).
Definition vmac (size : nat) (nonce m : list N) : list N :=
  flat_map (fun it => be_bytes 8 ((be_val (slice (PDF size nonce) (8 * it) (8 * it + 8)) + VHASH it m) mod 2 ^ 64)%N) (seq 0 (size / 8)).
End S.
