(** SpecLuffa.v -- the Luffa v2 hash functions, from "Hash Function Luffa: Specification" (De Canniere, Sato, Watanabe, 2009):
    w = 3, 4 or 5 lanes of eight 32-bit words, message injection MI, w permutations Q_j of 8 steps. *)
From Coq Require Import List NArith Arith.
Require Import Verif.Base.
Import ListNotations.
Inductive lfv : Type := LF256 | LF384 | LF512.
Definition lf_w (v : lfv) : nat := match v with LF256 => 3 | LF384 => 4 | LF512 => 5 end.

(** Lanes are added word by word; multiplication by 02 is the shift by one word modulo x^8 + x^4 + x^3 + x + 1. *)
Definition lf_add (a b : list N) : list N := map (fun p => N.lxor (fst p) (snd p)) (combine a b).
Definition lf_mul2 (a : list N) : list N :=
  [at_ a 7; N.lxor (at_ a 0) (at_ a 7); at_ a 1; N.lxor (at_ a 2) (at_ a 7); N.lxor (at_ a 3) (at_ a 7); at_ a 4; at_ a 5; at_ a 6].
(** 2^j M *)
Definition lf_pow (j : nat) (m : list N) : list N := Nat.iter j lf_mul2 m.
(** section 3.2: message injection, before the message is added (w = 3: sum of 02 times the sum of all lanes; w = 4 and 5: followed
    by one and two layers of adding a neighbour to 02 times the lane) *)
Definition lane (V : list (list N)) (j : nat) : list N := nth j V [].
Definition lf_spread (V : list (list N)) (s : list N) : list (list N) := map (fun x => lf_add (lf_mul2 s) x) V.
Definition lf_layer (w d : nat) (V : list (list N)) : list (list N) :=
  map (fun j => lf_add (lf_mul2 (lane V j)) (lane V ((j + d) mod w))) (seq 0 w).
Definition lf_inject (v : lfv) (V : list (list N)) (M : list N) : list (list N) :=
  match v with
  | LF256 => let X := lf_spread V (lf_add (lf_add (lane V 0) (lane V 1)) (lane V 2)) in
             map (fun j => lf_add (lf_pow j M) (lane X j)) (seq 0 3)
  | LF384 => let X := lf_layer 4 3 (lf_spread V (lf_add (lf_add (lane V 0) (lane V 1)) (lf_add (lane V 2) (lane V 3)))) in
             map (fun j => lf_add (lane X j) (lf_pow j M)) (seq 0 4)
  | LF512 => let X := lf_layer 5 4 (lf_layer 5 1 (lf_spread V
                        (lf_add (lf_add (lf_add (lane V 0) (lane V 1)) (lf_add (lane V 2) (lane V 3))) (lane V 4)))) in
             map (fun j => lf_add (lane X j) (lf_pow j M)) (seq 0 5)
  end.

(** section 3.3: SubCrumb, the 4-bit S-box on the bits of four words (bit i of word k is bit k of the i-th nibble) *)
Definition lf_sbox : list N := [13; 14; 0; 1; 5; 10; 7; 6; 11; 3; 9; 12; 15; 8; 2; 4]%N.
Definition lf_word (f : N -> bool) : N := fold_right (fun i acc => if f (N.of_nat i) then N.setbit acc (N.of_nat i) else acc) 0%N (seq 0 32).
Definition lf_nibble (a0 a1 a2 a3 i : N) : N :=
  at_ lf_sbox (Nat.b2n (N.testbit a0 i) + 2 * Nat.b2n (N.testbit a1 i) + 4 * Nat.b2n (N.testbit a2 i) + 8 * Nat.b2n (N.testbit a3 i)).
Definition lf_crumb (k : nat) (a0 a1 a2 a3 : N) : N := lf_word (fun i => N.testbit (lf_nibble a0 a1 a2 a3 i) (N.of_nat k)).
(** MixWord *)
Definition lf_mix (x y : N) : N * N :=
  let y1 := N.lxor y x in
  let x1 := N.lxor (rotl32 x 2) y1 in
  let y2 := N.lxor (rotl32 y1 14) x1 in
  let x2 := N.lxor (rotl32 x1 10) y2 in
  (x2, rotl32 y2 1).
(** one step: SubCrumb on words 0-3 and on words 5, 6, 7, 4; MixWord on words k and k + 4; constants on words 0 and 4 *)
Definition lf_round (c : N * N) (a : list N) : list N :=
  let s := [lf_crumb 0 (at_ a 0) (at_ a 1) (at_ a 2) (at_ a 3); lf_crumb 1 (at_ a 0) (at_ a 1) (at_ a 2) (at_ a 3);
            lf_crumb 2 (at_ a 0) (at_ a 1) (at_ a 2) (at_ a 3); lf_crumb 3 (at_ a 0) (at_ a 1) (at_ a 2) (at_ a 3);
            lf_crumb 3 (at_ a 5) (at_ a 6) (at_ a 7) (at_ a 4); lf_crumb 0 (at_ a 5) (at_ a 6) (at_ a 7) (at_ a 4);
            lf_crumb 1 (at_ a 5) (at_ a 6) (at_ a 7) (at_ a 4); lf_crumb 2 (at_ a 5) (at_ a 6) (at_ a 7) (at_ a 4)] in
  let m := map (fun k => lf_mix (at_ s k) (at_ s (k + 4))) (seq 0 4) in
  let t := map fst m ++ map snd m in
  [N.lxor (at_ t 0) (fst c); at_ t 1; at_ t 2; at_ t 3; N.lxor (at_ t 4) (snd c); at_ t 5; at_ t 6; at_ t 7].
(** appendix: the step constants come from a 64-bit LFSR (t_L, t_R), one generator per permutation; the two halves are swapped
    after every shift *)
Definition lf_lfsr (t : N * N) : N * N :=
  let l := N.lor (shl32 (fst t) 1) (N.shiftr (snd t) 31) in
  let r := shl32 (snd t) 1 in
  if N.testbit (fst t) 31 then (N.lxor r 0x55c61c8d, N.lxor l 0xc4d6496c) else (r, l).
Fixpoint lf_consts (n : nat) (t : N * N) : list (N * N) :=
  match n with
  | O => []
  | S n => let t1 := lf_lfsr t in let t2 := lf_lfsr t1 in (snd t1, snd t2) :: lf_consts n t2
  end.
Definition lf_seeds : list (N * N) :=
  [(0x181cca53, 0x380cde06); (0x5b6f0876, 0xf16f8594); (0x7e106ce9, 0x38979cb0); (0xbb62f364, 0x92e93c29); (0x9a025047, 0xcff2a940)]%N.
(** Q_j: the tweak rotates words 4-7 left by j bits, then 8 steps *)
Definition lf_tweak (j : nat) (a : list N) : list N := firstn 4 a ++ map (fun x => match j with O => x | _ => rotl32 x (N.of_nat j) end) (skipn 4 a).
Definition lf_Q (j : nat) (a : list N) : list N := fold_left (fun x c => lf_round c x) (lf_consts 8 (nth j lf_seeds (0, 0)%N)) (lf_tweak j a).
(** the round function on one 32-byte block, words most significant byte first *)
Definition lf_F (v : lfv) (V : list (list N)) (b : list N) : list (list N) :=
  let X := lf_inject v V (map be_val (chunks 4 b)) in map (fun j => lf_Q j (lane X j)) (seq 0 (lf_w v)).
(** starting values *)
Definition lf_iv : list (list N) := [
  [0x6d251e69; 0x44b051e0; 0x4eaa6fb4; 0xdbf78465; 0x6e292011; 0x90152df4; 0xee058139; 0xdef610bb];
  [0xc3b44b95; 0xd9d2f256; 0x70eee9a0; 0xde099fa3; 0x5d9b0557; 0x8fc944b3; 0xcf1ccf0e; 0x746cd581];
  [0xf7efc89d; 0x5dba5781; 0x04016ce5; 0xad659c05; 0x0306194f; 0x666d1836; 0x24aa230a; 0x8b264ae7];
  [0x858075d5; 0x36d79cce; 0xe571f7d7; 0x204b1f67; 0x35870c6a; 0x57e9e923; 0x14bcb808; 0x7cde72ce];
  [0x6c68e9be; 0x5ec41e22; 0xc825b7c7; 0xaffb4363; 0xf5df3999; 0x0fc688f1; 0xb07224cc; 0x03e86cea]]%N.
(** padding: the bit 1 and zeros up to a whole block *)
Definition lf_pad (m : list N) : list N := m ++ 128%N :: zeros (31 - length m mod 32).
(** finalization: a blank round, output the sum of the lanes, and again for the second half of the longer digests *)
Definition lf_sum (V : list (list N)) : list N := match V with [] => [] | x :: V => flat_map (be_bytes 4) (fold_left lf_add V x) end.
Definition lf_hash (v : lfv) (n : nat) (m : list N) : list N :=
  let V0 := fold_left (lf_F v) (chunks 32 (lf_pad m)) (firstn (lf_w v) lf_iv) in
  let V1 := lf_F v V0 (zeros 32) in
  let V2 := lf_F v V1 (zeros 32) in
  firstn n (lf_sum V1 ++ lf_sum V2).
