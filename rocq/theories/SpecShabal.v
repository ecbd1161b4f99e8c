(** SpecShabal.v -- Shabal-l (Bresson et al., SHA-3 submission), l a multiple of 32, 32 <= l <= 512. *)
From Coq Require Import List NArith Arith.
From Verif Require Import Base.
Import ListNotations.

Definition shU (x : N) : N := mul32 x 3.
Definition shV (x : N) : N := mul32 x 5.
(** One step (j, i) of the keyed permutation. *)
Definition sh_step (C M : list N) (AB : list N * list N) (ji : nat * nat) : list N * list N :=
  let '(A, B) := AB in let '(j, i) := ji in
  let k := (i + 16 * j) mod 12 in
  let a := N.lxor (N.lxor (N.lxor (shU (N.lxor (N.lxor (at_ A k) (shV (rotl32 (at_ A ((k + 11) mod 12)) 15))) (at_ C ((24 - i) mod 16)))) (at_ B ((i + 13) mod 16)))
             (N.land (at_ B ((i + 9) mod 16)) (not32 (at_ B ((i + 6) mod 16))))) (at_ M i) in
  (upd A k a, upd B i (N.lxor (rotl32 (at_ B i) 1) (not32 a))).
Definition sh_order : list (nat * nat) := list_prod (seq 0 3) (seq 0 16).
(** P_(M,C)(A,B): rotate B by 17, 48 steps, then add C into A 36 times. *)
Definition sh_P (M C A B : list N) : list N * list N :=
  let B := map (fun b => rotl32 b 17) B in
  let '(A, B) := fold_left (sh_step C M) sh_order (A, B) in
  (fold_left (fun A j => upd A (j mod 12) (add32 (at_ A (j mod 12)) (at_ C ((j + 3) mod 16)))) (seq 0 36) A, B).
(** One message round with counter W (64 bits): B += M, A ^= W, P, C -= M, swap B and C. *)
Definition sh_round (W : N) (st : list N * list N * list N) (block : list N) : list N * list N * list N :=
  let '(A, B, C) := st in
  let M := map le_val (chunks 4 block) in
  let B := map (fun i => add32 (at_ B i) (at_ M i)) (seq 0 16) in
  let A := map (fun i => N.lxor (at_ A i) (if i =? 0 then w32 W else if i =? 1 then N.shiftr W 32 else 0%N)) (seq 0 12) in
  let '(A, B) := sh_P M C A B in
  (A, map (fun i => sub32 (at_ C i) (at_ M i)) (seq 0 16), B).
(** Message rounds: the counter increases by one per block (modulo 2^64). *)
Definition sh_count (Wst : N * (list N * list N * list N)) (block : list N) : N * (list N * list N * list N) :=
  let '(W, st) := Wst in (w64 (W + 1), sh_round W st block).
Definition sh_rounds (W : N) (st : list N * list N * list N) (blocks : list (list N)) : list N * list N * list N := snd (fold_left sh_count blocks (W, st)).
(** Initial state: two prefix blocks holding l, l+1, ..., l+31 as words, with counters -1 and 0, from the zero state. *)
Definition sh_prefix (l o : nat) : list N := concat (map (fun i => le_bytes 4 (N.of_nat (l + o + i))) (seq 0 16)).
Definition sh_iv (l : nat) : list N * list N * list N :=
  sh_rounds (2 ^ 64 - 1) (zeros 12, zeros 16, zeros 16) [sh_prefix l 0; sh_prefix l 16].
(** Padding: a 1 bit and zeros to a multiple of 64 bytes. *)
Definition sh_pad (m : list N) : list N := m ++ 0x80%N :: zeros (63 - length m mod 64).
(** The last block is processed three more times with the same counter; the output is the last l/32 words of C. *)
Definition shabal (l : nat) (m : list N) : list N :=
  let blocks := chunks 64 (sh_pad m) in
  let st := sh_rounds 1 (sh_iv l) blocks in
  let b := last blocks [] in let W := w64 (N.of_nat (length blocks)) in
  let '(_, _, C) := sh_round W (sh_round W (sh_round W st b) b) b in
  concat (map (le_bytes 4) (skipn (16 - l / 32) C)).
