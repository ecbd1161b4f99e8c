(** SpecShavite.v -- SHAvite-3 (Biham, Dunkelman: "The SHAvite-3 Hash Function", SHA-3 round 2 version) with the
    zero salt, written from the specification, independently of the buffering and table look-ups of /repo/shavite.
    A quad is a 128-bit block held as four 32-bit little-endian words. *)
From Coq Require Import List NArith Arith.
From Verif Require Import Base SpecAes.
Import ListNotations.

Definition quad_bytes (q : list N) : list N := concat (map (le_bytes 4) q).
Definition le_words (b : list N) : list N := map le_val (chunks 4 b).
(** One keyless AES round on a quad. *)
Definition aes_quad (q : list N) : list N := le_words (aes_round (quad_bytes q)).
Definition xorw (a b : list N) : list N := map (fun p => N.lxor (fst p) (snd p)) (combine a b).
Definition quads (w : list N) (q : nat) : list N := slice w (4 * q) (4 * q + 4).
Definition rot_quad (q : list N) : list N := skipn 1 q ++ firstn 1 q.

(** ** Message expansion: quads are appended one by one to the list of round key words.
    [depth] = number of quads in a message block, [lin] = the word distance of the linear recurrence. *)
Definition nonlinear (depth : nat) (w ctr : list N) (q : nat) : list N :=
  w ++ xorw (xorw (aes_quad (rot_quad (quads w (q - depth)))) (quads w (q - 1))) ctr.
Definition linear_word (depth lin : nat) (w : list N) : list N :=
  w ++ [N.lxor (at_ w (length w - 4 * depth)) (at_ w (length w - lin))].
Definition linear (depth lin : nat) (w : list N) : list N := Nat.iter 4 (linear_word depth lin) w.

(** The rounds alternate: [depth] non-linear quads, then [depth] linear ones. *)
Definition expand (depth lin total : nat) (ctr : nat -> list N) (w : list N) : list N :=
  fold_left (fun w q => if Nat.odd (q / depth) then nonlinear depth w (ctr q) q else linear depth lin w)
            (seq depth (total - depth)) w.

(** The bit counter is mixed in four times, differently each time, once word complemented. *)
Definition ctr256 (c0 c1 : N) (q : nat) : list N :=
  if q =? 4 then [c0; not32 c1; 0; 0]%N
  else if q =? 14 then [0; c1; not32 c0; 0]%N
  else if q =? 21 then [0; 0; c1; not32 c0]%N
  else if q =? 31 then [c0; 0; 0; not32 c1]%N
  else [0; 0; 0; 0]%N.
Definition ctr512 (c0 c1 c2 c3 : N) (q : nat) : list N :=
  if q =? 8 then [c0; c1; c2; not32 c3]
  else if q =? 41 then [c3; c2; c1; not32 c0]
  else if q =? 79 then [c2; c3; c0; not32 c1]
  else if q =? 110 then [c1; c0; c3; not32 c2]
  else [0; 0; 0; 0]%N.
(** 32-bit word number [i] of the counter. *)
Definition cw (c : N) (i : N) : N := w32 (N.shiftr c (32 * i)).
Definition keys256 (c : N) (block : list N) : list N := expand 4 3 36 (ctr256 (cw c 0) (cw c 1)) (le_words block).
Definition keys512 (c : N) (block : list N) : list N := expand 8 7 112 (ctr512 (cw c 0) (cw c 1) (cw c 2) (cw c 3)) (le_words block).

(** Round function: [k] AES rounds, keyed before each, with consecutive quads of the key starting at [i]. *)
Definition sv_F (w : list N) (i k : nat) (x : list N) : list N :=
  fold_left (fun x j => aes_quad (xorw x (quads w j))) (seq i k) x.
(** E256: 12 Feistel rounds of 3 AES rounds. *)
Definition E256 (w : list N) (h : list N) : list N :=
  let '(L, R) := fold_left (fun '(L, R) i => (R, xorw L (sv_F w (3 * i) 3 R))) (seq 0 12) (quads h 0, quads h 1) in L ++ R.
(** E512: 14 rounds of a four-branch Feistel with 4 AES rounds. *)
Definition E512 (w : list N) (h : list N) : list N :=
  let '(A, B, C, D) := fold_left (fun '(A, B, C, D) i =>
     (D, xorw A (sv_F w (8 * i) 4 B), B, xorw C (sv_F w (8 * i + 4) 4 D))) (seq 0 14)
     (quads h 0, quads h 1, quads h 2, quads h 3) in A ++ B ++ C ++ D.
(** Davies-Meyer compression; [c] = number of message bits hashed so far, this block included. *)
Definition C256 (h block : list N) (c : N) : list N := xorw h (E256 (keys256 c block) h).
Definition C512 (h block : list N) (c : N) : list N := xorw h (E512 (keys512 c block) h).

(** ** The hash (HAIFA) *)
Record sv_params := mkSv { sv_bs : nat; sv_lenbytes : nat; sv_C : list N -> list N -> N -> list N }.
Definition sv256 := mkSv 64 8 C256.
Definition sv512 := mkSv 128 16 C512.
(** Initial value for an [hs]-byte digest: compress the zero block, then the block holding the digest size in bits. *)
Definition sv_iv (P : sv_params) (hs : nat) : list N :=
  let z := zeros (sv_bs P) in
  sv_C P (sv_C P (zeros (sv_bs P / 8)) z 0) (copy_at z 0 (le_bytes 2 (8 * N.of_nat hs))) 0.
(** Padding: 0x80, zeros, the bit length [L], the digest size in bits (16 bits). *)
Definition sv_pad (P : sv_params) (hs : nat) (L : N) (m : list N) : list N :=
  let tail := sv_lenbytes P + 2 in
  m ++ 0x80%N :: zeros ((2 * sv_bs P - 1 - tail - length m mod sv_bs P) mod sv_bs P)
    ++ le_bytes (sv_lenbytes P) L ++ le_bytes 2 (8 * N.of_nat hs).
Definition sv_chain (P : sv_params) (h : list N) (blocks : list (list N)) (counters : list N) : list N :=
  fold_left (fun h bc => sv_C P h (fst bc) (snd bc)) (combine blocks counters) h.
(** Counter of block number i of the padded message: message bits up to and including it, 0 if it has none. *)
Definition sv_counter (P : sv_params) (n i : nat) : N :=
  if sv_bs P * i <? n then (8 * N.of_nat (Nat.min n (sv_bs P * (i + 1))))%N else 0%N.
Definition shavite_hash (P : sv_params) (hs : nat) (m : list N) : list N :=
  let bl := chunks (sv_bs P) (sv_pad P hs (8 * N.of_nat (length m)) m) in
  firstn hs (quad_bytes (sv_chain P (sv_iv P hs) bl (map (sv_counter P (length m)) (seq 0 (length bl))))).

(** ** The same computation with wrong counters (used to say exactly what /repo computes):
    the counter of the i-th complete block is too big by [nth i offs 0] blocks, the final bit length by [fo] blocks. *)
Definition sv_mis_counter (P : sv_params) (offs : list N) (fo : N) (n i : nat) : N :=
  if i <? n / sv_bs P then (8 * N.of_nat (sv_bs P) * (N.of_nat i + 1 + nth i offs 0))%N
  else if sv_bs P * i <? n then (8 * (N.of_nat n + N.of_nat (sv_bs P) * fo))%N else 0%N.
Definition shavite_mis (P : sv_params) (hs : nat) (offs : list N) (fo : N) (m : list N) : list N :=
  let bl := chunks (sv_bs P) (sv_pad P hs (8 * (N.of_nat (length m) + N.of_nat (sv_bs P) * fo)) m) in
  firstn hs (quad_bytes (sv_chain P (sv_iv P hs) bl (map (sv_mis_counter P offs fo (length m)) (seq 0 (length bl))))).
