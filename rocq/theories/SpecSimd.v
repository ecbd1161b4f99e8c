(** SpecSimd.v -- the SIMD hash functions SIMD-224/256/384/512 (Leurent, Bouillaguet, Fouque, "SIMD Is a Message Digest",
    SHA-3 round 2 version), written from the paper and without reference to the code.
    The block is expanded by evaluating a polynomial over GF(257) at the powers of a root of unity; a four-register
    Feistel ladder of L parallel lanes absorbs the expanded words. *)
From Coq Require Import ZArith Bool Ascii String List NArith.
Require Import Verif.Base.
Import ListNotations.
Local Open Scope nat_scope.
Local Open Scope list_scope.

(** number of parallel lanes; blocks have 16 L bytes, the transform 32 L points *)
Definition sm_L (big : bool) : nat := if big then 8 else 4.
(** an element of order 32 L in GF(257) *)
Definition sm_alpha (big : bool) : Z := if big then 41%Z else 139%Z.

(** ** message expansion *)
(** the value of the polynomial c0 + c1 X + c2 X^2 + ... at b, in GF(257) *)
Definition sm_eval (b : Z) (c : list Z) : Z := fold_right (fun a v => ((a + b * v) mod 257)%Z) 0%Z c.
(** the representative in -128 .. 128 *)
Definition sm_signed (v : Z) : Z := if (v <=? 128)%Z then v else (v - 257)%Z.
(** the 32 L coefficients: the block, zeros, and a one on the last position; on the final block also a one two positions before *)
Definition sm_coeffs (big last : bool) (msg : list N) : list Z :=
  map Z.of_N msg ++ repeat 0%Z (16 * sm_L big - 4) ++ [0; if last then 1 else 0; 0; 1]%Z.
Definition sm_y (big last : bool) (msg : list N) (i : nat) : Z :=
  sm_signed (sm_eval ((sm_alpha big ^ Z.of_nat i) mod 257) (sm_coeffs big last msg)).
(** the inner code: two 16-bit products in one 32-bit word *)
Definition sm_I (c a b : Z) : N := Z.to_N ((c * a) mod 65536 + 65536 * ((c * b) mod 65536))%Z.
Definition sm_Zw (big : bool) (y : nat -> Z) (i j : nat) : N :=
  let L := sm_L big in
  if i <? 16 then sm_I 185 (y (2 * L * i + 2 * j)) (y (2 * L * i + 2 * j + 1))
  else if i <? 24 then sm_I 233 (y (2 * L * i + 2 * j - 32 * L)) (y (2 * L * i + 2 * j - 16 * L))
  else sm_I 233 (y (2 * L * i + 2 * j + 1 - 48 * L)) (y (2 * L * i + 2 * j + 1 - 32 * L)).
(** the order in which the expanded words are used *)
Definition sm_P : list nat :=
  [4; 6; 0; 2; 7; 5; 3; 1; 15; 11; 12; 8; 9; 13; 10; 14; 17; 18; 23; 20; 22; 21; 16; 19; 30; 24; 25; 31; 27; 29; 28; 26].
Definition sm_W (big : bool) (y : nat -> Z) (t : nat) : list N :=
  map (sm_Zw big y (nth t sm_P 0)) (seq 0 (sm_L big)).

(** ** the Feistel ladder *)
Definition sm_IF (a b c : N) : N := N.lor (N.land a b) (N.ldiff c a).
Definition sm_MAJ (a b c : N) : N := N.lor (N.lor (N.land a b) (N.land a c)) (N.land b c).
Definition sm_rot : list (list N) := [[3; 23; 17; 27]; [28; 19; 22; 7]; [29; 9; 15; 5]; [4; 13; 10; 25]]%N.
Definition sm_perm (big : bool) : list nat := if big then [1; 6; 2; 3; 5; 7; 4] else [1; 2; 3].
Definition sm_st : Type := list N * list N * list N * list N.
(** one step on all lanes: A'_j = ((D_j + w_j + F(A_j, B_j, C_j)) <<< s) + (A_(j xor k) <<< r), B' = A <<< r, C' = B, D' = C *)
Definition sm_step (L : nat) (F : N -> N -> N -> N) (r s : N) (k : nat) (w : list N) (S : sm_st) : sm_st :=
  let '(A, B, C, D) := S in
  (map (fun j => add32 (rotl32 (add32 (add32 (at_ D j) (at_ w j)) (F (at_ A j) (at_ B j) (at_ C j))) s)
                       (rotl32 (at_ A (Nat.lxor j k)) r)) (seq 0 L),
   map (fun a => rotl32 a r) A, B, C).
(** step t of the 36: 4 rounds of 8 steps, then 4 steps that feed the old chaining value *)
Definition sm_tstep (big : bool) (y : nat -> Z) (h : list N) (S : sm_st) (t : nat) : sm_st :=
  let L := sm_L big in
  let rot := nth (Nat.min (t / 8) 3) sm_rot [] in
  sm_step L (if (t <? 32) && (4 <=? t mod 8) then sm_MAJ else sm_IF)
    (at_ rot (t mod 4)) (at_ rot ((t + 1) mod 4)) (nth (t mod length (sm_perm big)) (sm_perm big) 0)
    (if t <? 32 then sm_W big y t else firstn L (skipn (L * (t - 32)) h)) S.
Definition sm_compress (big : bool) (h msg : list N) (last : bool) : list N :=
  let L := sm_L big in
  let X := map (fun k => N.lxor (at_ h k) (le_val (firstn 4 (skipn (4 * k) msg)))) (seq 0 (4 * L)) in
  let '(A, B, C, D) := fold_left (sm_tstep big (sm_y big last msg) h) (seq 0 36)
     (firstn L X, firstn L (skipn L X), firstn L (skipn (2 * L) X), skipn (3 * L) X) in
  A ++ B ++ C ++ D.

(** ** the hash functions: size in bytes 28, 32 (small), 48, 64 (big) *)
Definition sm_big (hs : nat) : bool := 32 <? hs.
Definition sm_ascii (s : string) : list N := map N_of_ascii (list_ascii_of_string s).
Definition sm_name (hs : nat) : string :=
  (if hs =? 28 then "SIMD-224 v1.1"%string else if hs =? 32 then "SIMD-256 v1.1"%string else if hs =? 48 then "SIMD-384 v1.1"%string else "SIMD-512 v1.1"%string).
(** the initial value: the name of the function, compressed into the zero state *)
Definition sm_iv (hs : nat) : list N :=
  let L := sm_L (sm_big hs) in
  sm_compress (sm_big hs) (repeat 0%N (4 * L)) (sm_ascii (sm_name hs) ++ zeros (16 * L - 13)) false.
(** zeros up to a whole number of blocks, then one final block holding the message length in bits modulo 2^64 (8 bytes, least significant first) *)
Definition sm_hash (hs : nat) (m : list N) : list N :=
  let big := sm_big hs in let bs := 16 * sm_L big in
  let padded := m ++ zeros ((bs - length m mod bs) mod bs) in
  let h := fold_left (fun h b => sm_compress big h b false) (chunks bs padded) (sm_iv hs) in
  let h := sm_compress big h (le_bytes 8 (8 * N.of_nat (length m)) ++ zeros (bs - 8)) true in
  firstn hs (flat_map (le_bytes 4) h).
