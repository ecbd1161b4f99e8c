(** SpecEcho.v -- ECHO (second-round version, 64-bit counter), from the specification document.
    A state is a list of 16 words, each a list of 16 bytes; word number r + 4c is in row r, column c.
    The AES round is the one of SpecAes.v.  Uses nothing of the model. *)
From Coq Require Import List NArith Arith.
Require Import Verif.Base Verif.Buf Verif.SpecAes.
Import ListNotations.

(** Number of words of the chaining variable, number of rounds. *)
Record echo_par : Type := mkecho { e_v : nat; e_r : nat }.
Definition echo_small : echo_par := mkecho 4 8.
Definition echo_big : echo_par := mkecho 8 10.

Definition echo_xor (a b : list N) : list N := map (fun i => N.lxor (at_ a i) (at_ b i)) (seq 0 16).
(** Two AES rounds, under the counter and under the salt. *)
Definition echo_word (salt : list N) (k : N) (w : list N) : list N :=
  echo_xor (aes_round (echo_xor (aes_round w) (le_bytes 8 k ++ zeros 8))) salt.
(** BIG.SubWords: the counter advances by one from word to word. *)
Definition echo_sub (salt : list N) (k : N) (st : list (list N)) : list (list N) :=
  map (fun i => echo_word salt ((k + N.of_nat i) mod 2 ^ 64)%N (nth i st [])) (seq 0 16).
(** BIG.ShiftRows: row r is rotated left by r. *)
Definition echo_shift (st : list (list N)) : list (list N) :=
  map (fun i => nth (i mod 4 + 4 * ((i / 4 + i mod 4) mod 4)) st []) (seq 0 16).
(** BIG.MixColumns: the AES MixColumns matrix applied to the bytes in equal position of the four words of a column. *)
Definition echo_mix (st : list (list N)) : list (list N) :=
  map (fun i => map (fun b =>
    let e k := at_ (nth (4 * (i / 4) + (i + k) mod 4) st []) b in
    N.lxor (N.lxor (gf_mul 2 (e 0)) (gf_mul 3 (e 1))) (N.lxor (e 2) (e 3))) (seq 0 16)) (seq 0 16).
Definition echo_round (salt : list N) (k : N) (st : list (list N)) (l : nat) : list (list N) :=
  echo_mix (echo_shift (echo_sub salt (k + 16 * N.of_nat l) st)).
Section Spec.
Variable p : echo_par.
Variable salt : list N.
(** The compression function: BIG.Final sums the words of the input and of the output in equal position modulo e_v. *)
Definition echo_compress (k : N) (V : list (list N)) (M : list N) : list (list N) :=
  let w0 := V ++ chunks 16 M in
  let w := fold_left (echo_round salt k) (seq 0 (e_r p)) w0 in
  map (fun i => fold_left (fun a j => echo_xor a (echo_xor (nth (i + e_v p * j) w0 []) (nth (i + e_v p * j) w [])))
                          (seq 0 (16 / e_v p)) (zeros 16)) (seq 0 (e_v p)).
(** Block size in bytes. *)
Definition echo_bs : nat := 16 * (16 - e_v p).
(** Padding: bit 1, zeros, hash size (16 bits), message length in bits (128 bits), little-endian. *)
Definition echo_pad (out : nat) (m : list N) : list N :=
  md_pad echo_bs 0x80 (le_bytes 2 (8 * N.of_nat out) ++ le_bytes 16 (8 * N.of_nat (length m))) m.
(** Counter of block i: the message bits hashed up to the end of the block, 0 for a block without message bits. *)
Definition echo_ctr (len i : nat) : N := if echo_bs * i <? len then (8 * N.of_nat (Nat.min (echo_bs * (i + 1)) len))%N else 0%N.
Definition echo_hash (out : nat) (m : list N) : list N :=
  let bl := chunks echo_bs (echo_pad out m) in
  let V := fold_left (fun V '(b, k) => echo_compress k V b) (combine bl (map (echo_ctr (length m)) (seq 0 (length bl))))
                     (repeat (le_bytes 16 (8 * N.of_nat out)) (e_v p)) in
  firstn out (concat V).
End Spec.
(** ECHO-(8 out) with a 16-byte salt. *)
Definition echo (salt : list N) (out : nat) : list N -> list N := echo_hash (if out <=? 32 then echo_small else echo_big) salt out.
