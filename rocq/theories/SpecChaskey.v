(** SpecChaskey.v -- Chaskey (Mouha et al. 2014, eprint 2014/386) on whole messages. *)
From Coq Require Import List NArith Arith.
From Verif Require Import Base.
Import ListNotations.

Definition cstate := (N * N * N * N)%type.
Definition cround_spec (v : cstate) : cstate :=
  let '(v0, v1, v2, v3) := v in
  let '(v0, v1) := (add32 v0 v1, N.lxor (rotl32 v1 5) (add32 v0 v1)) in
  let v0 := rotl32 v0 16 in
  let '(v2, v3) := (add32 v2 v3, N.lxor (rotl32 v3 8) (add32 v2 v3)) in
  let '(v0, v3) := (add32 v0 v3, N.lxor (rotl32 v3 13) (add32 v0 v3)) in
  let '(v2, v1) := (add32 v2 v1, N.lxor (rotl32 v1 7) (add32 v2 v1)) in
  let v2 := rotl32 v2 16 in
  (v0, v1, v2, v3).
(** 128-bit strings are numbers: byte 0 is the least significant byte. *)
Definition words_of (b : N) : cstate := (w32 b, w32 (N.shiftr b 32), w32 (N.shiftr b 64), w32 (N.shiftr b 96)).
Definition of_words (v : cstate) : N :=
  let '(v0, v1, v2, v3) := v in (v0 + 2 ^ 32 * v1 + 2 ^ 64 * v2 + 2 ^ 96 * v3)%N.
Definition chaskey_pi (r : nat) (b : N) : N := of_words (Nat.iter r cround_spec (words_of b)).
(** multiplication by x modulo x^128 + x^7 + x^2 + x + 1 *)
Definition times2 (k : N) : N := N.lxor ((2 * k) mod 2 ^ 128)%N (if N.testbit k 127 then 0x87 else 0).
(** A message is cut into blocks m1 .. ml of 16 bytes, the last one having 1..16 bytes (0 for the
    empty message). *)
Definition nlast (m : list N) : nat := (length m - 1) / 16 * 16.
Definition chaskey_spec (r : nat) (key m : list N) : list N :=
  let k := le_val key in
  let h := fold_left (fun h b => chaskey_pi r (N.lxor h (le_val b))) (chunks 16 (firstn (nlast m) m)) k in
  let last := skipn (nlast m) m in
  let '(b, l) := if length last =? 16 then (le_val last, times2 k)
                 else (le_val (last ++ [1%N]), times2 (times2 k)) in
  le_bytes 16 (N.lxor (chaskey_pi r (N.lxor (N.lxor h b) l)) l).

(** Two of the authors' test vectors, used by the package tests (8 rounds, key = the four words below, messages
    0,1,..,n-1). *)
Definition ck_words (l : list N) : list N := concat (map (le_bytes 4) l).
Definition ck_test_key : list N := ck_words [0x833D3433; 0x009F389F; 0x2398E64F; 0x417ACF39]%N.
Example chaskey_vector_0 : chaskey_spec 8 ck_test_key [] = ck_words [0x792E8FE5; 0x75CE87AA; 0x2D1450B5; 0x1191970B]%N.
Proof. vm_compute. reflexivity. Qed.
Example chaskey_vector_16 : chaskey_spec 8 ck_test_key (map N.of_nat (seq 0 16)) = ck_words [0x79271CA9; 0xD66A1C71; 0x81CA474E; 0x49831CAD]%N.
Proof. vm_compute. reflexivity. Qed.
Example chaskey_vector_33 : chaskey_spec 8 ck_test_key (map N.of_nat (seq 0 33)) = ck_words [0xDF44EA33; 0xB0B2C398; 0x0583CE6F; 0x846D823E]%N.
Proof. vm_compute. reflexivity. Qed.
