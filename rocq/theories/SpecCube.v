(** SpecCube.v -- CubeHash i+r/b+f-h (Bernstein, "CubeHash specification (2.B.1)"). *)
From Coq Require Import List NArith Arith Bool.
From Verif Require Import Base.
Import ListNotations.

(** Element i of a 32-word state; index i = 16 i0 + 8 j + 4 k + 2 l + m for x_(i0 j k l m). *)
Definition cube_map (f : nat -> N) : list N := map f (seq 0 32).
Definition upper (i : nat) : bool := 16 <=? i.
(** "Add x_0jklm into x_1jklm, for each (j,k,l,m)." *)
Definition cube_add (x : list N) : list N := cube_map (fun i => if upper i then add32 (at_ x i) (at_ x (i - 16)) else at_ x i).
(** "Rotate x_0jklm upwards by n bits." *)
Definition cube_rot (n : N) (x : list N) : list N := cube_map (fun i => if upper i then at_ x i else rotl32 (at_ x i) n).
(** "Swap x_0.. with x_0.." : the lower half with one index bit flipped *)
Definition cube_swap0 (bit : nat) (x : list N) : list N := cube_map (fun i => if upper i then at_ x i else at_ x (Nat.lxor i bit)).
(** "Xor x_1jklm into x_0jklm." *)
Definition cube_xor (x : list N) : list N := cube_map (fun i => if upper i then at_ x i else N.lxor (at_ x i) (at_ x (i + 16))).
(** "Swap x_1.. with x_1.." *)
Definition cube_swap1 (bit : nat) (x : list N) : list N := cube_map (fun i => if upper i then at_ x (Nat.lxor i bit) else at_ x i).
Definition cube_round (x : list N) : list N :=
  let x := cube_add x in let x := cube_rot 7 x in let x := cube_swap0 8 x in let x := cube_xor x in let x := cube_swap1 2 x in
  let x := cube_add x in let x := cube_rot 11 x in let x := cube_swap0 4 x in let x := cube_xor x in cube_swap1 1 x.
Definition cube_rounds (n : nat) (x : list N) : list N := Nat.iter n cube_round x.
(** The first three words are h/8, b, r; then i rounds. *)
Definition cube_iv (h b r i : nat) : list N := cube_rounds i (N.of_nat (h / 8) :: N.of_nat b :: N.of_nat r :: zeros 29).
(** Xor the b-byte block into the first b bytes of the state (words are little-endian), then r rounds. *)
Definition cube_block (r : nat) (x p : list N) : list N :=
  cube_rounds r (cube_map (fun i => N.lxor (at_ x i) (le_val (slice (p ++ zeros (128 - length p)) (4 * i) (4 * i + 4))))).
(** Append a 1 bit, then as few 0 bits as possible to reach a multiple of 8b bits. *)
Definition cube_pad (b : nat) (m : list N) : list N := m ++ 0x80%N :: zeros (b - 1 - length m mod b).
(** Finalize: xor 1 into the last state word, f rounds; output the first h/8 bytes of the state. *)
Definition cubehash (i r b f h : nat) (m : list N) : list N :=
  let x := fold_left (cube_block r) (chunks b (cube_pad b m)) (cube_iv h b r i) in
  let x := cube_rounds f (cube_map (fun k => if k =? 31 then N.lxor (at_ x k) 1 else at_ x k)) in
  firstn (h / 8) (concat (map (le_bytes 4) x)).
