(** SpecPanama.v -- the PANAMA hash function (Daemen, Clapp, "Fast Hashing and Stream Encryption with Panama", FSE'98). *)
From Coq Require Import List NArith Arith.
From Verif Require Import Base.
Import ListNotations.

(** The 17-word state a and the buffer b of 32 stages of 8 words. *)
Definition pan_words (f : nat -> N) (n : nat) : list N := map f (seq 0 n).
Definition stage (b : list (list N)) (j : nat) : list N := nth j b [].
(** lambda: d_0 = b_31 + q, d_25^i = b_24^i + b_31^(i+2 mod 8), d_j = b_(j-1) otherwise *)
Definition pan_lambda (b : list (list N)) (q : list N) : list (list N) :=
  map (fun j => if j =? 0 then pan_words (fun i => N.lxor (at_ (stage b 31) i) (at_ q i)) 8
                else if j =? 25 then pan_words (fun i => N.lxor (at_ (stage b 24) i) (at_ (stage b 31) ((i + 2) mod 8))) 8
                else stage b (j - 1)) (seq 0 32).
Definition pan_gamma (a : list N) : list N := pan_words (fun i => N.lxor (at_ a i) (N.lor (at_ a ((i + 1) mod 17)) (not32 (at_ a ((i + 2) mod 17))))) 17.
(** rotation of a word by n bits, 0 <= n < 32 *)
Definition pan_rot (x : N) (n : nat) : N := if n =? 0 then x else rotl32 x (N.of_nat n).
Definition pan_pi (a : list N) : list N := pan_words (fun i => pan_rot (at_ a (7 * i mod 17)) (i * (i + 1) / 2 mod 32)) 17.
Definition pan_theta (a : list N) : list N := pan_words (fun i => N.lxor (N.lxor (at_ a i) (at_ a ((i + 1) mod 17))) (at_ a ((i + 4) mod 17))) 17.
Definition pan_sigma (l b16 : list N) (a : list N) : list N :=
  pan_words (fun i => N.lxor (at_ a i) (if i =? 0 then 1%N else if i <=? 8 then at_ l (i - 1) else at_ b16 (i - 9))) 17.
Definition pan_iter (q l : list N) (st : list N * list (list N)) : list N * list (list N) :=
  let '(a, b) := st in (pan_sigma l (stage b 16) (pan_theta (pan_pi (pan_gamma a))), pan_lambda b q).
(** Push: q and l are the message block. *)
Definition pan_push (st : list N * list (list N)) (block : list N) := let p := map le_val (chunks 4 block) in pan_iter p p st.
(** Pull: q is a_1..a_8, l is b_4. *)
Definition pan_pull (st : list N * list (list N)) := pan_iter (slice (fst st) 1 9) (stage (snd st) 4) st.
(** Padding: a 1 bit (least significant first: byte 01), then zeros up to a multiple of 32 bytes. *)
Definition pan_pad (m : list N) : list N := m ++ 1%N :: zeros (31 - length m mod 32).
Definition panama (m : list N) : list N :=
  let st := fold_left pan_push (chunks 32 (pan_pad m)) (zeros 17, repeat (zeros 8) 32) in
  concat (map (le_bytes 4) (skipn 9 (fst (Nat.iter 32 pan_pull st)))).
