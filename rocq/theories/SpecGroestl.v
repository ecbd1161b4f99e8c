(** SpecGroestl.v -- Groestl (final-round version), from the specification document.
    A state is the list of its columns, each a list of 8 bytes (rows 0..7).  Uses nothing of the model. *)
From Coq Require Import List NArith Arith.
Require Import Verif.Base Verif.Buf Verif.SpecAes.
Import ListNotations.

(** Number of columns, number of rounds, ShiftBytes vectors of P and Q. *)
Record gro_par : Type := mkgro { g_v : nat; g_r : nat; g_sP : list nat; g_sQ : list nat }.
Definition gro_small : gro_par := mkgro 8 10 [0; 1; 2; 3; 4; 5; 6; 7] [1; 3; 5; 7; 0; 2; 4; 6].
Definition gro_big : gro_par := mkgro 16 14 [0; 1; 2; 3; 4; 5; 6; 11] [1; 3; 5; 11; 0; 2; 4; 6].

Section Spec.
Variable p : gro_par.
Notation v := (g_v p).
(** AddRoundConstant: the byte of the round constant of round [rd] in row [i], column [j]. *)
Definition gro_cP (rd j i : nat) : N := if i =? 0 then N.lxor (16 * N.of_nat j) (N.of_nat rd) else 0%N.
Definition gro_cQ (rd j i : nat) : N := if i =? 7 then N.lxor 0xff (N.lxor (16 * N.of_nat j) (N.of_nat rd)) else 0xff%N.
Definition gro_add (c : nat -> nat -> nat -> N) (rd : nat) (st : list (list N)) : list (list N) :=
  map (fun j => map (fun i => N.lxor (at_ (nth j st []) i) (c rd j i)) (seq 0 8)) (seq 0 v).
Definition gro_sub (st : list (list N)) : list (list N) := map (map aes_sbox) st.
(** ShiftBytes: row i rotated left by sigma_i. *)
Definition gro_shift (sigma : list nat) (st : list (list N)) : list (list N) :=
  map (fun j => map (fun i => at_ (nth ((j + nth i sigma 0) mod v) st []) i) (seq 0 8)) (seq 0 v).
(** MixBytes: every column multiplied by circ(02, 02, 03, 04, 05, 03, 05, 07) over the AES field. *)
Definition gro_B : list N := [2; 2; 3; 4; 5; 3; 5; 7]%N.
Definition gro_mix (st : list (list N)) : list (list N) :=
  map (fun col => map (fun i => fold_left N.lxor (map (fun k => gf_mul (at_ gro_B ((8 + k - i) mod 8)) (at_ col k)) (seq 0 8)) 0%N) (seq 0 8)) st.
Definition gro_round (c : nat -> nat -> nat -> N) (sigma : list nat) (st : list (list N)) (rd : nat) : list (list N) :=
  gro_mix (gro_shift sigma (gro_sub (gro_add c rd st))).
Definition gro_P (st : list (list N)) : list (list N) := fold_left (gro_round gro_cP (g_sP p)) (seq 0 (g_r p)) st.
Definition gro_Q (st : list (list N)) : list (list N) := fold_left (gro_round gro_cQ (g_sQ p)) (seq 0 (g_r p)) st.
Definition gro_xor (a b : list (list N)) : list (list N) :=
  map (fun j => map (fun i => N.lxor (at_ (nth j a []) i) (at_ (nth j b []) i)) (seq 0 8)) (seq 0 v).
(** f(h, m) = P(h xor m) xor Q(m) xor h; the bytes of a block fill the columns one after the other. *)
Definition gro_f (h : list (list N)) (m : list N) : list (list N) :=
  let m := chunks 8 m in gro_xor (gro_xor (gro_P (gro_xor h m)) (gro_Q m)) h.
(** Block size, initial value (the output size in bits as one big-endian number), padding (bit 1, zeros, 64-bit big-endian block count). *)
Definition gro_bs : nat := 8 * v.
Definition gro_iv (bits : N) : list (list N) := chunks 8 (be_bytes gro_bs bits).
Definition gro_blocks (m : list N) : nat := (length m + 8) / gro_bs + 1.
Definition gro_pad (m : list N) : list N := md_pad gro_bs 0x80 (be_bytes 8 (N.of_nat (gro_blocks m))) m.
(** The digest: the last [out] bytes of P(h) xor h. *)
Definition gro_hash (out : nat) (m : list N) : list N :=
  let h := fold_left gro_f (chunks gro_bs (gro_pad m)) (gro_iv (8 * N.of_nat out)) in
  skipn (gro_bs - out) (concat (gro_xor (gro_P h) h)).
End Spec.
(** Groestl-(8 out): up to 256 bits with the small, above with the large permutations. *)
Definition groestl (out : nat) : list N -> list N := gro_hash (if out <=? 32 then gro_small else gro_big) out.
