(** SpecFsb.v -- FSB (Augot, Finiasz, Gaborit, Manuel, Sendrier: SHA-3 proposal: FSB), on bits.
    The matrix H has n = w 2^s columns of r bits, in n/r quasi-cyclic blocks; block k is given by a p-bit vector (bits
    8 k (p/8+1), ... of a table), and its column j is the vector shifted cyclically by j, truncated to r bits.  One round xors w
    columns, one in each interval of 2^s columns, selected by the r bits of the state and the w s - r bits of the message block. *)
From Coq Require Import List NArith Arith Bool.
Require Import Verif.Base Verif.Buf Verif.SpecWhirl.
Import ListNotations.
Record fsb_par : Type := mkfsb { f_hash : nat; f_n : N; f_w : nat; f_r : nat; f_p : nat }.
Definition fsb_params : list fsb_par :=
  [mkfsb 48 393216 24 192 197; mkfsb 160 1310720 80 640 653; mkfsb 224 1835008 112 896 907;
   mkfsb 256 2097152 128 1024 1061; mkfsb 384 1507328 184 1472 1483; mkfsb 512 2031616 248 1984 1987]%nat.

(** bits, most significant first *)
Definition fs_bits (l : list N) : list bool := flat_map (fun b => map (fun j => N.testbit b (N.of_nat (7 - j))) (seq 0 8)) l.
Definition fs_val (l : list bool) : N := fold_left (fun v (b : bool) => (2 * v + if b then 1 else 0)%N) l 0%N.
Definition fs_bytes (l : list bool) : list N := map fs_val (chunks 8 l).
Definition fs_xor (a b : list bool) : list bool := map (fun p => xorb (fst p) (snd p)) (combine a b).

Section FSB.
Variable P : fsb_par.
Variable table : list N.
Definition fs_s : nat := N.to_nat (N.log2 (f_n P / N.of_nat (f_w P))).
(** message bits per round, and bits per column from the state and from the message *)
Definition fs_in : nat := f_w P * fs_s - f_r P.
Definition fs_iv : nat := f_r P / f_w P.
Definition fs_msg : nat := fs_in / f_w P.
Definition fs_vec (k q : nat) : bool := nth (8 * (k * (f_p P / 8 + 1)) + q) (fs_bits table) false.
(** column [c] of H *)
Definition fs_col (c : N) : list bool :=
  let k := N.to_nat (c / N.of_nat (f_r P)) in let j := N.to_nat (c mod N.of_nat (f_r P)) in
  map (fun u => fs_vec k ((u + f_p P - j) mod f_p P)) (seq 0 (f_r P)).
(** the column selected in interval i *)
Definition fs_select (iv m : list bool) (i : nat) : N :=
  (N.of_nat i * 2 ^ N.of_nat fs_s + fs_val (firstn fs_msg (skipn (i * fs_msg) m)) * 2 ^ N.of_nat fs_iv + fs_val (firstn fs_iv (skipn (i * fs_iv) iv)))%N.
Definition fs_compress (iv m : list bool) : list bool :=
  fold_left (fun x i => fs_xor x (fs_col (fs_select iv m i))) (seq 0 (f_w P)) (repeat false (f_r P)).
Definition fs_pad (m : list N) : list N := md_pad (fs_in / 8) 0x80 (be_bytes 8 (8 * N.of_nat (length m))) m.
Definition fsb (m : list N) : list N :=
  let st := fold_left (fun st b => fs_compress st (fs_bits b)) (chunks (fs_in / 8) (fs_pad m)) (repeat false (f_r P)) in
  firstn (f_hash P / 8) (wh_hash whirlpool_final (fs_bytes st)).
End FSB.
