(** SpecHaval.v -- HAVAL (Zheng, Pieprzyk, Seberry, AUSCRYPT'92), 3, 4 or 5 passes, fingerprints of 128 to 256 bits.
    A state is the list [T0; ...; T7] of 32-bit words.  Uses nothing of the model. *)
From Coq Require Import List NArith Arith.
Require Import Verif.Base Verif.Buf.
Import ListNotations.

(** ** The boolean functions, in algebraic normal form (a sum of products of the inputs), on words. *)
Definition hv_and (l : list N) : N := match l with [] => 0xffffffff%N | a :: l' => fold_left N.land l' a end.
Definition hv_sum (x : list N) (mons : list (list nat)) : N := fold_left N.lxor (map (fun m => hv_and (map (at_ x) m)) mons) 0%N.
Definition hv_anf (j : nat) : list (list nat) :=
  match j with
  | 1 => [[1;4]; [2;5]; [3;6]; [0;1]; [0]]
  | 2 => [[1;2;3]; [2;4;5]; [1;2]; [1;4]; [2;6]; [3;5]; [4;5]; [0;2]; [0]]
  | 3 => [[1;2;3]; [1;4]; [2;5]; [3;6]; [0;3]; [0]]
  | 4 => [[1;2;3]; [2;4;5]; [3;4;6]; [1;4]; [2;6]; [3;4]; [3;5]; [3;6]; [4;5]; [4;6]; [0;4]; [0]]
  | _ => [[1;4]; [2;5]; [3;6]; [0;1;2;3]; [0;5]; [0]]
  end.
(** phi_{passes,j}: which of the registers x6, x5, ..., x0 feeds the argument 6, 5, ..., 0 of F_j (written in that order). *)
Definition hv_phi (passes j : nat) : list nat :=
  match passes, j with
  | 3, 1 => [1;0;3;5;6;2;4] | 3, 2 => [4;2;1;0;5;3;6] | 3, _ => [6;1;2;3;4;5;0]
  | 4, 1 => [2;6;1;4;5;3;0] | 4, 2 => [3;5;2;0;1;6;4] | 4, 3 => [1;4;3;6;0;2;5] | 4, _ => [6;4;0;5;2;1;3]
  | _, 1 => [3;4;1;0;5;2;6] | _, 2 => [6;2;1;0;3;4;5] | _, 3 => [2;6;0;4;3;1;5] | _, 4 => [1;5;3;2;0;4;6] | _, _ => [2;5;0;6;4;3;1]
  end.
(** Word processing orders. *)
Definition hv_ord (j : nat) : list nat :=
  match j with
  | 1 => seq 0 32
  | 2 => [5;14;26;18;11;28;7;16;0;23;20;22;1;10;4;8;30;3;21;9;17;24;29;6;19;12;15;13;2;25;31;27]
  | 3 => [19;9;4;20;28;17;8;22;29;14;25;12;24;30;16;26;31;15;7;3;1;0;18;27;13;6;21;10;23;11;5;2]
  | 4 => [24;4;0;14;2;7;28;23;26;6;30;20;18;25;19;3;22;11;31;21;8;27;12;9;1;29;5;15;17;10;16;13]
  | _ => [27;3;21;26;17;11;20;29;19;0;12;7;13;8;31;10;5;9;14;30;18;6;28;24;2;23;16;22;4;1;25;15]
  end.
(** The constants are the fractional part of pi: 8 words of initial state, then 32 words for each of the passes 2 to 5. *)
(** floor(2^b * arctan(1/x)) up to rounding: sum of (-1)^k 2^b / ((2k+1) x^(2k+1)). *)
Fixpoint hv_atan (fuel : nat) (sq t k : N) : N :=
  match fuel with O => 0%N | S f => (t / k - hv_atan f sq (t / sq) (k + 2))%N end.
(** pi = 16 arctan(1/5) - 4 arctan(1/239) (Machin), with 64 guard bits; the fractional part, 136 words. *)
Definition hv_pi_bits : N := (136 * 32 + 64)%N.
Definition hv_pi : N :=
  let one := N.shiftl 1 hv_pi_bits in
  let pi := (16 * hv_atan 1000 25 (one / 5) 1 - 4 * hv_atan 300 57121 (one / 239) 1)%N in
  N.shiftr (pi - 3 * one) 64.
Definition hv_const (i : nat) : N := N.land (N.shiftr hv_pi (32 * (135 - N.of_nat i))) 0xffffffff.
Definition hv_iv : list N := map hv_const (seq 0 8).
Definition hv_K (j n : nat) : N := hv_const (8 + 32 * (j - 2) + n).

(** Step n of pass j. *)
Definition hv_step (passes j : nat) (w : list N) (T : list N) (n : nat) : list N :=
  let f := hv_sum (rev (map (at_ T) (hv_phi passes j))) (hv_anf j) in
  let r := add32 (rotr32 f 7) (rotr32 (at_ T 7) 11) in
  let r := add32 r (at_ w (nth n (hv_ord j) 0)) in
  let r := if j =? 1 then r else add32 r (hv_K j n) in
  r :: firstn 7 T.
Definition hv_pass (passes : nat) (w : list N) (T : list N) (j : nat) : list N := fold_left (hv_step passes j w) (seq 0 32) T.
(** The updating algorithm on a 128-byte block. *)
Definition hv_f (passes : nat) (D : list N) (block : list N) : list N :=
  let w := map le_val (chunks 4 block) in
  map (fun p => add32 (fst p) (snd p)) (combine (fold_left (hv_pass passes w) (seq 1 passes) D) D).

(** Padding: a one bit, zeros, then version (1), passes, fingerprint length in bits and the 64-bit message length in bits:
    3 + 3 + 10 + 64 bits, low order first. *)
Definition hv_trailer (passes olen len : nat) : list N :=
  le_bytes 2 (1 + 8 * N.of_nat passes + 64 * (32 * N.of_nat olen)) ++ le_bytes 8 (8 * N.of_nat len).
Definition hv_pad (passes olen : nat) (m : list N) : list N := md_pad 128 1 (hv_trailer passes olen (length m)) m.

(** Tailoring to [olen] words.  Each of the registers left over is cut into [olen] fields, given by width, low bits first. *)
Definition hv_width (olen : nat) : list N :=
  match olen with 4 => [8;8;8;8]%N | 5 => [6;6;7;6;7]%N | 6 => [5;5;6;5;5;6]%N | _ => [4;5;4;5;4;5;5]%N end.
Definition hv_lo (olen i : nat) : N := fold_left N.add (firstn i (hv_width olen)) 0%N.
Definition hv_field (olen : nat) (x : N) (i : nat) : N := (N.shiftr x (hv_lo olen i) mod 2 ^ nth i (hv_width olen) 0)%N.
(** Juxtaposition of fields [(register, index)], the first one at the top. *)
Definition hv_juxt (olen : nat) (T : list N) (l : list (nat * nat)) : N :=
  fold_left (fun a p => (a * 2 ^ nth (snd p) (hv_width olen) 0 + hv_field olen (at_ T (fst p)) (snd p))%N) l 0%N.
Definition hv_fields (olen i : nat) : list (nat * nat) :=
  match olen with
  | 4 => [(7, i); (6, (i + 3) mod 4); (5, (i + 2) mod 4); (4, (i + 1) mod 4)]
  | 5 => [(7, i); (6, (i + 4) mod 5); (5, (i + 3) mod 5)]
  | 6 => [(7, i); (6, (i + 5) mod 6)]
  | 7 => [(7, 6 - i)]
  | _ => []
  end.
Definition hv_out (olen : nat) (T : list N) : list N :=
  concat (map (fun i => le_bytes 4 (add32 (at_ T i) (hv_juxt olen T (hv_fields olen i)))) (seq 0 olen)).

Definition hv_hash (passes olen : nat) (m : list N) : list N :=
  hv_out olen (fold_left (hv_f passes) (chunks 128 (hv_pad passes olen m)) hv_iv).
