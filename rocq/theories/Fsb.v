(** Fsb.v -- model of fsb/digest.go, fsb/fsb.go, fsb/utils.go.  The table Pi (fsb/sbox.go:3-1068) is a parameter.
    Simplification: the branches of write for a bit count that is not a multiple of 8 (digest.go:137-146, 159-192) are not modelled
    (the model gives None there); they are not reachable from Write and Sum, which the theorems show. *)
From Coq Require Import List NArith Arith.
Require Import Verif.Base Verif.HashAPI Verif.SpecWhirl Verif.Whirl Verif.SpecFsb.
Import ListNotations.

(** utils.go:39-48, logarithm (-1 is not modelled: 0) *)
Definition fm_logarithm (a : N) : nat := match find (fun i => N.eqb a (N.shiftl 1 (N.of_nat i))) (seq 0 32) with Some i => i | None => 0 end.
(** utils.go:8-32, bytesToUints, uintsToBytes *)
Definition fm_bytesToUints (b : list N) : list N := map (fun i => be_val (slice b (i * 4) (i * 4 + 4))) (seq 0 (length b / 4)).
Definition fm_uintsToBytes (w : list N) : list N := flat_map (be_bytes 4) w.
(** utils.go:35-37, LUI *)
Definition fm_LUI (a : nat) : nat := (a - 1) / 32 + 1.

(** the part of the digest that changes: syndrome, buffer, count, databitlen *)
Record fmd : Type := mkfm { fm_syn : list N; fm_buf : list N; fm_count : N; fm_len : N }.

Section Model.
Variable P : fsb_par.
Variable Pi : list N.
Let r := f_r P. Let w := f_w P. Let p := f_p P.
(** digest.go:59-68 *)
Definition fm_bpc : nat := fm_logarithm (f_n P / N.of_nat w).
Definition fm_inputsize : nat := w * fm_bpc - r.
Definition fm_bfiv : nat := r / w.
Definition fm_bfm : nat := fm_inputsize / w.
(** digest.go:74-87: firstLine[k][0] *)
Definition fm_line0 (k : nat) : list N :=
  let Pi_line := skipn (k * (p / 8 + 1)) Pi in
  let L := zeros ((p + r) / 8 + 1) in
  let L := fold_left (fun L j => upd L (r / 8 + j) (at_ Pi_line j)) (seq 0 (p / 8)) L in
  let pm := N.of_nat (p mod 8) in
  let L := upd L ((p + r) / 8) (N.land (at_ Pi_line (p / 8)) (w8 (N.shiftl (N.shiftl 1 pm - 1) (8 - pm)))) in
  fold_left (fun L j =>
    let L := upd L j (w8 (N.shiftl (at_ L (p / 8 + j)) pm)) in
    upd L j (N.lxor (at_ L j) (N.shiftr (at_ L (p / 8 + j + 1)) (8 - pm)))) (seq 0 (r / 8)) L.
(** digest.go:89-95: firstLine[k][j], j = 1..7 *)
Definition fm_linej (L0 : list N) (j : nat) : list N :=
  fold_left (fun L l =>
    let L := upd L l (N.lxor (at_ L l) (N.shiftr (at_ L0 l) (N.of_nat j))) in
    upd L (l + 1) (N.lxor (at_ L (l + 1)) (w8 (N.shiftl (at_ L0 l) (N.of_nat (8 - j)))))) (seq 0 ((p + r) / 8)) (zeros ((p + r) / 8 + 1)).
(** digest.go:71-96: firstLine[k] *)
Definition fm_firstLine (k : nat) : list (list N) := let L0 := fm_line0 k in L0 :: map (fm_linej L0) (seq 1 7).

(** digest.go:254-291: the index of the column for interval i *)
Definition fm_bitsum (src : list N) (from n sh : nat) (index : N) : N :=
  fold_left (fun ix j => N.lxor ix (N.shiftl (N.land (N.shiftr (at_ src (j / 8)) (N.of_nat (7 - j mod 8))) 1) (N.of_nat (from + n - j - 1 + sh)))) (seq from n) index.
Definition fm_index (syn buf : list N) (i : nat) : N :=
  let index := N.shiftl (N.of_nat i) (N.of_nat fm_bpc) in
  let index := match fm_bfiv with
    | 2 => N.lxor index (N.land (N.shiftr (at_ syn (i / 4)) (N.of_nat (6 - 2 * (i mod 4)))) 3)
    | 4 => N.lxor index (N.land (N.shiftr (at_ syn (i / 2)) (N.of_nat (4 - 4 * (i mod 2)))) 15)
    | 8 => N.lxor index (at_ syn i)
    | n => fm_bitsum syn (i * n) n 0 index
    end in
  match fm_bfm with
  | 2 => N.lxor index (N.shiftl (N.land (N.shiftr (at_ buf (i / 4)) (N.of_nat (6 - 2 * (i mod 4)))) 3) (N.of_nat fm_bfiv))
  | 4 => N.lxor index (N.shiftl (N.land (N.shiftr (at_ buf (i / 2)) (N.of_nat (4 - 4 * (i mod 2)))) 15) (N.of_nat fm_bfiv))
  | 8 => N.lxor index (N.shiftl (at_ buf i) (N.of_nat fm_bfiv))
  | n => fm_bitsum buf (i * n) n fm_bfiv index
  end.
(** digest.go:293-301: the xor of one column into newSyndrome *)
Definition fm_xorcol (ns : list N) (index : N) : list N :=
  let bidx := (index / N.of_nat r)%N in
  let ix := N.to_nat (index - bidx * N.of_nat r)%N in
  let temp := fm_bytesToUints (skipn (r / 8 - ix / 8) (nth (ix mod 8) (fm_firstLine (N.to_nat bidx)) [])) in
  fold_left (fun ns j => upd ns j (N.lxor (at_ ns j) (at_ temp j))) (rev (seq 0 (r / 32))) ns.
(** digest.go:247-305, performHash: the new syndrome (newSyndrome is cleared first) *)
Definition fm_performHash (syn buf : list N) : list N :=
  fm_uintsToBytes (fold_left (fun ns i => fm_xorcol ns (fm_index syn buf i)) (seq 0 w) (zeros (fm_LUI r))).
(** digest.go:53-102, Reset *)
Definition fm_reset : fmd := mkfm (zeros (fm_LUI r * 4)) (zeros (fm_inputsize / 8)) 0 0.
(** digest.go:121-197, write(data, databitlen); count, databitlen, inputsize are uint32 *)
Fixpoint fm_writebits (fuel : nat) (d : fmd) (data : list N) (bits : N) : option fmd :=
  match fuel with
  | O => None
  | S fuel =>
    let isz := N.of_nat fm_inputsize in
    if negb (fm_count d mod 8 =? 0)%N then None else
    if (w32 (bits + fm_count d) <? isz)%N then
      let k := N.to_nat ((bits - 1) / 8 + 1) in
      if (bits =? 0)%N then Some d else
      if (length data <? k)%nat then None else
      Some (mkfm (fm_syn d) (copy_at (fm_buf d) (N.to_nat (fm_count d / 8)) (firstn k data)) (w32 (fm_count d + bits)) (w64 (fm_len d + bits)))
    else
      let tmp := (isz - fm_count d)%N in
      let k := N.to_nat (tmp / 8) in
      if (length data <? k)%nat then None else
      let buf := copy_at (fm_buf d) (N.to_nat (fm_count d / 8)) (firstn k data) in
      fm_writebits fuel (mkfm (fm_performHash (fm_syn d) buf) buf 0 (w64 (fm_len d + tmp))) (skipn k data) (sub32 bits tmp)
  end.
Definition fm_bits (d : fmd) (data : list N) (bits : N) : option fmd := fm_writebits (S (length data)) d data bits.
(** digest.go:112-119, Write *)
Definition fm_write (d : fmd) (data : list N) : option fmd := fm_bits d data (w32 (8 * N.of_nat (length data))).
(** digest.go:206-245, checkSum, on the copy made by Sum *)
Definition fm_checkSum (d : fmd) : option (list N) :=
  let isz := N.of_nat fm_inputsize in
  let nb := fm_inputsize / 8 in
  let len8 := be_bytes 8 (fm_len d) in
  let final := if (isz <? fm_count d + 65)%N
    then match fm_bits d (upd (zeros nb) 0 0x80%N) (isz - fm_count d) with
         | Some d => fm_bits d (copy_at (upd (upd (zeros nb) 0 0x80%N) 0 0%N) (nb - 8) len8) isz
         | None => None
         end
    else let padding := upd (zeros (N.to_nat ((isz - fm_count d) / 8) + 1)) 0 0x80%N in
         match fm_bits d padding (isz - fm_count d - 64) with
         | Some d => fm_bits d (copy_at padding 0 len8) 64
         | None => None
         end in
  match final with
  | Some d => Some (firstn (f_hash P / 8) (whirlpool_Sum (firstn (r / 8) (fm_syn d))))
  | None => None
  end.
(** hash.Hash histories; a panic (None) ends the run *)
Fixpoint fm_run (d : fmd) (ops : list op) : option (list obs) :=
  match ops with
  | [] => Some []
  | Write q :: ops => match fm_write d q with Some d => option_map (cons (Wrote (length q))) (fm_run d ops) | None => None end
  | Sum i :: ops => match fm_checkSum d with Some h => option_map (cons (Summed (i ++ h))) (fm_run d ops) | None => None end
  | Reset :: ops => fm_run fm_reset ops
  end.
(** fsb.go:22-33, Sum *)
Definition fm_Sum (data : list N) : option (list N) := match fm_write fm_reset data with Some d => fm_checkSum d | None => None end.
End Model.
