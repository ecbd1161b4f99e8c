(** Whirl.v -- model of whirlpool/digest.go, whirlpool/whirlpool.go, whirlpool/utils.go (tables: WhirlTab.v). *)
From Coq Require Import List NArith Arith.
Require Import Verif.Base Verif.HashAPI Verif.WhirlTab.
Import ListNotations.

(** whirlpool/utils.go:7-18, bytesToUint64s; 20-31, uint64sToBytes *)
Definition wwords (b : list N) : list N := map (fun i => be_val (slice b (8 * i) (8 * i + 8))) (seq 0 (length b / 8)).
Definition wbytes (w : list N) : list N := concat (map (be_bytes 8) w).

(** whirlpool/digest.go:11-21: s, x, nx, len, hash. *)
Record wpd : Type := mkwpd { w_s : list N; w_x : list N; w_nx : nat; w_len : nat; w_h : list N }.
Section Digest.
Variable c : list (list N).
Variable rc : list N.
(** c_k[byte(w >> (56 - 8k))] *)
Definition wpT (k : nat) (w : N) : N := at_ (nth k c []) (N.to_nat (w8 (N.shiftr w (56 - 8 * N.of_nat k)))).
(** whirlpool/digest.go:202-212: L[i], without the key. *)
Definition wp_row (K : list N) (i : nat) : N :=
  N.lxor (N.lxor (N.lxor (N.lxor (N.lxor (N.lxor (N.lxor
    (wpT 0 (at_ K (i mod 8))) (wpT 1 (at_ K ((i + 7) mod 8)))) (wpT 2 (at_ K ((i + 6) mod 8)))) (wpT 3 (at_ K ((i + 5) mod 8))))
    (wpT 4 (at_ K ((i + 4) mod 8)))) (wpT 5 (at_ K ((i + 3) mod 8)))) (wpT 6 (at_ K ((i + 2) mod 8)))) (wpT 7 (at_ K ((i + 1) mod 8))).
(** whirlpool/digest.go:200-238: one round. *)
Definition wp_round (Kst : list N * list N) (r : nat) : list N * list N :=
  let '(K, st) := Kst in
  let L := map (wp_row K) (seq 0 8) in
  let L := upd L 0 (N.lxor (at_ L 0) (at_ rc r)) in
  let K := map (fun i => at_ L i) (seq 0 8) in
  let L := map (fun i => N.lxor (wp_row st i) (at_ K (i mod 8))) (seq 0 8) in
  (K, map (fun i => at_ L i) (seq 0 8)).
(** whirlpool/digest.go:180-243, transform: the new hash words. *)
Definition wp_transform (h x : list N) : list N :=
  let block := wwords x in
  let K := map (fun i => at_ h i) (seq 0 8) in
  let state := map (fun i => N.lxor (at_ block i) (at_ K i)) (seq 0 8) in
  let state := snd (fold_left wp_round (seq 1 10) (K, state)) in
  map (fun i => N.lxor (at_ h i) (N.lxor (at_ state i) (at_ block i))) (seq 0 8).

(** whirlpool/digest.go:61-66: the length tally, i from 31 down; the loop stops when carry and value are zero. *)
Fixpoint wp_tally (i : nat) (s : list N) (carry value : N) : list N :=
  match i with
  | O => s
  | S i' =>
    if (N.eqb carry 0 && N.eqb value 0)%bool then s
    else let carry := w32 (carry + (at_ s i' + N.land value 0xff)) in
         wp_tally i' (upd s i' (w8 carry)) (N.shiftr carry 8) (N.shiftr value 8)
  end.
(** whirlpool/digest.go:77-88, 103-116: a byte is complete; [rem] = bufferRem, [extra] = what is added to len at the end. *)
Definition wp_flush (d : wpd) (b : N) (rem extra : nat) : wpd :=
  let nx := w_nx d + 1 in
  let len := w_len d + (8 - rem) in
  let '(h, nx, len) := if len =? 512 then (wp_transform (w_h d) (w_x d), 0, 0) else (w_h d, nx, len) in
  mkwpd (w_s d) (upd (w_x d) nx (w8 (N.shiftl b (8 - N.of_nat rem)))) nx (len + extra) h.
Definition wp_or (d : wpd) (v : N) : wpd := mkwpd (w_s d) (upd (w_x d) (w_nx d) (N.lor (at_ (w_x d) (w_nx d)) v)) (w_nx d) (w_len d) (w_h d).
(** whirlpool/digest.go:69-88: the loop over all bytes but the last. *)
Fixpoint wp_loop (gap rem : nat) (d : wpd) (a : N) (p : list N) : wpd * N :=
  match p with
  | [] => (d, a)
  | a' :: p' =>
    let b := N.lor (w8 (N.shiftl a (N.of_nat gap))) (N.shiftr (N.land a' 0xff) (8 - N.of_nat gap)) in
    wp_loop gap rem (wp_flush (wp_or d (w8 (N.shiftr b (N.of_nat rem)))) b rem rem) a' p'
  end.
(** whirlpool/digest.go:51-119, Write (sourceBits = 8 nn, so 8 or 0 bits are left after the loop). *)
Definition wp_write (d : wpd) (p : list N) : wpd * nat :=
  let sourceBits := w64 (8 * N.of_nat (length p)) in
  let gap := N.to_nat (N.land (8 - N.land sourceBits 7) 7) in
  let rem := w_len d mod 8 in
  let d := mkwpd (wp_tally 32 (w_s d) 0 sourceBits) (w_x d) (w_nx d) (w_len d) (w_h d) in
  (match p with
   | [] => d
   | a :: p' =>
     let '(d, a) := wp_loop gap rem d a p' in
     let b := w8 (N.shiftl a (N.of_nat gap)) in
     wp_flush (wp_or d (N.shiftr b (N.of_nat rem))) b rem (8 - (8 - rem))
   end, length p).
(** whirlpool/digest.go:43-50, Reset *)
Definition wp_reset : wpd := mkwpd (zeros 32) (zeros 64) 0 0 (zeros 8).
(** whirlpool/digest.go:128-178, checkSum *)
Definition wp_zero (x : list N) (nx n : nat) : list N := fold_left (fun x i => upd x (nx + i) 0%N) (seq 0 n) x.
Definition wp_checkSum (d : wpd) : list N :=
  let x := upd (w_x d) (w_nx d) (N.lor (at_ (w_x d) (w_nx d)) (N.shiftr 0x80 (N.of_nat (w_len d mod 8)))) in
  let nx := w_nx d + 1 in
  let '(h, x, nx) := if 32 <? nx
    then let x := if nx <? 64 then wp_zero x nx (64 - nx) else x in (wp_transform (w_h d) x, x, 0)
    else (w_h d, x, nx) in
  let x := if nx <? 32 then wp_zero x nx (32 - nx) else x in
  let x := fold_left (fun x i => upd x (32 + i) (at_ (w_s d) i)) (seq 0 32) x in
  firstn 64 (wbytes (wp_transform h x)).
(** whirlpool/digest.go:121-126, Sum *)
Definition wp_sum (d : wpd) (i : list N) : wpd * list N := (d, i ++ wp_checkSum d).
Definition wp_impl : impl wpd := mkimpl wp_write wp_sum (fun _ => wp_reset).
(** whirlpool/whirlpool.go:13-20, 30-37, 47-54: Sum, Sum0, Sum1 *)
Definition wp_Sum (data : list N) : list N := copy_at (zeros 64) 0 (wp_checkSum (fst (wp_write wp_reset data))).
End Digest.
(** whirlpool/whirlpool.go:7-10, 24-27, 41-44: New, New0, New1 *)
Definition whirlpool_impl : impl wpd := wp_impl wp_c wp_rc.
Definition whirlpool0_impl : impl wpd := wp_impl wp_c0 wp_rc0.
Definition whirlpool1_impl : impl wpd := wp_impl wp_c1 wp_rc1.
Definition whirlpool_Sum (data : list N) : list N := wp_Sum wp_c wp_rc data.
Definition whirlpool_Sum0 (data : list N) : list N := wp_Sum wp_c0 wp_rc0 data.
Definition whirlpool_Sum1 (data : list N) : list N := wp_Sum wp_c1 wp_rc1 data.
