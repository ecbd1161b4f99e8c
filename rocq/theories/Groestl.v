(** Groestl.v -- model of groestl/digest.go, groestl/groestl.go, groestl/utils.go (table: GroestlTab.v). *)
From Coq Require Import List NArith ZArith Arith.
Require Import Verif.Base Verif.HashAPI Verif.Buf Verif.MD Verif.GroestlTab.
Import ListNotations.

(** groestl/utils.go:41-50, swap_uint64 *)
Definition swap_uint64 (v : N) : N :=
  N.lor (N.lor (N.lor (N.lor (N.lor (N.lor (N.lor
    (N.shiftr (N.land v 0xff00000000000000) 56)
    (N.shiftr (N.land v 0x00ff000000000000) 40))
    (N.shiftr (N.land v 0x0000ff0000000000) 24))
    (N.shiftr (N.land v 0x000000ff00000000) 8))
    (shl64 (N.land v 0x00000000ff000000) 8))
    (shl64 (N.land v 0x0000000000ff0000) 24))
    (shl64 (N.land v 0x000000000000ff00) 40))
    (shl64 (N.land v 0x00000000000000ff) 56).
(** groestl/utils.go:15-26, bytesToUint64s *)
Definition gwords (b : list N) : list N := map (fun i => le_val (slice b (8 * i) (8 * i + 8))) (seq 0 (length b / 8)).
(** groestl/utils.go:28-39, uint64sToBytes *)
Definition gbytes (w : list N) : list N := concat (map (le_bytes 8) w).

(** T[k][byte(w >> 8k)] *)
Definition gT (k : nat) (w : N) : N := at_ (nth k gro_T []) (N.to_nat (w8 (N.shiftr w (8 * N.of_nat k)))).
(** The sum of the eight table entries, with the column offsets of the source text. *)
Definition gcol (n : nat) (o : list nat) (x : list N) (c : nat) : N :=
  let e k := gT k (at_ x ((c + nth k o 0) mod n)) in
  N.lxor (N.lxor (N.lxor (N.lxor (N.lxor (N.lxor (N.lxor (e 0) (e 1)) (e 2)) (e 3)) (e 4)) (e 5)) (e 6)) (e 7).
(** groestl/utils.go:52-69, 92-109: roundP_256 (n = 8), roundP_512 (n = 16): y as a function of x and i.
    (x is changed too, but every caller overwrites it before reading it again.) *)
Definition roundP (n : nat) (x : list N) (i : N) : list N :=
  let x := map (fun idx => N.lxor (at_ x idx) (N.lxor (shl64 (N.of_nat idx) 4) i)) (seq 0 n) in
  map (gcol n (if n =? 8 then [0; 1; 2; 3; 4; 5; 6; 7] else [0; 1; 2; 3; 4; 5; 6; 11]) x) (seq 0 n).
(** groestl/utils.go:72-89, 112-129: roundQ_256, roundQ_512. *)
Definition roundQ (n : nat) (x : list N) (i : N) : list N :=
  let x := map (fun idx => N.lxor (at_ x idx) (N.lxor (sub64 0xffffffffffffffff (shl64 (N.of_nat idx) 60)) i)) (seq 0 n) in
  map (gcol n (if n =? 8 then [1; 3; 5; 7; 0; 2; 4; 6] else [1; 3; 5; 11; 0; 2; 4; 6]) x) (seq 0 n).
(** for r = 0; r < rounds; r += 2 *)
Definition grs (rounds : nat) : list N := map (fun i => 2 * N.of_nat i)%N (seq 0 (rounds / 2)).
Definition twoP (n : nat) (x : list N) (r : N) : list N := roundP n (roundP n x r) (add64 r 1).
Definition twoQ (n : nat) (x : list N) (r : N) : list N := roundQ n (roundQ n x (shl64 r 56)) (shl64 (add64 r 1) 56).
(** groestl/utils.go:132-178: transform256 (n = 8, rounds = 10), transform512 (n = 16, rounds = 14). *)
Definition gtransform (n rounds : nat) (h m : list N) : list N :=
  let ap := map (fun c => N.lxor (at_ h c) (at_ m c)) (seq 0 n) in
  let aq := map (fun c => at_ m c) (seq 0 n) in
  let '(ap, aq) := fold_left (fun '(a, q) r => (twoP n a r, twoQ n q r)) (grs rounds) (ap, aq) in
  map (fun c => N.lxor (N.lxor (at_ ap c) (at_ aq c)) (at_ h c)) (seq 0 n) ++ skipn n h.
(** groestl/utils.go:180-214: outputTransform256, outputTransform512. *)
Definition goutput (n rounds : nat) (h : list N) : list N :=
  let t1 := fold_left (twoP n) (grs rounds) (map (fun c => at_ h c) (seq 0 n)) in
  map (fun c => N.lxor (at_ h c) (at_ t1 c)) (seq 0 n) ++ skipn n h.

(** A digest with hs bits; the object keeps a 16-word state and a 128-byte buffer whatever the block size. *)
Section Digest.
Variable hs : Z.
(** groestl/digest.go:46-50: d.bs. *)
Definition g_bs_bits : N := if (256 <? hs)%Z then 1024%N else 512%N.
Definition g_lim : nat := N.to_nat (g_bs_bits / 8).
Definition g_n : nat := if N.eqb g_bs_bits 512 then 8 else 16.
Definition g_rounds : nat := if N.eqb g_bs_bits 512 then 10 else 14.
(** groestl/digest.go:140-148 *)
Definition g_block (s x : list N) : list N := gtransform g_n g_rounds s (gwords x).
(** uint64(d.hs) for an int *)
Definition u64 (z : Z) : N := Z.to_N (z mod 2 ^ 64).
(** groestl/digest.go:45-67, Reset *)
Definition gro_reset : dig (list N) :=
  mkdig (upd (zeros 16) (if (256 <? hs)%Z then 15 else 7) (swap_uint64 (u64 hs))) (zeros 128) 0 0.
(** groestl/digest.go:77-102, Write *)
Definition gro_write : dig (list N) -> list N -> dig (list N) * nat := write_post g_lim g_block 8.
(** groestl/digest.go:111-137, checkSum; None is the panic of the last slice expression.
    (The length bookkeeping is gathered in front: it does not read what transform writes.) *)
Definition gro_len (d : dig (list N)) : N :=
  let nx := (dnx d + 1)%nat in
  let l := add64 (dlen d) 8 in
  if g_lim - 8 <? nx
  then let l := add64 l (sub64 g_bs_bits (mul64 (N.of_nat nx) 8)) in add64 l (sub64 g_bs_bits (mul64 0 8))
  else add64 l (sub64 g_bs_bits (mul64 (N.of_nat nx) 8)).
Definition gro_checkSum (d : dig (list N)) : option (list N) :=
  let mlen := swap_uint64 (gro_len d / g_bs_bits) in
  let s := finish_direct g_lim g_block 0x80 (le_bytes 8 mlen) d in
  let ss := gbytes (goutput g_n g_rounds s) in
  let lo := (Z.of_nat g_lim - Z.quot hs 8)%Z in
  if ((0 <=? lo) && (lo <=? Z.of_nat g_lim))%bool%Z then Some (slice ss (Z.to_nat lo) g_lim) else None.
(** groestl/digest.go:104-109, Sum.  A panic is recorded as the empty output. *)
Definition gro_sum (d : dig (list N)) (i : list N) : dig (list N) * list N :=
  (d, match gro_checkSum d with Some h => i ++ h | None => [] end).
Definition gro_impl : impl (dig (list N)) := mkimpl gro_write gro_sum (fun _ => gro_reset).
End Digest.
(** groestl/digest.go:25-43, New: None is an error. *)
Definition gro_New (hashsize : Z) : option (dig (list N)) :=
  if (hashsize =? 0)%Z then None else if (0 <? Z.rem hashsize 8)%Z then None else if (512 <? hashsize)%Z then None
  else Some (gro_reset hashsize).
(** groestl/digest.go:69-75, Size and BlockSize *)
Definition gro_Size (hs : Z) : Z := Z.quot hs 8.
Definition gro_BlockSize (hs : Z) : nat := g_lim hs.
(** groestl/groestl.go:31-69: Sum224 ... Sum512 (out bytes). *)
Definition gro_Sum (out : nat) (data : list N) : option (list N) :=
  let hs := (8 * Z.of_nat out)%Z in
  match gro_checkSum hs (fst (gro_write hs (gro_reset hs) data)) with
  | Some s => if out <=? length s then Some (copy_at (zeros out) 0 (firstn out s)) else None
  | None => None
  end.
