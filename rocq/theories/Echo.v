(** Echo.v -- model of echo/digest.go, echo/echo.go, echo/utils.go (table: EchoTab.v). *)
From Coq Require Import List NArith ZArith Arith.
Require Import Verif.Base Verif.HashAPI Verif.Buf Verif.MD Verif.EchoTab.
Import ListNotations.

(** T[k][byte(v)] *)
Definition eT (k : nat) (v : N) : N := at_ (nth k echo_T []) (N.to_nat (w8 v)).
(** echo/utils.go:19-30, bytesToUint64s *)
Definition ewords (b : list N) : list N := map (fun i => le_val (slice b (8 * i) (8 * i + 8))) (seq 0 (length b / 8)).
(** echo/utils.go:32-43, uint64sToBytes *)
Definition ebytes (w : list N) : list N := concat (map (le_bytes 8) w).

(** echo/digest.go:175-223: the body of the loop over r; a = w[idx], b = w[idx1]. *)
Definition e_aes2 (s0 s1 counter a b : N) : N * N :=
  let t0 := N.lxor (N.lxor (N.lxor (N.lxor (w32 counter) (eT 0 a)) (eT 1 (N.shiftr a 40))) (eT 2 (N.shiftr b 16))) (eT 3 (N.shiftr b 56)) in
  let t1 := N.lxor (N.lxor (N.lxor (N.lxor (w32 (N.shiftr counter 32)) (eT 0 (N.shiftr a 32))) (eT 1 (N.shiftr b 8))) (eT 2 (N.shiftr b 48))) (eT 3 (N.shiftr a 24)) in
  let t2 := N.lxor (N.lxor (N.lxor (eT 0 b) (eT 1 (N.shiftr b 40))) (eT 2 (N.shiftr a 16))) (eT 3 (N.shiftr a 56)) in
  let t3 := N.lxor (N.lxor (N.lxor (eT 0 (N.shiftr b 32)) (eT 1 (N.shiftr a 8))) (eT 2 (N.shiftr a 48))) (eT 3 (N.shiftr b 24)) in
  (N.lxor (N.lxor (N.lxor (N.lxor (N.lxor (eT 0 t0) (eT 1 (N.shiftr t1 8))) (eT 2 (N.shiftr t2 16))) (eT 3 (N.shiftr t3 24)))
                  (shl64 (N.lxor (N.lxor (N.lxor (eT 0 t1) (eT 1 (N.shiftr t2 8))) (eT 2 (N.shiftr t3 16))) (eT 3 (N.shiftr t0 24))) 32)) s0,
   N.lxor (N.lxor (N.lxor (N.lxor (N.lxor (eT 0 t2) (eT 1 (N.shiftr t3 8))) (eT 2 (N.shiftr t0 16))) (eT 3 (N.shiftr t1 24)))
                  (shl64 (N.lxor (N.lxor (N.lxor (eT 0 t3) (eT 1 (N.shiftr t0 8))) (eT 2 (N.shiftr t1 16))) (eT 3 (N.shiftr t2 24))) 32)) s1).
(** echo/digest.go:174-224: the loop over r. *)
Definition e_sub (s0 s1 : N) (st : list N * N) : list N * N :=
  fold_left (fun '(w, counter) r =>
    let ab := e_aes2 s0 s1 counter (at_ w (r * 2)) (at_ w (r * 2 + 1)) in
    (upd (upd w (r * 2) (fst ab)) (r * 2 + 1) (snd ab), add64 counter 1)) (seq 0 16) st.
(** echo/digest.go:226-241: the sixteen swaps. *)
Definition e_swap (w : list N) (ij : nat * nat) : list N := upd (upd w (fst ij) (at_ w (snd ij))) (snd ij) (at_ w (fst ij)).
Definition e_shift (w : list N) : list N :=
  fold_left e_swap [(2, 10); (3, 11); (4, 20); (5, 21); (6, 30); (7, 31); (12, 28); (13, 29);
                    (22, 14); (23, 15); (30, 14); (31, 15); (26, 18); (27, 19); (26, 10); (27, 11)] w.
(** echo/digest.go:252-255 *)
Definition e_dbl (a : N) : N :=
  N.lxor (N.land (shl64 a 1) 0xfefefefefefefefe) (mul64 (N.land (N.shiftr a 7) 0x0101010101010101) 0x1b).
(** echo/digest.go:243-262: the loops over i and j. *)
Definition e_mix (w : list N) : list N :=
  fold_left (fun w ij => let idx := fst ij * 4 * 2 + snd ij in
    let a := at_ w idx in let b := at_ w (idx + 2) in let c := at_ w (idx + 4) in let d := at_ w (idx + 6) in
    let dblA := e_dbl a in let dblB := e_dbl b in let dblC := e_dbl c in let dblD := e_dbl d in
    let w := upd w idx (N.lxor (N.lxor (N.lxor (N.lxor dblA dblB) b) c) d) in
    let w := upd w (idx + 2) (N.lxor (N.lxor (N.lxor (N.lxor dblB dblC) c) d) a) in
    let w := upd w (idx + 4) (N.lxor (N.lxor (N.lxor (N.lxor dblC dblD) d) a) b) in
    upd w (idx + 6) (N.lxor (N.lxor (N.lxor (N.lxor dblD dblA) a) b) c))
    [(0, 0); (0, 1); (1, 0); (1, 1); (2, 0); (2, 1); (3, 0); (3, 1)] w.
(** echo/digest.go:173-263: one round. *)
Definition e_round (s0 s1 : N) (st : list N * N) (l : nat) : list N * N :=
  let '(w, counter) := e_sub s0 s1 st in (e_mix (e_shift w), counter).

Section Digest.
Variable hs : Z.
Variables s0 s1 : N.
(** echo/digest.go:58-62: d.bs / 8. *)
Definition e_lim : nat := if (256 <? hs)%Z then 128 else 192.
Definition e_rounds : nat := if (256 <? hs)%Z then 10 else 8.
(** echo/digest.go:266-276: h after the rounds, w is the output of the rounds. *)
Definition e_final (h w : list N) : list N :=
  if (hs <=? 256)%Z
  then fold_left (fun h i => upd h i (N.lxor (N.lxor (N.lxor (N.lxor (N.lxor (N.lxor (N.lxor (at_ h i) (at_ h (i + 8))) (at_ h (i + 16))) (at_ h (i + 24)))
                   (at_ w i)) (at_ w (i + 8))) (at_ w (i + 16))) (at_ w (i + 24)))) (seq 0 8) h
  else fold_left (fun h i => upd h i (N.lxor (N.lxor (N.lxor (at_ h i) (at_ h (i + 16))) (at_ w i)) (at_ w (i + 16)))) (seq 0 16) h.
(** echo/digest.go:152-277, transform, with the counter the caller's arguments give. *)
Definition e_transform (s x : list N) (counter : N) : list N :=
  let xx := ewords x in
  let s := copy_at s (32 - length xx) xx in
  e_final s (fst (fold_left (e_round s0 s1) (seq 0 e_rounds) (s, counter))).
(** uint64(d.hs), uint16(d.hs) for an int *)
Definition e_u64 (z : Z) : N := Z.to_N (z mod 2 ^ 64).
Definition e_u16 (z : Z) : N := Z.to_N (z mod 2 ^ 16).
(** echo/digest.go:57-85, Reset *)
Definition e_reset : dig (list N) :=
  mkdig (fold_left (fun s i => upd (upd s (2 * i) (e_u64 hs)) (2 * i + 1) 0%N) (seq 0 (if (256 <? hs)%Z then 8 else 4)) (zeros 32))
        (zeros e_lim) 0 0.
(** echo/digest.go:95-119, Write: transform(true, uint64(xx) * 8). *)
Definition e_write (d : dig (list N)) (p : list N) : dig (list N) * nat :=
  let '(st, x, nx, plen) :=
    writeA e_lim (fun s b xx => (e_transform (fst s) b (add64 (snd s) (8 * N.of_nat xx)), add64 (snd s) (8 * N.of_nat xx)))
           (ds d, dlen d) (dx d) (dnx d) p in
  (mkdig (fst st) x nx (add64 (snd st) (8 * N.of_nat plen)), length p).
(** echo/digest.go:128-150, checkSum: the state after the last block. *)
Definition e_last (d : dig (list N)) : list N :=
  let x := upd (dx d) (dnx d) 0x80%N in
  let nx := dnx d + 1 in
  let '(s, x, nx) := if e_lim - 18 <? nx
    then let x := copy_at x nx (zeros e_lim) in (e_transform (ds d) x (dlen d), x, 0)
    else (ds d, x, nx) in
  let x := copy_at x nx (zeros e_lim) in
  let x := copy_at x (e_lim - 18) (le_bytes 2 (e_u16 hs)) in
  let x := copy_at x (e_lim - 16) (le_bytes 8 (dlen d)) in
  let x := copy_at x (e_lim - 8) (zeros e_lim) in
  e_transform s x (if 1 <? nx then dlen d else 0%N).
(** None is the panic of the last slice expression. *)
Definition e_checkSum (d : dig (list N)) : option (list N) :=
  let ss := ebytes (e_last d) in
  let n := Z.quot hs 8 in
  if ((0 <=? n) && (n <=? 256))%bool%Z then Some (firstn (Z.to_nat n) ss) else None.
(** echo/digest.go:121-126, Sum (of a copy, echo/digest.go:279-292).  A panic is recorded as the empty output. *)
Definition e_sum (d : dig (list N)) (i : list N) : dig (list N) * list N :=
  (d, match e_checkSum d with Some h => i ++ h | None => [] end).
Definition e_impl : impl (dig (list N)) := mkimpl e_write e_sum (fun _ => e_reset).
End Digest.
(** echo/digest.go:27-55, newDigest: None is an error; the salt words and the object. *)
Definition e_New (hashsize : Z) (salt : list N) : option (N * N * dig (list N)) :=
  if (hashsize =? 0)%Z then None else if (0 <? Z.rem hashsize 8)%Z then None else if (512 <? hashsize)%Z then None
  else if 0 <? length salt then
    if negb (length salt =? 16) then None
    else let s := copy_at (zeros 2) 0 (ewords salt) in Some (at_ s 0, at_ s 1, e_reset hashsize)
  else Some (0%N, 0%N, e_reset hashsize).
(** echo/digest.go:87-93, Size and BlockSize *)
Definition e_Size (hs : Z) : Z := Z.quot hs 8.
Definition e_BlockSize (hs : Z) : nat := e_lim hs.
(** echo/echo.go:27-86: Sum224 ... Sum512 (out bytes). *)
Definition e_Sum (out : nat) (data : list N) : option (list N) :=
  let hs := (8 * Z.of_nat out)%Z in
  match e_checkSum hs 0 0 (fst (e_write hs 0 0 (e_reset hs) data)) with
  | Some s => if out <=? length s then Some (copy_at (zeros out) 0 (firstn out s)) else None
  | None => None
  end.
