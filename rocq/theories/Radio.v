(** Radio.v -- model of the radio_gatun package.  The unrolled mill steps are translated from the Go text by script. *)
From Coq Require Import List NArith Arith.
Require Import Verif.Base Verif.HashAPI Verif.Buf Verif.MD.
Import ListNotations.

(** radio_gatun/digest32.go:221-299 and 366-444, step 1 of the unrolled mill *)
Definition rg32_gamma (v : list N) : list N := [
  (N.lxor (at_ v 0) (N.lor (at_ v 1) (not32 (at_ v 2))));
  (N.lxor (at_ v 1) (N.lor (at_ v 2) (not32 (at_ v 3))));
  (N.lxor (at_ v 2) (N.lor (at_ v 3) (not32 (at_ v 4))));
  (N.lxor (at_ v 3) (N.lor (at_ v 4) (not32 (at_ v 5))));
  (N.lxor (at_ v 4) (N.lor (at_ v 5) (not32 (at_ v 6))));
  (N.lxor (at_ v 5) (N.lor (at_ v 6) (not32 (at_ v 7))));
  (N.lxor (at_ v 6) (N.lor (at_ v 7) (not32 (at_ v 8))));
  (N.lxor (at_ v 7) (N.lor (at_ v 8) (not32 (at_ v 9))));
  (N.lxor (at_ v 8) (N.lor (at_ v 9) (not32 (at_ v 10))));
  (N.lxor (at_ v 9) (N.lor (at_ v 10) (not32 (at_ v 11))));
  (N.lxor (at_ v 10) (N.lor (at_ v 11) (not32 (at_ v 12))));
  (N.lxor (at_ v 11) (N.lor (at_ v 12) (not32 (at_ v 13))));
  (N.lxor (at_ v 12) (N.lor (at_ v 13) (not32 (at_ v 14))));
  (N.lxor (at_ v 13) (N.lor (at_ v 14) (not32 (at_ v 15))));
  (N.lxor (at_ v 14) (N.lor (at_ v 15) (not32 (at_ v 16))));
  (N.lxor (at_ v 15) (N.lor (at_ v 16) (not32 (at_ v 17))));
  (N.lxor (at_ v 16) (N.lor (at_ v 17) (not32 (at_ v 18))));
  (N.lxor (at_ v 17) (N.lor (at_ v 18) (not32 (at_ v 0))));
  (N.lxor (at_ v 18) (N.lor (at_ v 0) (not32 (at_ v 1))))].
(** radio_gatun/digest32.go:221-299 and 366-444, step 2 of the unrolled mill *)
Definition rg32_pi (v : list N) : list N := [
  (at_ v 0);
  (N.lor (shl32 (at_ v 7) 31%N) (N.shiftr (at_ v 7) 1%N));
  (N.lor (shl32 (at_ v 14) 29%N) (N.shiftr (at_ v 14) 3%N));
  (N.lor (shl32 (at_ v 2) 26%N) (N.shiftr (at_ v 2) 6%N));
  (N.lor (shl32 (at_ v 9) 22%N) (N.shiftr (at_ v 9) 10%N));
  (N.lor (shl32 (at_ v 16) 17%N) (N.shiftr (at_ v 16) 15%N));
  (N.lor (shl32 (at_ v 4) 11%N) (N.shiftr (at_ v 4) 21%N));
  (N.lor (shl32 (at_ v 11) 4%N) (N.shiftr (at_ v 11) 28%N));
  (N.lor (shl32 (at_ v 18) 28%N) (N.shiftr (at_ v 18) 4%N));
  (N.lor (shl32 (at_ v 6) 19%N) (N.shiftr (at_ v 6) 13%N));
  (N.lor (shl32 (at_ v 13) 9%N) (N.shiftr (at_ v 13) 23%N));
  (N.lor (shl32 (at_ v 1) 30%N) (N.shiftr (at_ v 1) 2%N));
  (N.lor (shl32 (at_ v 8) 18%N) (N.shiftr (at_ v 8) 14%N));
  (N.lor (shl32 (at_ v 15) 5%N) (N.shiftr (at_ v 15) 27%N));
  (N.lor (shl32 (at_ v 3) 23%N) (N.shiftr (at_ v 3) 9%N));
  (N.lor (shl32 (at_ v 10) 8%N) (N.shiftr (at_ v 10) 24%N));
  (N.lor (shl32 (at_ v 17) 24%N) (N.shiftr (at_ v 17) 8%N));
  (N.lor (shl32 (at_ v 5) 7%N) (N.shiftr (at_ v 5) 25%N));
  (N.lor (shl32 (at_ v 12) 21%N) (N.shiftr (at_ v 12) 11%N))].
(** radio_gatun/digest32.go:221-299 and 366-444, step 3 of the unrolled mill *)
Definition rg32_theta (v : list N) : list N := [
  (N.lxor (N.lxor (at_ v 0) (at_ v 1)) (at_ v 4));
  (N.lxor (N.lxor (at_ v 1) (at_ v 2)) (at_ v 5));
  (N.lxor (N.lxor (at_ v 2) (at_ v 3)) (at_ v 6));
  (N.lxor (N.lxor (at_ v 3) (at_ v 4)) (at_ v 7));
  (N.lxor (N.lxor (at_ v 4) (at_ v 5)) (at_ v 8));
  (N.lxor (N.lxor (at_ v 5) (at_ v 6)) (at_ v 9));
  (N.lxor (N.lxor (at_ v 6) (at_ v 7)) (at_ v 10));
  (N.lxor (N.lxor (at_ v 7) (at_ v 8)) (at_ v 11));
  (N.lxor (N.lxor (at_ v 8) (at_ v 9)) (at_ v 12));
  (N.lxor (N.lxor (at_ v 9) (at_ v 10)) (at_ v 13));
  (N.lxor (N.lxor (at_ v 10) (at_ v 11)) (at_ v 14));
  (N.lxor (N.lxor (at_ v 11) (at_ v 12)) (at_ v 15));
  (N.lxor (N.lxor (at_ v 12) (at_ v 13)) (at_ v 16));
  (N.lxor (N.lxor (at_ v 13) (at_ v 14)) (at_ v 17));
  (N.lxor (N.lxor (at_ v 14) (at_ v 15)) (at_ v 18));
  (N.lxor (N.lxor (at_ v 15) (at_ v 16)) (at_ v 0));
  (N.lxor (N.lxor (at_ v 16) (at_ v 17)) (at_ v 1));
  (N.lxor (N.lxor (at_ v 17) (at_ v 18)) (at_ v 2));
  (N.lxor (N.lxor (at_ v 18) (at_ v 0)) (at_ v 3))].
(** radio_gatun/digest32.go:221-299 and 366-444, step 4 of the unrolled mill *)
Definition rg32_iota (v : list N) : list N := [
  (N.lxor (at_ v 0) 1%N);
  (at_ v 1);
  (at_ v 2);
  (at_ v 3);
  (at_ v 4);
  (at_ v 5);
  (at_ v 6);
  (at_ v 7);
  (at_ v 8);
  (at_ v 9);
  (at_ v 10);
  (at_ v 11);
  (at_ v 12);
  (at_ v 13);
  (at_ v 14);
  (at_ v 15);
  (at_ v 16);
  (at_ v 17);
  (at_ v 18)].
Definition rg32_mill (v : list N) : list N := rg32_iota (rg32_theta (rg32_pi (rg32_gamma v))).
(** radio_gatun/digest64.go:221-299 and 366-444, step 1 of the unrolled mill *)
Definition rg64_gamma (v : list N) : list N := [
  (N.lxor (at_ v 0) (N.lor (at_ v 1) (not64 (at_ v 2))));
  (N.lxor (at_ v 1) (N.lor (at_ v 2) (not64 (at_ v 3))));
  (N.lxor (at_ v 2) (N.lor (at_ v 3) (not64 (at_ v 4))));
  (N.lxor (at_ v 3) (N.lor (at_ v 4) (not64 (at_ v 5))));
  (N.lxor (at_ v 4) (N.lor (at_ v 5) (not64 (at_ v 6))));
  (N.lxor (at_ v 5) (N.lor (at_ v 6) (not64 (at_ v 7))));
  (N.lxor (at_ v 6) (N.lor (at_ v 7) (not64 (at_ v 8))));
  (N.lxor (at_ v 7) (N.lor (at_ v 8) (not64 (at_ v 9))));
  (N.lxor (at_ v 8) (N.lor (at_ v 9) (not64 (at_ v 10))));
  (N.lxor (at_ v 9) (N.lor (at_ v 10) (not64 (at_ v 11))));
  (N.lxor (at_ v 10) (N.lor (at_ v 11) (not64 (at_ v 12))));
  (N.lxor (at_ v 11) (N.lor (at_ v 12) (not64 (at_ v 13))));
  (N.lxor (at_ v 12) (N.lor (at_ v 13) (not64 (at_ v 14))));
  (N.lxor (at_ v 13) (N.lor (at_ v 14) (not64 (at_ v 15))));
  (N.lxor (at_ v 14) (N.lor (at_ v 15) (not64 (at_ v 16))));
  (N.lxor (at_ v 15) (N.lor (at_ v 16) (not64 (at_ v 17))));
  (N.lxor (at_ v 16) (N.lor (at_ v 17) (not64 (at_ v 18))));
  (N.lxor (at_ v 17) (N.lor (at_ v 18) (not64 (at_ v 0))));
  (N.lxor (at_ v 18) (N.lor (at_ v 0) (not64 (at_ v 1))))].
(** radio_gatun/digest64.go:221-299 and 366-444, step 2 of the unrolled mill *)
Definition rg64_pi (v : list N) : list N := [
  (at_ v 0);
  (N.lor (shl64 (at_ v 7) 63%N) (N.shiftr (at_ v 7) 1%N));
  (N.lor (shl64 (at_ v 14) 61%N) (N.shiftr (at_ v 14) 3%N));
  (N.lor (shl64 (at_ v 2) 58%N) (N.shiftr (at_ v 2) 6%N));
  (N.lor (shl64 (at_ v 9) 54%N) (N.shiftr (at_ v 9) 10%N));
  (N.lor (shl64 (at_ v 16) 49%N) (N.shiftr (at_ v 16) 15%N));
  (N.lor (shl64 (at_ v 4) 43%N) (N.shiftr (at_ v 4) 21%N));
  (N.lor (shl64 (at_ v 11) 36%N) (N.shiftr (at_ v 11) 28%N));
  (N.lor (shl64 (at_ v 18) 28%N) (N.shiftr (at_ v 18) 36%N));
  (N.lor (shl64 (at_ v 6) 19%N) (N.shiftr (at_ v 6) 45%N));
  (N.lor (shl64 (at_ v 13) 9%N) (N.shiftr (at_ v 13) 55%N));
  (N.lor (shl64 (at_ v 1) 62%N) (N.shiftr (at_ v 1) 2%N));
  (N.lor (shl64 (at_ v 8) 50%N) (N.shiftr (at_ v 8) 14%N));
  (N.lor (shl64 (at_ v 15) 37%N) (N.shiftr (at_ v 15) 27%N));
  (N.lor (shl64 (at_ v 3) 23%N) (N.shiftr (at_ v 3) 41%N));
  (N.lor (shl64 (at_ v 10) 8%N) (N.shiftr (at_ v 10) 56%N));
  (N.lor (shl64 (at_ v 17) 56%N) (N.shiftr (at_ v 17) 8%N));
  (N.lor (shl64 (at_ v 5) 39%N) (N.shiftr (at_ v 5) 25%N));
  (N.lor (shl64 (at_ v 12) 21%N) (N.shiftr (at_ v 12) 43%N))].
(** radio_gatun/digest64.go:221-299 and 366-444, step 3 of the unrolled mill *)
Definition rg64_theta (v : list N) : list N := [
  (N.lxor (N.lxor (at_ v 0) (at_ v 1)) (at_ v 4));
  (N.lxor (N.lxor (at_ v 1) (at_ v 2)) (at_ v 5));
  (N.lxor (N.lxor (at_ v 2) (at_ v 3)) (at_ v 6));
  (N.lxor (N.lxor (at_ v 3) (at_ v 4)) (at_ v 7));
  (N.lxor (N.lxor (at_ v 4) (at_ v 5)) (at_ v 8));
  (N.lxor (N.lxor (at_ v 5) (at_ v 6)) (at_ v 9));
  (N.lxor (N.lxor (at_ v 6) (at_ v 7)) (at_ v 10));
  (N.lxor (N.lxor (at_ v 7) (at_ v 8)) (at_ v 11));
  (N.lxor (N.lxor (at_ v 8) (at_ v 9)) (at_ v 12));
  (N.lxor (N.lxor (at_ v 9) (at_ v 10)) (at_ v 13));
  (N.lxor (N.lxor (at_ v 10) (at_ v 11)) (at_ v 14));
  (N.lxor (N.lxor (at_ v 11) (at_ v 12)) (at_ v 15));
  (N.lxor (N.lxor (at_ v 12) (at_ v 13)) (at_ v 16));
  (N.lxor (N.lxor (at_ v 13) (at_ v 14)) (at_ v 17));
  (N.lxor (N.lxor (at_ v 14) (at_ v 15)) (at_ v 18));
  (N.lxor (N.lxor (at_ v 15) (at_ v 16)) (at_ v 0));
  (N.lxor (N.lxor (at_ v 16) (at_ v 17)) (at_ v 1));
  (N.lxor (N.lxor (at_ v 17) (at_ v 18)) (at_ v 2));
  (N.lxor (N.lxor (at_ v 18) (at_ v 0)) (at_ v 3))].
(** radio_gatun/digest64.go:221-299 and 366-444, step 4 of the unrolled mill *)
Definition rg64_iota (v : list N) : list N := [
  (N.lxor (at_ v 0) 1%N);
  (at_ v 1);
  (at_ v 2);
  (at_ v 3);
  (at_ v 4);
  (at_ v 5);
  (at_ v 6);
  (at_ v 7);
  (at_ v 8);
  (at_ v 9);
  (at_ v 10);
  (at_ v 11);
  (at_ v 12);
  (at_ v 13);
  (at_ v 14);
  (at_ v 15);
  (at_ v 16);
  (at_ v 17);
  (at_ v 18)].
Definition rg64_mill (v : list N) : list N := rg64_iota (rg64_theta (rg64_pi (rg64_gamma v))).

Section Digest.
(** Bytes per word, the unrolled mill, the constants of checkSum and blank (20 and 4, or 18 and 2). *)
Variable ws : nat.
Variable mill : list N -> list N.
Variable num0 nout : nat.
(** BlockSize32 = 156, BlockSize64 = 312 *)
Definition rgbs : nat := 39 * ws.
(** d.b[i] ^= v *)
Definition bxor (b : list N) (i : nat) (v : N) : list N := upd b i (N.lxor (at_ b i) v).
(** bj += 3; if bj == 39 { bj = 0 } *)
Definition bnext (bj : nat) : nat := if bj + 3 =? 39 then 0 else bj + 3.
(** the twelve updates d.b[bj + 0] ^= a01, d.b[bj + 1] ^= a02, ... (digest32.go:147-218) *)
Definition rg_feed (mk : nat) (a b : list N) : list N :=
  snd (fold_left (fun s i => let bj := bnext (fst s) in (bj, bxor (snd s) (bj + i mod 3) (at_ a (i + 1)))) (seq 0 12) (mk * 3, b)).
(** radio_gatun/digest32.go:126-304 and digest64.go:126-304: one iteration of the loop of processBlock, d.b and a00..a18 *)
Definition rg_iter (data : list N) (st : list N * list N) (mk : nat) : list N * list N :=
  let b := fst st in let a := snd st in
  let dp := 3 * ws * (12 - mk) in
  let p j := le_val (slice data (dp + j * ws) (dp + j * ws + ws)) in
  let bj := if mk =? 12 then 0 else 3 * (mk + 1) in
  let b := bxor (bxor (bxor b (bj + 0) (p 0)) (bj + 1) (p 1)) (bj + 2) (p 2) in
  let a := bxor (bxor (bxor a 16 (p 0)) 17 (p 1)) 18 (p 2) in
  let b := rg_feed mk a b in
  let a := mill a in
  let bj := mk * 3 in
  (b, bxor (bxor (bxor a 13 (at_ b (bj + 0))) 14 (at_ b (bj + 1))) 15 (at_ b (bj + 2))).
(** radio_gatun/digest32.go:104-325, processBlock: mk = 12, 11, ..., 0 *)
Definition rg_block (st : list N * list N) (data : list N) : list N * list N :=
  fold_left (rg_iter data) [12; 11; 10; 9; 8; 7; 6; 5; 4; 3; 2; 1; 0] st.
(** radio_gatun/digest32.go:352-468: one iteration of the loop of blank *)
Definition rg_blank1 (st : list N * list N) : list N * list N :=
  let b := fst st in let a := snd st in
  let b := fold_left (fun b ki => bxor b (fst ki) (at_ a (snd ki)))
    [(0, 1); (4, 2); (8, 3); (9, 4); (13, 5); (17, 6); (18, 7); (22, 8); (26, 9); (27, 10); (31, 11); (35, 12)] b in
  let a := mill a in
  let bt0 := at_ b 36 in let bt1 := at_ b 37 in let bt2 := at_ b 38 in
  let a := bxor (bxor (bxor a 13 bt0) 14 bt1) 15 bt2 in
  let b := copy_at b 3 (slice b 0 36) in
  (upd (upd (upd b 0 bt0) 1 bt1) 2 bt2, a).
(** the loop: state, num, out and off *)
Fixpoint rg_blanks (num : nat) (st : list N * list N) (out : list N) (off : nat) : list N :=
  match num with
  | O => out
  | S n =>
    let st := rg_blank1 st in
    if num <=? nout
    then rg_blanks n st (copy_at (copy_at out off (le_bytes ws (at_ (snd st) 1))) (off + ws) (le_bytes ws (at_ (snd st) 2))) (off + 2 * ws)
    else rg_blanks n st out off
  end.
(** radio_gatun/digest32.go:92-99: the loop that counts the blank rounds already done (ends within 13 iterations) *)
Fixpoint rg_num (fuel ptr num : nat) : nat :=
  match fuel with
  | O => num
  | S f => let ptr := ptr + 3 * ws in if rgbs <? ptr then num else rg_num f ptr (num - 1)
  end.
(** radio_gatun/digest32.go:80-102, checkSum (Sum works on a copy of the digest) *)
Definition rg_checkSum (d : dig (list N * list N)) : list N :=
  let x := upd (dx d) (dnx d) 1%N in
  let ptr := dnx d + 1 in
  let x := fold_left (fun x i => upd x i 0%N) (seq ptr (rgbs - ptr)) x in
  let st := rg_block (ds d) x in
  rg_blanks (rg_num 14 ptr num0) st (zeros 32) 0.
(** radio_gatun/digest32.go:24-37, newDigest32 and Reset *)
Definition rg_new : dig (list N * list N) := mkdig (zeros 39, zeros 19) (zeros rgbs) 0 0.
(** radio_gatun/digest32.go:48-71, Write; 73-78, Sum *)
Definition rg_write (d : dig (list N * list N)) (p : list N) : dig (list N * list N) * nat := write_pre rgbs rg_block d p.
Definition rg_sum (d : dig (list N * list N)) (i : list N) : dig (list N * list N) * list N := (d, i ++ rg_checkSum d).
Definition rg_impl : impl (dig (list N * list N)) := mkimpl rg_write rg_sum (fun _ => rg_new).
(** radio_gatun/radio_gatun.go:18-35: Sum32, Sum64 *)
Definition rg_Sum (data : list N) : list N := copy_at (zeros 32) 0 (rg_checkSum (fst (rg_write rg_new data))).
End Digest.
(** radio_gatun/radio_gatun.go:8-15: New32 and New64; the constants at digest32.go:92, 459 and digest64.go:92, 460 *)
Definition rg32_impl := rg_impl 4 rg32_mill 20 4.
Definition rg64_impl := rg_impl 8 rg64_mill 18 2.
Definition rg32_Sum (data : list N) : list N := rg_Sum 4 rg32_mill 20 4 data.
Definition rg64_Sum (data : list N) : list N := rg_Sum 8 rg64_mill 18 2 data.
