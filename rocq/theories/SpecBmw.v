(** SpecBmw.v -- Blue Midnight Wish (round 2 tweak), from the specification
    document (Gligoroski et al.): functions f0, f1 (expand1, expand2, AddElement),
    f2, padding, finalization.  Uses nothing of the model. *)
From Coq Require Import List NArith Arith.
Require Import Verif.Base Verif.Buf.
Import ListNotations.

(** What differs between the 32-bit and the 64-bit variants. *)
Record bmw_word : Type := mkbmw {
  b_add : N -> N -> N; b_sub : N -> N -> N; b_shl : N -> N -> N; b_rot : N -> N -> N;
  b_bytes : nat;                         (* bytes in a word *)
  b_s : list (N * N * N * N);            (* s0..s3: shr, shl, rotl, rotl *)
  b_r : list N;                          (* r1..r7 *)
  b_k : N }.                             (* K_j = j * b_k *)
Definition B32 : bmw_word := mkbmw add32 sub32 shl32 rotl32 4
  [(1, 3, 4, 19); (1, 2, 8, 23); (2, 1, 12, 25); (2, 2, 15, 29)]%N [3; 7; 13; 16; 19; 23; 27]%N 0x05555555%N.
Definition B64 : bmw_word := mkbmw add64 sub64 shl64 rotl64 8
  [(1, 3, 4, 37); (1, 2, 13, 43); (2, 1, 19, 53); (2, 2, 28, 59)]%N [5; 11; 27; 32; 37; 43; 53]%N 0x0555555555555555%N.

Section BMW.
Context (W : bmw_word).
Notation add := (b_add W). Notation sub := (b_sub W). Notation shl := (b_shl W). Notation rot := (b_rot W).
Notation shr := N.shiftr. Notation "x ^^ y" := (N.lxor x y) (at level 50, left associativity).

(** s0..s3 from the table; s4, s5. *)
Definition b_si (i : nat) (x : N) : N :=
  match i with
  | 4 => shr x 1 ^^ x
  | 5 => shr x 2 ^^ x
  | _ => let '(a, b, c, d) := nth i (b_s W) (0, 0, 0, 0)%N in shr x a ^^ shl x b ^^ rot x c ^^ rot x d
  end.
Definition b_ri (i : nat) (x : N) : N := rot x (nth (i - 1) (b_r W) 0%N).
Definition b_sum (l : list N) : N := match l with [] => 0%N | a :: r => fold_left add r a end.

(** f0: W_j as a signed sum of five words (M_i xor H_i); the first is positive. *)
Definition b_wtab : list (list (bool * nat)) :=
  let p := true in let n := false in
  [ [(p,5);(n,7);(p,10);(p,13);(p,14)];
    [(p,6);(n,8);(p,11);(p,14);(n,15)];
    [(p,0);(p,7);(p,9);(n,12);(p,15)];
    [(p,0);(n,1);(p,8);(n,10);(p,13)];
    [(p,1);(p,2);(p,9);(n,11);(n,14)];
    [(p,3);(n,2);(p,10);(n,12);(p,15)];
    [(p,4);(n,0);(n,3);(n,11);(p,13)];
    [(p,1);(n,4);(n,5);(n,12);(n,14)];
    [(p,2);(n,5);(n,6);(p,13);(n,15)];
    [(p,0);(n,3);(p,6);(n,7);(p,14)];
    [(p,8);(n,1);(n,4);(n,7);(p,15)];
    [(p,8);(n,0);(n,2);(n,5);(p,9)];
    [(p,1);(p,3);(n,6);(n,9);(p,10)];
    [(p,2);(p,4);(p,7);(p,10);(p,11)];
    [(p,3);(n,5);(p,8);(n,11);(n,12)];
    [(p,12);(n,4);(n,6);(n,9);(p,13)] ].
Definition b_W (m h : list N) (j : nat) : N :=
  let x i := at_ m i ^^ at_ h i in
  match nth j b_wtab [] with
  | [] => 0%N
  | (_, i) :: r => fold_left (fun a si => if fst si : bool then add a (x (snd si)) else sub a (x (snd si))) r (x i)
  end.
Definition b_f0 (m h : list N) (j : nat) : N := add (b_si (j mod 5) (b_W m h j)) (at_ h ((j + 1) mod 16)).

(** f1. *)
Definition b_addel (m h : list N) (j : nat) : N :=
  let rm k := let i := (j + k) mod 16 in rot (at_ m i) (N.of_nat i + 1) in
  add (sub (add (rm 0) (rm 3)) (rm 10)) (N.of_nat (j + 16) * b_k W) ^^ at_ h ((j + 7) mod 16).
Definition b_expand1 (m h q : list N) (j : nat) : N :=
  b_sum (map (fun i => b_si ((i + 1) mod 4) (at_ q (j - 16 + i))) (seq 0 16) ++ [b_addel m h (j - 16)]).
Definition b_expand2 (m h q : list N) (j : nat) : N :=
  let x i := at_ q (j - i) in
  b_sum [x 16; b_ri 1 (x 15); x 14; b_ri 2 (x 13); x 12; b_ri 3 (x 11); x 10; b_ri 4 (x 9);
         x 8; b_ri 5 (x 7); x 6; b_ri 6 (x 5); x 4; b_ri 7 (x 3); b_si 4 (x 2); b_si 5 (x 1); b_addel m h (j - 16)].
(** The next word Q_j from Q_0 .. Q_(j-1). *)
Definition b_next (m h q : list N) (j : nat) : N :=
  if j <? 16 then b_f0 m h j else if j <? 18 then b_expand1 m h q j else b_expand2 m h q j.
Definition b_Q (m h : list N) : list N := fold_left (fun q j => q ++ [b_next m h q j]) (seq 0 32) [].

(** f2. *)
Definition b_xor (l : list N) : N := match l with [] => 0%N | a :: r => fold_left N.lxor r a end.
Definition b_f2 (m q : list N) : list N :=
  let Q i := at_ q i in let M i := at_ m i in
  let XL := b_xor (map Q (seq 16 8)) in
  let XH := fold_left N.lxor (map Q (seq 24 8)) XL in
  let lo := [ add (shl XH 5 ^^ shr (Q 16) 5 ^^ M 0) (XL ^^ Q 24 ^^ Q 0);
              add (shr XH 7 ^^ shl (Q 17) 8 ^^ M 1) (XL ^^ Q 25 ^^ Q 1);
              add (shr XH 5 ^^ shl (Q 18) 5 ^^ M 2) (XL ^^ Q 26 ^^ Q 2);
              add (shr XH 1 ^^ shl (Q 19) 5 ^^ M 3) (XL ^^ Q 27 ^^ Q 3);
              add (shr XH 3 ^^ shl (Q 20) 0 ^^ M 4) (XL ^^ Q 28 ^^ Q 4);
              add (shl XH 6 ^^ shr (Q 21) 6 ^^ M 5) (XL ^^ Q 29 ^^ Q 5);
              add (shr XH 4 ^^ shl (Q 22) 6 ^^ M 6) (XL ^^ Q 30 ^^ Q 6);
              add (shr XH 11 ^^ shl (Q 23) 2 ^^ M 7) (XL ^^ Q 31 ^^ Q 7) ] in
  let H i := at_ lo i in
  lo ++
  [ add (add (rot (H 4) 9) (XH ^^ Q 24 ^^ M 8)) (shl XL 8 ^^ Q 23 ^^ Q 8);
    add (add (rot (H 5) 10) (XH ^^ Q 25 ^^ M 9)) (shr XL 6 ^^ Q 16 ^^ Q 9);
    add (add (rot (H 6) 11) (XH ^^ Q 26 ^^ M 10)) (shl XL 6 ^^ Q 17 ^^ Q 10);
    add (add (rot (H 7) 12) (XH ^^ Q 27 ^^ M 11)) (shl XL 4 ^^ Q 18 ^^ Q 11);
    add (add (rot (H 0) 13) (XH ^^ Q 28 ^^ M 12)) (shr XL 3 ^^ Q 19 ^^ Q 12);
    add (add (rot (H 1) 14) (XH ^^ Q 29 ^^ M 13)) (shr XL 4 ^^ Q 20 ^^ Q 13);
    add (add (rot (H 2) 15) (XH ^^ Q 30 ^^ M 14)) (shr XL 7 ^^ Q 21 ^^ Q 14);
    add (add (rot (H 3) 16) (XH ^^ Q 31 ^^ M 15)) (shr XL 2 ^^ Q 22 ^^ Q 15) ].
Definition b_compress (h m : list N) : list N := b_f2 m (b_Q m h).

(** Initial value: the consecutive bytes start, start+1, ... in words, the first byte most significant. *)
Definition b_iv (start : nat) : list N := map be_val (chunks (b_bytes W) (map N.of_nat (seq start (16 * b_bytes W)))).
(** The constant of the final call: 0xaa...a0 + i. *)
Definition b_final : list N := map (fun i => be_val (repeat 0xaa%N (b_bytes W - 1) ++ [0xa0 + N.of_nat i]%N)) (seq 0 16).
Definition b_words (b : list N) : list N := map le_val (chunks (b_bytes W) b).
(** The digest of [hs] bytes: the last [hs] bytes of the last chaining value. *)
Definition bmw (start hs : nat) (m : list N) : list N :=
  let bs := 16 * b_bytes W in
  let h := fold_left (fun h b => b_compress h (b_words b)) (chunks bs (md_pad bs 0x80 (le_bytes 8 (8 * N.of_nat (length m))) m)) (b_iv start) in
  let out := flat_map (le_bytes (b_bytes W)) (b_compress b_final h) in
  skipn (bs - hs) out.
End BMW.
Definition bmw224 := bmw B32 0x00 28.
Definition bmw256 := bmw B32 0x40 32.
Definition bmw384 := bmw B64 0x00 48.
Definition bmw512 := bmw B64 0x80 64.
