(** SpecLyra.v -- Lyra2 (Simplicio, Almeida, Andrade, dos Santos, Barreto) over the Blake2b permutation, bitrate 768 bits,
    in the form of its reference implementation.  The memory matrix of R rows and C columns is the list of its R*C blocks of
    12 words, row by row.  Uses nothing of the model. *)
From Coq Require Import List NArith Arith.
Require Import Verif.Base.
Import ListNotations.

(** ** The permutation of Blake2b, without message *)
Definition ly_G (v : list N) (q : nat * nat * nat * nat) : list N :=
  let '(ia, ib, ic, id) := q in
  let a := at_ v ia in let b := at_ v ib in let c := at_ v ic in let d := at_ v id in
  let a := add64 a b in let d := rotr64 (N.lxor d a) 32 in
  let c := add64 c d in let b := rotr64 (N.lxor b c) 24 in
  let a := add64 a b in let d := rotr64 (N.lxor d a) 16 in
  let c := add64 c d in let b := rotr64 (N.lxor b c) 63 in
  upd (upd (upd (upd v ia a) ib b) ic c) id d.
(** The columns, then the diagonals, of the 4 x 4 matrix of words. *)
Definition ly_round (v : list N) : list N :=
  let v := fold_left ly_G (map (fun i => (i, 4 + i, 8 + i, 12 + i)) (seq 0 4)) v in
  fold_left ly_G (map (fun i => (i, 4 + (i + 1) mod 4, 8 + (i + 2) mod 4, 12 + (i + 3) mod 4)) (seq 0 4)) v.
Definition ly_full (v : list N) : list N := Nat.iter 12 ly_round v.
Definition ly_iv : list N :=
  [0x6a09e667f3bcc908; 0xbb67ae8584caa73b; 0x3c6ef372fe94f82b; 0xa54ff53a5f1d36f1;
   0x510e527fade682d1; 0x9b05688c2b3e6c1f; 0x1f83d9abfb41bd6b; 0x5be0cd19137e2179]%N.
(** xor of a short block into the front of the state; wordwise operations on blocks *)
Definition ly_inject (st b : list N) : list N := map (fun p => N.lxor (fst p) (snd p)) (combine (firstn (length b) st) b) ++ skipn (length b) st.
Definition ly_xor (a b : list N) : list N := map (fun p => N.lxor (fst p) (snd p)) (combine a b).
Definition ly_plus (a b : list N) : list N := map (fun p => add64 (fst p) (snd p)) (combine a b).
Definition ly_rotw (b : list N) : list N := match rev b with [] => [] | x :: r => x :: rev r end.

(** ** Bootstrapping: password, salt, the parameters ("basil"), padding, absorbed in blocks of 64 bytes *)
Definition ly_basil (klen plen slen : nat) (T : N) (R C : nat) : list N :=
  concat (map (le_bytes 8) [N.of_nat klen; N.of_nat plen; N.of_nat slen; T; N.of_nat R; N.of_nat C]).
(** 0x80, zeros, and 0x01 in the last byte of the last block (0x81 if that is the same byte) *)
Definition ly_pad (m : list N) : list N :=
  let b := m ++ 0x80%N :: zeros (63 - length m mod 64) in
  firstn (length b - 1) b ++ [N.lxor (at_ b (length b - 1)) 0x01].
Definition ly_words (b : list N) : list N := map le_val (chunks 8 b).
Definition ly_absorb (st : list N) (blocks : list (list N)) : list N := fold_left (fun st b => ly_full (ly_inject st b)) blocks st.
Definition ly_boot (input : list N) : list N :=
  ly_absorb (zeros 8 ++ ly_iv) (map ly_words (chunks 64 (ly_pad input))).

(** ** The matrix *)
Section Matrix.
Variable R C : nat.
Definition ly_get (M : list (list N)) (row col : nat) : list N := nth (row * C + col) M [].
Definition ly_set (M : list (list N)) (row col : nat) (b : list N) : list (list N) := upd M (row * C + col) b.
Definition ly_rate (st : list N) : list N := firstn 12 st.
(** M[0][C-1-col] = reduced squeeze *)
Definition ly_row0 (st : list N) (M : list (list N)) : list N * list (list N) :=
  fold_left (fun s col => (ly_round (fst s), ly_set (snd s) 0 (C - 1 - col) (ly_rate (fst s)))) (seq 0 C) (st, M).
(** M[1][C-1-col] = M[0][col] xor rand *)
Definition ly_row1 (st : list N) (M : list (list N)) : list N * list (list N) :=
  fold_left (fun s col =>
    let prev := ly_get (snd s) 0 col in
    let st := ly_round (ly_inject (fst s) prev) in
    (st, ly_set (snd s) 1 (C - 1 - col) (ly_xor prev (ly_rate st)))) (seq 0 C) (st, M).
(** Setup of row [row] from [prev], revisiting [rowa]: rand = duplex(M[prev][col] + M[rowa][col]);
    M[row][C-1-col] = M[prev][col] xor rand; M[rowa][col] ^= rotW(rand) *)
Definition ly_setup_row (prev rowa row : nat) (s : list N * list (list N)) : list N * list (list N) :=
  fold_left (fun s col =>
    let p := ly_get (snd s) prev col in
    let st := ly_round (ly_inject (fst s) (ly_plus p (ly_get (snd s) rowa col))) in
    let M := ly_set (snd s) row (C - 1 - col) (ly_xor p (ly_rate st)) in
    (st, ly_set M rowa col (ly_xor (ly_get M rowa col) (ly_rotw (ly_rate st))))) (seq 0 C) s.
(** The rows are filled in windows w = 2, 4, 8, ...: the rows w .. 2w-1 revisit the rows 0 .. w-1 in steps of
    w/2 + 1 or w/2 - 1 alternately (1 for the first window), modulo w. *)
Definition ly_step (k : nat) : nat := if k =? 1 then 1 else if Nat.even k then 2 ^ (k - 1) + 1 else 2 ^ (k - 1) - 1.
Definition ly_revisit (row : nat) : nat := let k := Nat.log2 row in ((row - 2 ^ k) * ly_step k) mod 2 ^ k.
Definition ly_setup (s : list N * list (list N)) : list N * list (list N) :=
  fold_left (fun s row => ly_setup_row (row - 1) (ly_revisit row) row s) (seq 2 (R - 2)) s.
(** Wandering: rand = duplex(M[prev][col] + M[rowa][col]); M[row][col] ^= rand; M[rowa][col] ^= rotW(rand) *)
Definition ly_wander_row (prev rowa row : nat) (s : list N * list (list N)) : list N * list (list N) :=
  fold_left (fun s col =>
    let st := ly_round (ly_inject (fst s) (ly_plus (ly_get (snd s) prev col) (ly_get (snd s) rowa col))) in
    let M := ly_set (snd s) row col (ly_xor (ly_get (snd s) row col) (ly_rate st)) in
    (st, ly_set M rowa col (ly_xor (ly_get M rowa col) (ly_rotw (ly_rate st))))) (seq 0 C) s.
(** One pass visits 0, step, 2 step, ... modulo R until it is back at 0; step is R/2 - 1 in odd passes and -1 in even ones.
    Each row* is drawn from the sponge. *)
Definition ly_stride (tau : nat) : nat := if Nat.odd tau then R / 2 - 1 else R - 1.
Definition ly_order (tau : nat) : list nat := map (fun i => (i * ly_stride tau) mod R) (seq 0 (R / Nat.gcd R (ly_stride tau))).
(** (state and matrix, prev, row* ) *)
Definition ly_visit (x : list N * list (list N) * nat * nat) (row : nat) : list N * list (list N) * nat * nat :=
  let '(s, prev, _) := x in
  let rowa := N.to_nat (at_ (fst s) 0 mod N.of_nat R) in
  (ly_wander_row prev rowa row s, row, rowa).
Definition ly_passes (T : nat) (x : list N * list (list N) * nat * nat) : list N * list (list N) * nat * nat :=
  fold_left (fun x tau => fold_left ly_visit (ly_order tau) x) (seq 1 T) x.
(** ** Wrap-up: absorb the first block of the last row revisited, squeeze *)
Definition ly_squeeze (n : nat) (st : list N) : list N :=
  firstn n (concat (map (fun i => concat (map (le_bytes 8) (ly_rate (Nat.iter i ly_full st)))) (seq 0 (n / 96 + 1)))).
Definition ly_run (klen T : nat) (st : list N) : list N :=
  let M := repeat (zeros 12) (R * C) in
  let s := ly_setup (let '(st, M) := ly_row0 st M in ly_row1 st M) in
  let '(s, _, rowa) := ly_passes T (s, R - 1, ly_revisit R) in
  ly_squeeze klen (ly_full (ly_inject (fst s) (ly_get (snd s) rowa 0))).
End Matrix.
Definition lyra2_spec (klen : nat) (pwd salt : list N) (T R C : nat) : list N :=
  ly_run R C klen T (ly_boot (pwd ++ salt ++ ly_basil klen (length pwd) (length salt) (N.of_nat T) R C)).
