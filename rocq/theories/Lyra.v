(** Lyra.v -- model of lyra2re/lyra2re.go, lyra2re/sum.go, lyra2re2/lyra2re.go, lyra2re2/sum.go.
    Line numbers are those of lyra2re/lyra2re.go; lyra2re2/lyra2re.go has the same code (shifted by a few comment lines)
    except for the stride of absorption at line 414 (417). *)
From Coq Require Import List NArith ZArith Arith.
Require Import Verif.Base.
Import ListNotations.

(** lyra2re.go:24-26, rotr64 *)
Definition lm_rotr (w c : N) : N := N.lor (N.shiftr w c) (shl64 w (64 - c)).
(** lyra2re.go:29-39, g, called as v[a], v[b], v[c], v[d] = g(v[a], v[b], v[c], v[d]) *)
Definition lm_g (v : list N) (q : nat * nat * nat * nat) : list N :=
  let '(ia, ib, ic, id) := q in
  let a := at_ v ia in let b := at_ v ib in let c := at_ v ic in let d := at_ v id in
  let a := add64 a b in
  let d := lm_rotr (N.lxor d a) 32 in
  let c := add64 c d in
  let b := lm_rotr (N.lxor b c) 24 in
  let a := add64 a b in
  let d := lm_rotr (N.lxor d a) 16 in
  let c := add64 c d in
  let b := lm_rotr (N.lxor b c) 63 in
  upd (upd (upd (upd v ia a) ib b) ic c) id d.
(** lyra2re.go:42-51, roundLyra (reducedBlake2bLyra: 89-91) *)
Definition lm_round (v : list N) : list N :=
  fold_left lm_g [(0, 4, 8, 12); (1, 5, 9, 13); (2, 6, 10, 14); (3, 7, 11, 15); (0, 5, 10, 15); (1, 6, 11, 12); (2, 7, 8, 13); (3, 4, 9, 14)] v.
(** lyra2re.go:79-83, blake2bLyra *)
Definition lm_full (v : list N) : list N := fold_left (fun v _ => lm_round v) (seq 0 12) v.
(** lyra2re.go:14-19, 67-74, newLyra2RE *)
Definition lm_IV : list N :=
  [0x6a09e667f3bcc908; 0xbb67ae8584caa73b; 0x3c6ef372fe94f82b; 0xa54ff53a5f1d36f1;
   0x510e527fade682d1; 0x9b05688c2b3e6c1f; 0x1f83d9abfb41bd6b; 0x5be0cd19137e2179]%N.
Definition lm_new : list N := copy_at (zeros 16) 8 lm_IV.
(** lyra2re.go:99-111, squeeze(out) *)
Definition lm_tmp (st : list N) : list N := fold_left (fun tmp i => copy_at tmp (i * 8) (le_bytes 8 (at_ st i))) (seq 0 12) (zeros 96).
Definition lm_squeeze (st out : list N) : list N :=
  snd (fold_left (fun s j => (lm_full (fst s), copy_at (snd s) (j * 96) (lm_tmp (fst s)))) (seq 0 (length out / 96 + 1)) (st, out)).
(** lyra2re.go:119-126, absorbBlock (n = 12); 135-142, absorbBlockBlake2Safe (n = 8), on mem[ptr:] *)
Definition lm_xin (n : nat) (f : nat -> N) (st : list N) : list N := fold_left (fun st i => upd st i (N.lxor (at_ st i) (f i))) (seq 0 n) st.
Definition lm_absorb (n : nat) (mem : list N) (ptr : nat) (st : list N) : list N := lm_full (lm_xin n (fun i => at_ mem (ptr + i)) st).

(** A loop  for j = 0; j < 12; j++ { p[j] = f(j, q[j]) }  on the array [mem], p = mem[off:], q = mem[inn:]. *)
Definition lm_fill (mem : list N) (off inn : nat) (f : nat -> N -> N) : list N :=
  fold_left (fun mem j => upd mem (off + j) (f j (at_ mem (inn + j)))) (seq 0 12) mem.
(** The rows are given by the offset of memMatrix[row] in wholeMatrix.
    lyra2re.go:152-170, reducedSqueezeRow0 *)
Definition lm_row0 (rowOut nCols : nat) (s : list N * list N) : list N * list N :=
  fold_left (fun s i =>
    let ptr := rowOut + (nCols - 1 - i) * 12 in
    (lm_round (fst s), lm_fill (snd s) ptr ptr (fun j _ => at_ (fst s) j))) (seq 0 nCols) s.
(** lyra2re.go:181-214, reducedDuplexRow1 *)
Definition lm_row1 (rowIn rowOut nCols : nat) (s : list N * list N) : list N * list N :=
  fold_left (fun s i =>
    let inn := rowIn + i * 12 in let out := rowOut + (nCols - 1 - i) * 12 in
    let st := lm_round (lm_xin 12 (fun j => at_ (snd s) (inn + j)) (fst s)) in
    (st, lm_fill (snd s) out inn (fun j x => N.lxor x (at_ st j)))) (seq 0 nCols) s.
(** lyra2re.go:229-271, reducedDuplexRowSetup.  append(state[11:12], state[:11]...) exceeds the capacity 5 of state[11:12], so it
    allocates: state is unchanged. *)
Definition lm_newState (st : list N) : list N := slice st 11 12 ++ firstn 11 st.
Definition lm_setupRow (rowIn rowInOut rowOut nCols : nat) (s : list N * list N) : list N * list N :=
  fold_left (fun s i =>
    let inn := rowIn + i * 12 in let io := rowInOut + i * 12 in let out := rowOut + (nCols - 1 - i) * 12 in
    let st := lm_round (lm_xin 12 (fun j => add64 (at_ (snd s) (inn + j)) (at_ (snd s) (io + j))) (fst s)) in
    let mem := lm_fill (snd s) out inn (fun j x => N.lxor x (at_ st j)) in
    (st, lm_fill mem io io (fun j x => N.lxor x (at_ (lm_newState st) j)))) (seq 0 nCols) s.
(** lyra2re.go:286-326, reducedDuplexRow *)
Definition lm_duplexRow (rowIn rowInOut rowOut nCols : nat) (s : list N * list N) : list N * list N :=
  fold_left (fun s i =>
    let inn := rowIn + i * 12 in let io := rowInOut + i * 12 in let out := rowOut + i * 12 in
    let st := lm_round (lm_xin 12 (fun j => add64 (at_ (snd s) (inn + j)) (at_ (snd s) (io + j))) (fst s)) in
    let mem := lm_fill (snd s) out out (fun j x => N.lxor x (at_ st j)) in
    (st, lm_fill mem io io (fun j x => N.lxor x (at_ (lm_newState st) j)))) (seq 0 nCols) s.

(** Outcomes: a value, a panic, or "the fuel of the model's loop ran out" (shown not to happen). *)
Inductive outcome (A : Type) : Type := Ok (a : A) | Panic | Fuel.
Arguments Ok {A}. Arguments Panic {A}. Arguments Fuel {A}.
Definition obind {A B} (x : outcome A) (f : A -> outcome B) : outcome B := match x with Ok a => f a | Panic => Panic | Fuel => Fuel end.
(** wholeMatrix[i] = v, with the index check *)
Definition lm_wr (i : nat) (v : N) (mem : list N) : outcome (list N) := if i <? length mem then Ok (upd mem i v) else Panic.
Fixpoint lm_wrs (i : nat) (vs : list N) (mem : list N) : outcome (list N) :=
  match vs with [] => Ok mem | v :: vs => obind (lm_wr i v mem) (lm_wrs (S i) vs) end.
(** binary.LittleEndian.Uint64(b[j*8:]) for j < len(b)/8 *)
Definition lm_load (b : list N) : list N := map (fun j => le_val (slice b (j * 8) (j * 8 + 8))) (seq 0 (length b / 8)).
Definition lm_nBlocks (pwd salt : list N) : nat := (length salt + length pwd + 6 * 8) / 64 + 1.
(** lyra2re.go:370-405: password, salt, basil, padding *)
Definition lm_input (klen : nat) (pwd salt : list N) (timeCost : N) (nRows nCols : nat) (mem : list N) : outcome (list N) :=
  obind (lm_wrs 0 (lm_load pwd) mem) (fun mem =>
  obind (lm_wrs (length pwd / 8) (lm_load salt) mem) (fun mem =>
  let p := length pwd / 8 + length salt / 8 in
  obind (lm_wrs p [w64 (N.of_nat klen); w64 (N.of_nat (length pwd)); w64 (N.of_nat (length salt)); timeCost; w64 (N.of_nat nRows); w64 (N.of_nat nCols); 0x80%N] mem) (fun mem =>
  let p := (lm_nBlocks pwd salt * 64) / 8 - 1 in
  if p <? length mem then Ok (upd mem p (N.lxor (at_ mem p) 0x0100000000000000)) else Panic))).
(** lyra2re.go:408-415: absorption of block i at word stride * i; mem[ptr:] and in[0..7] must be in range *)
Definition lm_boot (stride n : nat) (mem : list N) (st : list N) : outcome (list N) :=
  fold_left (fun st i => obind st (fun st => if i * stride + 8 <=? length mem then Ok (lm_absorb 8 mem (i * stride) st) else Panic)) (seq 0 n) (Ok st).
(** lyra2re.go:421-439: the Setup loop.  rowa, window, gap are uint64; step is an int (64 bits), kept as its two's complement. *)
Record lm_su : Type := mksu { su_s : list N * list N; su_row : nat; su_prev : nat; su_rowa : N; su_step : N; su_window : N; su_gap : N }.
Definition lm_setup1 (nCols : nat) (x : lm_su) : lm_su :=
  let len := 12 * nCols in
  let s := lm_setupRow (su_prev x * len) (N.to_nat (su_rowa x) * len) (su_row x * len) nCols (su_s x) in
  let rowa := N.land (add64 (su_rowa x) (su_step x)) (sub64 (su_window x) 1) in
  let prev := su_row x in
  let row := S (su_row x) in
  if (rowa =? 0)%N then mksu s row prev rowa (add64 (su_window x) (su_gap x)) (mul64 (su_window x) 2) (sub64 0 (su_gap x))
  else mksu s row prev rowa (su_step x) (su_window x) (su_gap x).
Definition lm_setup (nRows nCols : nat) (s : list N * list N) : lm_su :=
  Nat.iter (nRows - 2) (lm_setup1 nCols) (mksu s 2 1 0 1 2 1).
(** lyra2re.go:448-462: the visitation loop of one pass; row is an int (memMatrix[row] panics if it is negative) and % is Go's *)
Fixpoint lm_visit (fuel nRows nCols : nat) (step : Z) (x : list N * list N * nat * N * Z) : outcome (list N * list N * nat * N * Z) :=
  match fuel with
  | O => Fuel
  | S fuel =>
    let '(s, prev, _, row) := x in
    let rowa := (at_ (fst s) 0 mod N.of_nat nRows)%N in
    if (row <? 0)%Z then Panic else
    let len := 12 * nCols in
    let s := lm_duplexRow (prev * len) (N.to_nat rowa * len) (Z.to_nat row * len) nCols s in
    let x := (s, Z.to_nat row, rowa, Z.rem (row + step) (Z.of_nat nRows)) in
    if (snd x =? 0)%Z then Ok x else lm_visit fuel nRows nCols step x
  end.
(** lyra2re.go:441-463: tau = from, from+1, ..., [n] passes *)
Fixpoint lm_passes (n : nat) (tau : N) (nRows nCols : nat) (x : list N * list N * nat * N * Z) : outcome (list N * list N * nat * N * Z) :=
  match n with
  | O => Ok x
  | S n =>
    let step := if (tau mod 2 =? 0)%N then (-1)%Z else (Z.of_nat nRows / 2 - 1)%Z in
    obind (lm_visit (S nRows) nRows nCols step x) (lm_passes n (tau + 1) nRows nCols)
  end.
(** lyra2re.go:340-469, Lyra2(k, pwd, salt, timeCost, nRows, nCols), for nRows, nCols >= 0 (make panics otherwise): the new contents
    of k.  [stride] is 64 in lyra2re (line 414) and 8 in lyra2re2 (line 417). *)
Definition lm_Lyra2 (stride : nat) (k pwd salt : list N) (timeCost : N) (nRows nCols : nat) : outcome (list N) :=
  let len := 12 * nCols in
  obind (lm_input (length k) pwd salt timeCost nRows nCols (zeros (nRows * len))) (fun mem =>
  obind (lm_boot stride (lm_nBlocks pwd salt) mem lm_new) (fun st =>
  if nRows <? 2 then Panic else
  let s := lm_row1 0 len nCols (lm_row0 0 nCols (st, mem)) in
  let x := lm_setup nRows nCols s in
  obind (lm_passes (N.to_nat timeCost) 1 nRows nCols (su_s x, su_prev x, su_rowa x, 0%Z)) (fun '(s, _, rowa, _) =>
  Ok (lm_squeeze (lm_absorb 12 (snd s) (N.to_nat rowa * len) (fst s)) k)))).
