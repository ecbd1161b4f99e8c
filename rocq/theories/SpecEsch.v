(** SpecEsch.v -- the SPARKLE permutations and the Esch hash functions, written from the Schwaemm and Esch submission
    (NIST LWC), independently of the code.  A state is a list of branches (x, y). *)
From Coq Require Import List NArith Arith Bool.
From Verif Require Import Base.
Import ListNotations.

Definition sk_consts : list N :=
  [0xb7e15162; 0xbf715880; 0x38b4da56; 0x324e7738; 0xbb1185eb; 0x4f7c7b57; 0xcfbfa1c8; 0xc2b3293d]%N.
(** The ARX-box Alzette. *)
Definition alzette (c : N) (b : N * N) : N * N :=
  let '(x, y) := b in
  let x := add32 x (rotr32 y 31) in let y := N.lxor y (rotr32 x 24) in let x := N.lxor x c in
  let x := add32 x (rotr32 y 17) in let y := N.lxor y (rotr32 x 17) in let x := N.lxor x c in
  let x := add32 x y in let y := N.lxor y (rotr32 x 31) in let x := N.lxor x c in
  let x := add32 x (rotr32 y 24) in let y := N.lxor y (rotr32 x 16) in let x := N.lxor x c in
  (x, y).
(** l(x) = (x xor (x << 16)) <<< 16 *)
Definition sk_ell (x : N) : N := rotl32 (N.lxor x (shl32 x 16)) 16.
Definition xorl (l : list N) : N := match l with [] => 0%N | a :: t => fold_left N.lxor t a end.
Definition bxor (b : N * N) (d : N * N) : N * N := (N.lxor (fst b) (fst d), N.lxor (snd b) (snd d)).
Definition bmap (f : nat -> N * N -> N * N) (l : list (N * N)) : list (N * N) :=
  map (fun i => f i (nth i l (0, 0)%N)) (seq 0 (length l)).

Definition sk_step (B : list (N * N)) (s : nat) : list (N * N) :=
  let B := bmap (fun i b => match i with
                            | 0 => (fst b, N.lxor (snd b) (at_ sk_consts (s mod 8)))
                            | 1 => (fst b, N.lxor (snd b) (N.of_nat s))
                            | _ => b end) B in
  let B := bmap (fun i b => alzette (at_ sk_consts i) b) B in
  let h := length B / 2 in
  let L := firstn h B in let Q := skipn h B in
  let tx := sk_ell (xorl (map fst L)) in
  let ty := sk_ell (xorl (map snd L)) in
  let M := bmap (fun i b => bxor b (bxor (nth i L (0, 0)%N) (ty, tx))) Q in
  skipn 1 M ++ firstn 1 M ++ L.
Definition sparkle_p (ns : nat) (B : list (N * N)) : list (N * N) := fold_left sk_step (seq 0 ns) B.

(** Esch256: 6 branches, 7 / 11 steps; Esch384: 8 branches, 8 / 12 steps. *)
Definition es_branches (hs : nat) : nat := if hs =? 256 then 6 else 8.
Definition es_slim (hs : nat) : nat := if hs =? 256 then 7 else 8.
Definition es_big (hs : nat) : nat := if hs =? 256 then 11 else 12.
(** Injecting a 16-byte block into the first half of the branches. *)
Definition es_inject (b : list N) (B : list (N * N)) : list (N * N) :=
  let w := map le_val (chunks 4 b) in
  let tx := sk_ell (N.lxor (at_ w 0) (at_ w 2)) in
  let ty := sk_ell (N.lxor (at_ w 1) (at_ w 3)) in
  bmap (fun i v => if i <? 2 then bxor v (N.lxor (at_ w (2 * i)) ty, N.lxor (at_ w (2 * i + 1)) tx)
                   else if i <? length B / 2 then bxor v (ty, tx) else v) B.
Definition es_absorb (hs : nat) (B : list (N * N)) (b : list N) : list (N * N) := sparkle_p (es_slim hs) (es_inject b B).
(** The last block has 1 to 16 bytes (none for the empty message). *)
Definition es_n (m : list N) : nat := (length m - 1) / 16.
Definition es_last (m : list N) : list N := skipn (16 * es_n m) m.
Definition es_pad (l : list N) : list N := if length l <? 16 then l ++ 0x80%N :: zeros (15 - length l) else l.
Definition es_const (l : list N) : N := if length l <? 16 then 0x1000000%N else 0x2000000%N.
Definition es_mark (k : N) (B : list (N * N)) : list (N * N) :=
  bmap (fun i v => if i =? length B / 2 - 1 then (fst v, N.lxor (snd v) k) else v) B.
Definition es_bytes (B : list (N * N)) : list N := flat_map (fun b => le_bytes 4 (fst b) ++ le_bytes 4 (snd b)) B.
Definition es_squeeze (hs : nat) (B : list (N * N)) : list N :=
  flat_map (fun i => firstn 16 (es_bytes (Nat.iter i (sparkle_p (es_slim hs)) B))) (seq 0 (hs / 128)).
Definition esch (hs : nat) (m : list N) : list N :=
  let B := fold_left (es_absorb hs) (chunks 16 (firstn (16 * es_n m) m)) (repeat (0, 0)%N (es_branches hs)) in
  es_squeeze hs (sparkle_p (es_big hs) (es_inject (es_pad (es_last m)) (es_mark (es_const (es_last m)) B))).
