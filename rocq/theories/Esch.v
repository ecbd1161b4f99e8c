(** Esch.v -- model of package esch. *)
From Coq Require Import List NArith Arith Bool.
From Verif Require Import Base HashAPI.
Import ListNotations.

(** /repo/esch/sbox.go:3-6 *)
Definition esch_C : list N :=
  [0xb7e15162; 0xbf715880; 0x38b4da56; 0x324e7738; 0xbb1185eb; 0x4f7c7b57; 0xcfbfa1c8; 0xc2b3293d]%N.
(** /repo/esch/utils.go:69-84: the body of the loop over j on H[px], H[py] with px = 2j, py = 2j + 1 *)
Definition esch_box (H : list N) (j : nat) : list N :=
  let x := at_ H (2 * j) in let y := at_ H (2 * j + 1) in let c := at_ esch_C j in
  let x := add32 x (rotr32 y 31) in let y := N.lxor y (rotr32 x 24) in let x := N.lxor x c in
  let x := add32 x (rotr32 y 17) in let y := N.lxor y (rotr32 x 17) in let x := N.lxor x c in
  let x := add32 x y in let y := N.lxor y (rotr32 x 31) in let x := N.lxor x c in
  let x := add32 x (rotr32 y 24) in let y := N.lxor y (rotr32 x 16) in let x := N.lxor x c in
  upd (upd H (2 * j) x) (2 * j + 1) y.
(** /repo/esch/utils.go:62-116: one iteration of the loop over s *)
Definition esch_step (rounds : nat) (H : list N) (s : nat) : list N :=
  let H := upd H 1 (N.lxor (at_ H 1) (at_ esch_C (s mod 8))) in
  let H := upd H 3 (N.lxor (at_ H 3) (w32 (N.of_nat s))) in
  let H := fold_left esch_box (seq 0 rounds) H in
  let x := N.lxor (N.lxor (at_ H 0) (at_ H 2)) (at_ H 4) in
  let y := N.lxor (N.lxor (at_ H 1) (at_ H 3)) (at_ H 5) in
  let x := if 6 <? rounds then N.lxor x (at_ H 6) else x in
  let y := if 6 <? rounds then N.lxor y (at_ H 7) else y in
  let x := rotr32 (N.lxor x (shl32 x 16)) 16 in
  let y := rotr32 (N.lxor y (shl32 y 16)) 16 in
  let H := fold_left (fun H k => let i := 2 * k in let j := rounds + i in
             let H := upd H j (N.lxor (at_ H j) (N.lxor (at_ H i) y)) in
             upd H (j + 1) (N.lxor (at_ H (j + 1)) (N.lxor (at_ H (i + 1)) x))) (seq 0 (rounds / 2)) H in
  let x := at_ H rounds in
  let y := at_ H (rounds + 1) in
  let H := fold_left (fun H i => let H := upd H (i + rounds) (at_ H i) in upd H i (at_ H (i + rounds + 2))) (seq 0 (rounds - 2)) H in
  let H := upd H (rounds * 2 - 2) (at_ H (rounds - 2)) in
  let H := upd H (rounds * 2 - 1) (at_ H (rounds - 1)) in
  let H := upd H (rounds - 2) x in
  upd H (rounds - 1) y.
(** /repo/esch/utils.go:58-117 *)
Definition esch_sparkle (H : list N) (rounds ns : nat) : list N := fold_left (esch_step rounds) (seq 0 ns) H.

(** /repo/esch/digest.go:163-180: the message is mixed into the first words *)
Definition esch_mix (hs : nat) (s : list N) (M : list N) : list N :=
  let x := N.lxor (at_ M 0) (at_ M 2) in
  let y := N.lxor (at_ M 1) (at_ M 3) in
  let x := rotr32 (N.lxor x (shl32 x 16)) 16 in
  let y := rotr32 (N.lxor y (shl32 y 16)) 16 in
  let s := upd s 0 (N.lxor (N.lxor (at_ s 0) (at_ M 0)) y) in
  let s := upd s 1 (N.lxor (N.lxor (at_ s 1) (at_ M 1)) x) in
  let s := upd s 2 (N.lxor (N.lxor (at_ s 2) (at_ M 2)) y) in
  let s := upd s 3 (N.lxor (N.lxor (at_ s 3) (at_ M 3)) x) in
  let s := upd s 4 (N.lxor (at_ s 4) y) in
  let s := upd s 5 (N.lxor (at_ s 5) x) in
  if 256 <? hs then
    let s := upd s 6 (N.lxor (at_ s 6) y) in upd s 7 (N.lxor (at_ s 7) x)
  else s.
(** /repo/esch/digest.go:151-199 (bytesToUint32s of utils.go:16-27) *)
Definition esch_transform (hs : nat) (s data : list N) (num_blks : nat) (lastBlock : bool) : list N :=
  let datas := map (fun i => le_val (slice data (4 * i) (4 * i + 4))) (seq 0 (length data / 4)) in
  fold_left (fun s blk =>
    let M := map (fun i => at_ datas (blk * 4 + i)) (seq 0 4) in
    let s := esch_mix hs s M in
    let steps := if lastBlock then 11 else 7 in
    let steps := if 256 <? hs then S steps else steps in
    let r := if 256 <? hs then 8 else 6 in
    esch_sparkle s r steps) (seq 0 num_blks) s.

(** /repo/esch/digest.go:17-24; bs and len are never used to compute anything (checkSum overwrites len) *)
Record edig : Type := mkedig { e_s : list N; e_x : list N; e_nx : nat }.
(** /repo/esch/digest.go:42-53 *)
Definition esch_new : edig := mkedig (zeros 16) (zeros 128) 0.
(** /repo/esch/digest.go:27-40: which sizes are accepted (in bits) *)
Definition esch_accepts (hashsize : N) : bool := negb (hashsize =? 0)%N && ((hashsize =? 256) || (hashsize =? 384))%N.
(** /repo/esch/digest.go:63-98 *)
Definition esch_write (hs : nat) (d : edig) (p : list N) : edig * nat :=
  let nn := length p in
  let '(s, x, nx, p) :=
    if (0 <? e_nx d) && (16 <=? e_nx d + length p) then
      let xx := 16 - e_nx d in
      let x := copy_at (e_x d) (e_nx d) p in
      (esch_transform hs (e_s d) x 1 false, x, 0, skipn xx p)
    else (e_s d, e_x d, e_nx d, p) in
  let '(s, p) :=
    if 16 <? length p then
      let blocks := (length p - 1) / 16 in
      let bytes := blocks * 16 in
      (esch_transform hs s (firstn bytes p) blocks false, skipn bytes p)
    else (s, p) in
  (mkedig s (copy_at x nx p) (nx + length p), nn).
(** /repo/esch/digest.go:127-146: the output loop; n = hss - processed, first says that len is not 0 *)
Fixpoint esch_out (hs : nat) (fuel n : nat) (first : bool) (s : list N) : list N :=
  match fuel with
  | O => []
  | S fuel =>
      if n =? 0 then []
      else
        let s := if first then s else if 256 <? hs then esch_sparkle s 8 8 else esch_sparkle s 6 7 in
        let k := if n <? 16 then n else 16 in
        firstn k (concat (map (le_bytes 4) s)) ++ esch_out hs fuel (n - k) false s
  end.
(** /repo/esch/digest.go:107-149 *)
Definition esch_checkSum (hs : nat) (d : edig) : list N :=
  let k := (hs + 128) / 64 - 1 in
  let '(s, x) :=
    if e_nx d <? 16 then
      (upd (e_s d) k (N.lxor (at_ (e_s d) k) 0x1000000), upd (copy_at (e_x d) (e_nx d) (zeros 128)) (e_nx d) 0x80%N)
    else (upd (e_s d) k (N.lxor (at_ (e_s d) k) 0x2000000), e_x d) in
  let s := esch_transform hs s x 1 true in
  esch_out hs (hs / 8) (hs / 8) true s.
(** /repo/esch/digest.go:100-105 *)
Definition esch_sum (hs : nat) (d : edig) (inp : list N) : edig * list N := (d, inp ++ esch_checkSum hs d).
Definition esch_impl (hs : nat) : impl edig := mkimpl (esch_write hs) (esch_sum hs) (fun _ => esch_new).
(** /repo/esch/esch.go:20-27, 38-45 *)
Definition esch_Sum (hs : nat) (data : list N) : list N := esch_checkSum hs (fst (esch_write hs esch_new data)).
