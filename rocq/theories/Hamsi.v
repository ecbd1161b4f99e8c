(** Hamsi.v -- model of /repo/hamsi (digest256.go, digest512.go, sbox.go, hamsi.go); the tables and the statements of a round are in HamsiTab.v. *)
From Coq Require Import List NArith Arith.
Require Import Verif.Base Verif.HashAPI Verif.SpecHamsi Verif.HamsiTab.
Import ListNotations.
Local Open Scope nat_scope.
(** sbox.go:70-105, 390-433: makeT(x)[y][z], the tables T_0, T_1, ... being makeT(0), makeT(8), ...; they are filled by once.Do in
    newDigest, before any use. *)
Definition hm_Tsrc (v : hmv) : list (list N) := match v with HM256 => hm_Tsrc256 | HM512 => hm_Tsrc512 end.
Definition hm_makeT (v : hmv) (x : nat) (y : N) (z : nat) : N :=
  fold_left (fun a k => if N.eqb (N.land y (N.shiftl 1 (N.of_nat (7 - k)))) 0 then a else N.lxor a (at_ (nth (x + k) (hm_Tsrc v) []) z)) (seq 0 8) 0%N.
(** digest256.go:167-204, digest512.go:183-320: m_z = T_0[b0][z] ^ T_1[b1][z] ^ ... ; [b] are the arguments b0, b1, ... *)
Definition hm_m (v : hmv) (b : list N) (z : nat) : N :=
  fold_left (fun a j => N.lxor a (hm_makeT v (8 * j) (at_ b j) z)) (seq 1 (hm_r v - 1)) (hm_makeT v 0 (at_ b 0) z).
(** one round, on (m0, m1, ..., c0, c1, ...) *)
Definition go_add (v : hmv) (al : list N) (r : N) (V : list N) : list N := match v with HM256 => hm_add256 al r V | HM512 => hm_add512 al r V end.
Definition go_sub (v : hmv) (V : list N) : list N := match v with HM256 => hm_sub256 V | HM512 => hm_sub512 V end.
Definition go_lin (v : hmv) (V : list N) : list N := match v with HM256 => hm_lin256 V | HM512 => hm_lin2512 (hm_lin512 V) end.
Definition hm_go_round (v : hmv) (al : list N) (V : list N) (r : nat) : list N := go_lin v (go_sub v (go_add v al (N.of_nat r) V)).
Definition hm_out (v : hmv) : list nat := match v with HM256 => hm_out256 | HM512 => hm_out512 end.
(** digest256.go:166-621, digest512.go:179-661 (process, 3 or 6 rounds with ALPHA_N) and digest256.go:623-816, digest512.go:664-1148 (processFinal,
    6 or 12 rounds with ALPHA_F) *)
Definition hm_rounds (v : hmv) (al : list N) (n : nat) (s b : list N) : list N :=
  let V := fold_left (hm_go_round v al) (seq 0 n) (map (hm_m v b) (seq 0 (2 * hm_r v)) ++ firstn (2 * hm_r v) s) in
  map (fun i => N.lxor (at_ s i) (at_ V (nth i (hm_out v) 0))) (seq 0 (2 * hm_r v)).
Definition hm_process (v : hmv) (s b : list N) : list N :=
  match v with HM256 => hm_rounds v hm_ALPHA_N256 3 s b | HM512 => hm_rounds v hm_ALPHA_N512 6 s b end.
Definition hm_processFinal (v : hmv) (s b : list N) : list N :=
  match v with HM256 => hm_rounds v hm_ALPHA_F256 6 s b | HM512 => hm_rounds v hm_ALPHA_F512 12 s b end.
(** digest256.go:18-29, digest512.go:18-29; x and nx are not used, initVal and hs are parameters of the functions below *)
Record hmd : Type := mkhmd { hd_s : list N; hd_len : N; hd_partial : N; hd_plen : nat }.
Definition hm_initVal (hs : nat) : list N := match hs with 28 => hm_iv224 | 32 => hm_iv256 | 48 => hm_iv384 | _ => hm_iv512 end.
(** digest256.go:47-59, Reset *)
Definition hm_reset (v : hmv) (hs : nat) : hmd := mkhmd (copy_at (zeros (2 * hm_r v)) 0 (hm_initVal hs)) 0 0 0.
(** partial = (partial << 8) | byte, on a uint32 or a uint64 *)
Definition hm_shift (v : hmv) (p b : N) : N :=
  N.lor (match v with HM256 => w32 (N.shiftl p 8) | HM512 => w64 (N.shiftl p 8) end) (N.land b 255).
(** the arguments taken from partial: digest256.go:88-93 (the first one is partial >> 24, without a mask), digest512.go:88-97 *)
Definition hm_args (v : hmv) (p : N) : list N :=
  match v with
  | HM256 => [N.shiftr p 24; N.land (N.shiftr p 16) 255; N.land (N.shiftr p 8) 255; N.land p 255]
  | HM512 => map (fun k => N.land (w32 (N.shiftr p k)) 255) [56; 48; 40; 32; 24; 16; 8; 0]%N
  end.
(** the loop digest256.go:97-107, digest512.go:101-115 on the n blocks of q *)
Definition hm_blocks (v : hmv) (s q : list N) (n : nat) : list N :=
  fold_left (fun s k => hm_process v s (map (fun j => N.land (at_ q (hm_r v * k + j)) 255) (seq 0 (hm_r v)))) (seq 0 n) s.
(** digest256.go:69-117, digest512.go:69-125, Write.  The first loop takes k = min(4 - partialLen, len(p)) bytes. *)
Definition hm_tail (v : hmv) (s : list N) (len partial : N) (q : list N) : hmd :=
  let n := length q / hm_r v in
  let t := skipn (hm_r v * n) q in
  mkhmd (hm_blocks v s q n) len (fold_left (hm_shift v) t partial) (length t).
Definition hm_write (v : hmv) (d : hmd) (p : list N) : hmd * nat :=
  let nn := length p in
  let len := w64 (hd_len d + N.shiftl (N.of_nat nn) 3) in
  (if hd_plen d =? 0 then hm_tail v (hd_s d) len (hd_partial d) p
   else let k := Nat.min (hm_r v - hd_plen d) (length p) in
        let partial := fold_left (hm_shift v) (firstn k p) (hd_partial d) in
        let plen := hd_plen d + k in
        if plen <? hm_r v then mkhmd (hd_s d) len partial plen
        else hm_tail v (hm_process v (hd_s d) (hm_args v partial)) len partial (skipn k p), nn).
(** digest256.go:131-133: for d.partialLen != 0 { d.Write([]byte{0}) }; the fuel is larger than the number of turns *)
Fixpoint hm_zeros (fuel : nat) (v : hmv) (d : hmd) : hmd :=
  match fuel with
  | O => d
  | S n => if hd_plen d =? 0 then d else hm_zeros n v (fst (hm_write v d [0%N]))
  end.
(** digest256.go:153-161, digest512.go:166-174: the bytes of the words of s (through hoff), most significant first *)
Definition hm_bytes (ws : list N) (len : nat) : list N :=
  let step := fun (st : list N * N * nat) (i : nat) =>
    let '(out, ch, j) := st in
    let '(ch, j) := if N.eqb (N.land (N.of_nat i) 3) 0 then (at_ ws j, S j) else (ch, j) in
    (upd out i (w8 (N.shiftr ch 24)), shl32 ch 8, j) in
  fst (fst (fold_left step (seq 0 len) (zeros len, 0%N, 0))).
(** digest256.go:126-164, digest512.go:134-176, checkSum *)
Definition hm_checkSum (v : hmv) (hs : nat) (d : hmd) : list N :=
  let bc := hd_len d in
  let d := fst (hm_write v d [128%N]) in
  let d := hm_zeros 9 v d in
  let byt := fun k => N.land (w32 (N.shiftr bc k)) 255 in
  match v with
  | HM256 =>
      let s := hm_process v (hd_s d) (map byt [56; 48; 40; 32]%N) in
      let s := hm_processFinal v s (map byt [24; 16; 8; 0]%N) in
      hm_bytes s hs
  | HM512 =>
      let s := hm_processFinal v (hd_s d) (map byt [56; 48; 40; 32; 24; 16; 8; 0]%N) in
      let hoff := if hs =? 48 then hm_HOFF384 else hm_HOFF512 in
      hm_bytes (map (at_ s) hoff) hs
  end.
(** digest256.go:119-124, Sum: works on a copy *)
Definition hm_impl (v : hmv) (hs : nat) : impl hmd :=
  mkimpl (hm_write v) (fun d i => (d, i ++ hm_checkSum v hs d)) (fun _ => hm_reset v hs).
(** hamsi.go:27-65, Sum224, ..., Sum512 *)
Definition hm_Sum (v : hmv) (hs : nat) (data : list N) : list N :=
  let d := fst (hm_write v (hm_reset v hs) data) in
  copy_at (zeros hs) 0 (firstn hs (hm_checkSum v hs d)).
