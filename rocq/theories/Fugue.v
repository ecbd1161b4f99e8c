(** Fugue.v -- model of /repo/fugue (digest.go, utils.go, fugue.go); the tables and the unrolled statements are in FugueTab.v. *)
From Coq Require Import List NArith Arith.
Require Import Verif.Base Verif.HashAPI Verif.SpecFugue Verif.FugueTab.
Import ListNotations.
Local Open Scope nat_scope.
(** utils.go:65-139, smix: [w] holds S[i0], S[i1], S[i2], S[i3], and the result is their new values.  
    [fg_ix x sh] is byte(x >> sh) & 0xFF. *)
Definition fg_ix (x : N) (sh : N) : nat := N.to_nat (w8 (N.shiftr x sh)).
Definition fg_go_smix (w : list N) : list N :=
  let x0 := at_ w 0 in let x1 := at_ w 1 in let x2 := at_ w 2 in let x3 := at_ w 3 in
  let t00 := at_ fg_mixtab0 (fg_ix x0 24) in let t01 := at_ fg_mixtab1 (fg_ix x0 16) in let t02 := at_ fg_mixtab2 (fg_ix x0 8) in let t03 := at_ fg_mixtab3 (fg_ix x0 0) in
  let c0 := N.lxor (N.lxor (N.lxor (N.lxor 0 t00) t01) t02) t03 in
  let r1 := N.lxor 0 t01 in let r2 := N.lxor 0 t02 in let r3 := N.lxor 0 t03 in
  let t10 := at_ fg_mixtab0 (fg_ix x1 24) in let t11 := at_ fg_mixtab1 (fg_ix x1 16) in let t12 := at_ fg_mixtab2 (fg_ix x1 8) in let t13 := at_ fg_mixtab3 (fg_ix x1 0) in
  let c1 := N.lxor (N.lxor (N.lxor (N.lxor 0 t10) t11) t12) t13 in
  let r0 := N.lxor 0 t10 in let r2 := N.lxor r2 t12 in let r3 := N.lxor r3 t13 in
  let t20 := at_ fg_mixtab0 (fg_ix x2 24) in let t21 := at_ fg_mixtab1 (fg_ix x2 16) in let t22 := at_ fg_mixtab2 (fg_ix x2 8) in let t23 := at_ fg_mixtab3 (fg_ix x2 0) in
  let c2 := N.lxor (N.lxor (N.lxor (N.lxor 0 t20) t21) t22) t23 in
  let r0 := N.lxor r0 t20 in let r1 := N.lxor r1 t21 in let r3 := N.lxor r3 t23 in
  let t30 := at_ fg_mixtab0 (fg_ix x3 24) in let t31 := at_ fg_mixtab1 (fg_ix x3 16) in let t32 := at_ fg_mixtab2 (fg_ix x3 8) in let t33 := at_ fg_mixtab3 (fg_ix x3 0) in
  let c3 := N.lxor (N.lxor (N.lxor (N.lxor 0 t30) t31) t32) t33 in
  let r0 := N.lxor r0 t30 in let r1 := N.lxor r1 t31 in let r2 := N.lxor r2 t32 in
  let m a b c d := N.lor (N.lor (N.lor (N.land a 0xFF000000) (N.land b 0x00FF0000)) (N.land c 0x0000FF00)) (N.land d 0x000000FF) in
  [ m (N.lxor c0 (shl32 r0 0)) (N.lxor c1 (shl32 r1 0)) (N.lxor c2 (shl32 r2 0)) (N.lxor c3 (shl32 r3 0));
    m (N.lxor c1 (shl32 r0 8)) (N.lxor c2 (shl32 r1 8)) (N.lxor c3 (shl32 r2 8)) (N.lxor c0 (N.shiftr r3 24));
    m (N.lxor c2 (shl32 r0 16)) (N.lxor c3 (shl32 r1 16)) (N.lxor c0 (N.shiftr r2 16)) (N.lxor c1 (N.shiftr r3 16));
    m (N.lxor c3 (shl32 r0 24)) (N.lxor c0 (N.shiftr r1 8)) (N.lxor c1 (N.shiftr r2 8)) (N.lxor c2 (N.shiftr r3 8)) ].
(** digest.go:157-161, ror(rc, len) on the array s of 36 words (the old contents of tmpS never reach s, as rc words of it are written first) *)
Definition fg_ror (len rc : nat) (s : list N) : list N :=
  let tmp := copy_at (zeros 36) 0 (slice s (len - rc) len) in
  let s := copy_at s rc (slice s 0 (len - rc)) in
  copy_at s 0 (firstn rc tmp).
(** one statement of FugueTab.v; [sm] is smix, [w] the word *)
Definition fg_exec1 (sm : list N -> list N) (len : nat) (w : N) (s : list N) (i : fi) : list N :=
  match i with
  | FX d e => upd s d (N.lxor (at_ s d) (at_ s e))
  | FW d => upd s d w
  | FS i0 i1 i2 i3 => let r := sm [at_ s i0; at_ s i1; at_ s i2; at_ s i3] in upd (upd (upd (upd s i0 (at_ r 0)) i1 (at_ r 1)) i2 (at_ r 2)) i3 (at_ r 3)
  | FR rc => fg_ror len rc s
  end.
Definition fg_exec (sm : list N -> list N) (len : nat) (w : N) (s : list N) (p : list fi) : list N := fold_left (fg_exec1 sm len w) p s.
(** digest.go:7-24.  The fields x, nx are never used; initVal and hs are parameters of the functions below; tmpS: see [fg_ror]. *)
Record fgd : Type := mkfgd { fg_s : list N; fg_len : N; fg_partial : N; fg_plen : nat; fg_rshift : nat }.
(** digest.go:132-142 with process2, process384 and process512 (165-431, 481-746, 801-1031): the word w, then num words of buf; every
    word runs the statements of the position rshift and moves to the next one. *)
Definition fg_progs (v : fgv) : list (list fi) := match v with FG2 => fg_process2 | FG384 => fg_process384 | FG512 => fg_process512 end.
Definition fg_step (sm : list N -> list N) (v : fgv) (st : list N * nat) (w : N) : list N * nat :=
  (fg_exec sm (fg_n v) w (fst st) (nth (snd st) (fg_progs v) []), let r := S (snd st) in if r =? length (fg_progs v) then 0 else r).
Definition fg_getu32s (buf : list N) (num : nat) : list N := map (fun k => be_val (slice buf (4 * k) (4 * k + 4))) (seq 0 num).
Definition fg_process (v : fgv) (s : list N) (rshift : nat) (w : N) (buf : list N) (num : nat) : list N * nat :=
  fold_left (fg_step fg_go_smix v) (w :: fg_getu32s buf num) (s, rshift).
(** sbox.go:271-293 *)
Definition fg_initVal (hs : nat) : list N := match hs with 28 => fg_initVal224 | 32 => fg_initVal256 | 48 => fg_initVal384 | _ => fg_initVal512 end.
(** digest.go:39-62, Reset *)
Definition fg_reset (hs : nat) : fgd :=
  let zlen := if hs <=? 32 then 30 - length (fg_initVal hs) else 36 - length (fg_initVal hs) in
  mkfgd (copy_at (zeros 36) zlen (fg_initVal hs)) 0 0 0 0.
(** digest.go:78-85 and 97-101: partial = partial << 8 | byte *)
Definition fg_shift (p : N) (b : N) : N := N.lor (shl32 p 8) (N.land b 255).
(** digest.go:72-105, Write.  The first loop takes k = min(4 - partialLen, len(p)) bytes. *)
Definition fg_write (v : fgv) (d : fgd) (p : list N) : fgd * nat :=
  let nn := length p in
  let len := w64 (fg_len d + N.shiftl (N.of_nat nn) 3) in
  let k := Nat.min (4 - fg_plen d) (length p) in
  let partial := fold_left fg_shift (firstn k p) (fg_partial d) in
  let plen := fg_plen d + k in
  let q := skipn k p in
  (if ((plen =? 4) || (0 <? length q))%bool then
     let zlen := length q / 4 * 4 in
     let '(s, r) := fg_process v (fg_s d) (fg_rshift d) partial q (zlen / 4) in
     let q := skipn zlen q in
     mkfgd s len (fold_left fg_shift q 0%N) (length q) r
   else mkfgd (fg_s d) len partial plen (fg_rshift d), nn).
(** digest.go:433-477, 748-797, 1033-1095, processFinal2, processFinal384, processFinal512 *)
Definition fg_fina (v : fgv) : list fi := match v with FG2 => fg_fin2_a | FG384 => fg_fin384_a | FG512 => fg_fin512_a end.
Definition fg_finb (v : fgv) : list fi := match v with FG2 => fg_fin2_b | FG384 => fg_fin384_b | FG512 => fg_fin512_b end.
Definition fg_finc (v : fgv) : list fi := match v with FG2 => fg_fin2_c | FG384 => fg_fin384_c | FG512 => fg_fin512_c end.
Definition fg_fino (v : fgv) (hs : nat) : list nat := match v with FG2 => if 32 <=? hs then fg_fin2_o else firstn 7 fg_fin2_o | FG384 => fg_fin384_o | FG512 => fg_fin512_o end.
Definition fg_final (sm : list N -> list N) (v : fgv) (s : list N) (rshift : nat) : list N :=
  let s := fg_ror (fg_n v) (match v with FG2 => 6 | FG384 => 9 | FG512 => 12 end * rshift) s in
  let s := fg_iter (match v with FG2 => 10 | FG384 => 18 | FG512 => 32 end) (fun s => fg_exec sm (fg_n v) 0%N s (fg_fina v)) s in
  let s := fg_iter 13 (fun s => fg_exec sm (fg_n v) 0%N s (fg_finb v)) s in
  fg_exec sm (fg_n v) 0%N s (fg_finc v).
(** digest.go:114-130, checkSum *)
Definition fg_checkSum (v : fgv) (hs : nat) (d : fgd) : list N :=
  let '(s, r) := if fg_plen d =? 0 then (fg_s d, fg_rshift d)
                 else fg_process v (fg_s d) (fg_rshift d) (Nat.iter (4 - fg_plen d) (fun p => shl32 p 8) (fg_partial d)) [] 0 in
  let '(s, r) := fg_process v s r (w32 (N.shiftr (fg_len d) 32)) [] 0 in
  let '(s, r) := fg_process v s r (w32 (fg_len d)) [] 0 in
  let s := fg_final fg_go_smix v s r in
  flat_map (fun k => be_bytes 4 (at_ s k)) (fg_fino v hs).
(** digest.go:107-112, Sum: works on a copy *)
Definition fg_impl (v : fgv) (hs : nat) : impl fgd :=
  mkimpl (fg_write v) (fun d i => (d, i ++ fg_checkSum v hs d)) (fun _ => fg_reset hs).
(** fugue.go:27-65, Sum224, Sum256, Sum384, Sum512: out is an array of hs bytes *)
Definition fg_Sum (v : fgv) (hs : nat) (data : list N) : list N :=
  let d := fst (fg_write v (fg_reset hs) data) in
  copy_at (zeros hs) 0 (firstn hs (fg_checkSum v hs d)).
