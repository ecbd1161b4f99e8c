(** Gost94.v -- model of /repo/gost/gost341194/hash.go.  Arrays [32]byte are lists; the cipher is a parameter:
    [E key block] is the effect of h.cipher(key).Encrypt on a block (hash.go takes any func([]byte) cipher.Block). *)
From Coq Require Import List NArith Arith Lia Bool.
From Verif Require Import Base HashAPI.
Import ListNotations.

(** hash.go:17-38 the constants *)
Definition h_c2 : list N := zeros 32.
Definition h_c3 : list N :=
  [0xff; 0x00; 0xff; 0xff; 0x00; 0x00; 0x00; 0xff; 0xff; 0x00; 0x00; 0xff; 0x00; 0xff; 0xff; 0x00;
   0x00; 0xff; 0x00; 0xff; 0x00; 0xff; 0x00; 0xff; 0xff; 0x00; 0xff; 0x00; 0xff; 0x00; 0xff; 0x00]%N.
Definition h_c4 : list N := zeros 32.
(** hash.go:127-139 fA *)
Definition h_fA (x : list N) : list N := map (fun i => N.lxor (at_ x (16 + i)) (at_ x (24 + i))) (seq 0 8) ++ firstn 24 x.
(** hash.go:141-149 fP *)
Definition h_fP (x : list N) : list N :=
  map (at_ x) [0; 8; 16; 24; 1; 9; 17; 25; 2; 10; 18; 26; 3; 11; 19; 27; 4; 12; 20; 28; 5; 13; 21; 29; 6; 14; 22; 30; 7; 15; 23; 31].
(** hash.go:151-157 fChi *)
Definition h_fChi (x : list N) : list N :=
  [N.lxor (N.lxor (N.lxor (N.lxor (N.lxor (at_ x (32 - 2)) (at_ x (32 - 4))) (at_ x (32 - 6))) (at_ x (32 - 8))) (at_ x (32 - 32))) (at_ x (32 - 26));
   N.lxor (N.lxor (N.lxor (N.lxor (N.lxor (at_ x (32 - 1)) (at_ x (32 - 3))) (at_ x (32 - 5))) (at_ x (32 - 7))) (at_ x (32 - 31))) (at_ x (32 - 25))] ++ firstn 30 x.
(** hash.go:159-163 blockReverse *)
Definition h_rev (x : list N) : list N := map (fun i => at_ x (31 - i)) (seq 0 32).
(** hash.go:165-169 blockXor *)
Definition h_xor (a b : list N) : list N := map (fun i => N.lxor (at_ a i) (at_ b i)) (seq 0 32).
Section M.
Variable E : list N -> list N -> list N.
(** hash.go:180-201 (and 206-222, 227-243, 248-264): key from u, v; encrypt hin[hi], ..., hin[hi-7]; the eight bytes stored at out[hi], ..., out[hi-7] *)
Definition h_enc (u v hin : list N) (hi : nat) : list N :=
  let k := h_rev (h_fP (h_xor u v)) in
  E k (map (fun i => at_ hin (hi - i)) (seq 0 8)).
Definition h_put (out s : list N) (hi : nat) : list N := fold_left (fun out i => upd out (hi - i) (at_ s i)) (seq 0 8) out.
(** hash.go:171-274 step *)
Definition h_step (hin m : list N) : list N :=
  let out := zeros 32 in
  let u := hin in let v := m in
  let out := h_put out (h_enc u v hin 31) 31 in
  let u := h_xor (h_fA u) h_c2 in let v := h_fA (h_fA v) in
  let out := h_put out (h_enc u v hin 23) 23 in
  let u := h_xor (h_fA u) h_c3 in let v := h_fA (h_fA v) in
  let out := h_put out (h_enc u v hin 15) 15 in
  let u := h_xor (h_fA u) h_c4 in let v := h_fA (h_fA v) in
  let out := h_put out (h_enc u v hin 7) 7 in
  let out := Nat.iter 12 h_fChi out in
  let out := h_xor out m in
  let out := h_fChi out in
  let out := h_xor out hin in
  Nat.iter 61 h_fChi out.
(** hash.go:40-47 digest (tmp is scratch space) *)
Record g94 := mkg94 { g_size : N; g_hsh : list N; g_chk : N; g_buf : list N }.
(** hash.go:276-284 chkAdd *)
Definition h_chkAdd (chk : N) (data : list N) : N :=
  let i := (be_val data + chk)%N in if (i <? 2 ^ 256)%N then i else (i - 2 ^ 256)%N.
(** hash.go:49-56 New, 66-76 Reset *)
Definition g94_new : g94 := mkg94 0 (zeros 32) 0 [].
(** hash.go:78-90 Write *)
Fixpoint g94_loop (fuel : nat) (h : g94) : g94 :=
  match fuel with
  | O => h
  | S fuel =>
    if 32 <=? length (g_buf h) then
      let tmp := h_rev (firstn 32 (g_buf h)) in
      g94_loop fuel (mkg94 (add64 (g_size h) (32 * 8)) (h_step (g_hsh h) tmp) (h_chkAdd (g_chk h) tmp) (skipn 32 (g_buf h)))
    else h
  end.
Definition g94_write (h : g94) (data : list N) : g94 * nat :=
  let h := mkg94 (g_size h) (g_hsh h) (g_chk h) (g_buf h ++ data) in (g94_loop (S (length (g_buf h))) h, length data).
(** hash.go:99-125 checkSum; copy(block[32-len(chkBytes):], chkBytes) writes the big-endian value of chk *)
Definition g94_checkSum (h : g94) : list N :=
  let '(size, chk, hsh) :=
    if negb (length (g_buf h) =? 0) then
      let block := h_rev (copy_at (zeros 32) 0 (g_buf h)) in
      (add64 (g_size h) (w64 (N.of_nat (length (g_buf h)) * 8)), h_chkAdd (g_chk h) block, h_step (g_hsh h) block)
    else (g_size h, g_chk h, g_hsh h) in
  let block := copy_at (zeros 32) 24 (be_bytes 8 size) in
  let hsh := h_step hsh block in
  let block := be_bytes 32 chk in
  let hsh := h_step hsh block in
  h_rev hsh.
(** hash.go:92-97 Sum *)
Definition g94_sum (h : g94) (inp : list N) : g94 * list N := (h, inp ++ g94_checkSum h).
Definition g94_impl : impl g94 := mkimpl g94_write g94_sum (fun _ => g94_new).
End M.
