(** Panama.v -- model of /repo/panama (digest.go, panama.go). *)
From Coq Require Import List NArith Arith Lia Bool.
From Verif Require Import Base Buf MD HashAPI.
Import ListNotations.

(** digest.go:11-18: s, buffer, bufferPtr (x, nx, len are the fields of [dig]) *)
Record pst := mkpst { p_s : list N; p_buf : list N; p_ptr : N }.
Definition bat (b : list N) (p : N) (k : nat) : N := at_ b (N.to_nat p + k).
(** digest.go:107-142, one pair of lines: buffer[ptr24+(k-2)] ^= buffer[ptr31+k]; buffer[ptr31+k] ^= q[k].
    The lines come in the order k = 2,3,4,5,6,7,0,1 with offsets 0,...,7. *)
Definition pan_bufstep (ptr24 ptr31 : N) (q : nat -> N) (b : list N) (ok : nat * nat) : list N :=
  let '(o, k) := ok in
  let b := upd b (N.to_nat ptr24 + o) (N.lxor (bat b ptr24 o) (bat b ptr31 k)) in
  upd b (N.to_nat ptr31 + k) (N.lxor (bat b ptr31 k) (q k)).
Definition pan_order : list (nat * nat) := [(0, 2); (1, 3); (2, 4); (3, 5); (4, 6); (5, 7); (6, 0); (7, 1)].
(** digest.go:150-212: the gamma, pi and theta assignments *)
Definition pan_gpt (s : list N) : list N :=
  let g0 := N.lxor (at_ s 0) (N.lor (at_ s 1) (not32 (at_ s 2))) in
  let g1 := N.lxor (at_ s 1) (N.lor (at_ s 2) (not32 (at_ s 3))) in
  let g2 := N.lxor (at_ s 2) (N.lor (at_ s 3) (not32 (at_ s 4))) in
  let g3 := N.lxor (at_ s 3) (N.lor (at_ s 4) (not32 (at_ s 5))) in
  let g4 := N.lxor (at_ s 4) (N.lor (at_ s 5) (not32 (at_ s 6))) in
  let g5 := N.lxor (at_ s 5) (N.lor (at_ s 6) (not32 (at_ s 7))) in
  let g6 := N.lxor (at_ s 6) (N.lor (at_ s 7) (not32 (at_ s 8))) in
  let g7 := N.lxor (at_ s 7) (N.lor (at_ s 8) (not32 (at_ s 9))) in
  let g8 := N.lxor (at_ s 8) (N.lor (at_ s 9) (not32 (at_ s 10))) in
  let g9 := N.lxor (at_ s 9) (N.lor (at_ s 10) (not32 (at_ s 11))) in
  let g10 := N.lxor (at_ s 10) (N.lor (at_ s 11) (not32 (at_ s 12))) in
  let g11 := N.lxor (at_ s 11) (N.lor (at_ s 12) (not32 (at_ s 13))) in
  let g12 := N.lxor (at_ s 12) (N.lor (at_ s 13) (not32 (at_ s 14))) in
  let g13 := N.lxor (at_ s 13) (N.lor (at_ s 14) (not32 (at_ s 15))) in
  let g14 := N.lxor (at_ s 14) (N.lor (at_ s 15) (not32 (at_ s 16))) in
  let g15 := N.lxor (at_ s 15) (N.lor (at_ s 16) (not32 (at_ s 0))) in
  let g16 := N.lxor (at_ s 16) (N.lor (at_ s 0) (not32 (at_ s 1))) in
  let p0 := g0 in
  let p1 := rotl32 g7 1 in
  let p2 := rotl32 g14 3 in
  let p3 := rotl32 g4 6 in
  let p4 := rotl32 g11 10 in
  let p5 := rotl32 g1 15 in
  let p6 := rotl32 g8 21 in
  let p7 := rotl32 g15 28 in
  let p8 := rotl32 g5 4 in
  let p9 := rotl32 g12 13 in
  let p10 := rotl32 g2 23 in
  let p11 := rotl32 g9 2 in
  let p12 := rotl32 g16 14 in
  let p13 := rotl32 g6 27 in
  let p14 := rotl32 g13 9 in
  let p15 := rotl32 g3 24 in
  let p16 := rotl32 g10 8 in
  let t0 := N.lxor (N.lxor p0 p1) p4 in
  let t1 := N.lxor (N.lxor p1 p2) p5 in
  let t2 := N.lxor (N.lxor p2 p3) p6 in
  let t3 := N.lxor (N.lxor p3 p4) p7 in
  let t4 := N.lxor (N.lxor p4 p5) p8 in
  let t5 := N.lxor (N.lxor p5 p6) p9 in
  let t6 := N.lxor (N.lxor p6 p7) p10 in
  let t7 := N.lxor (N.lxor p7 p8) p11 in
  let t8 := N.lxor (N.lxor p8 p9) p12 in
  let t9 := N.lxor (N.lxor p9 p10) p13 in
  let t10 := N.lxor (N.lxor p10 p11) p14 in
  let t11 := N.lxor (N.lxor p11 p12) p15 in
  let t12 := N.lxor (N.lxor p12 p13) p16 in
  let t13 := N.lxor (N.lxor p13 p14) p0 in
  let t14 := N.lxor (N.lxor p14 p15) p1 in
  let t15 := N.lxor (N.lxor p15 p16) p2 in
  let t16 := N.lxor (N.lxor p16 p0) p3 in
  [t0; t1; t2; t3; t4; t5; t6; t7; t8; t9; t10; t11; t12; t13; t14; t15; t16].
(** digest.go:95-248 oneStep; [inData] is None for push = false *)
Definition pan_oneStep (d : pst) (inData : option (list N)) : pst :=
  let ptr0 := p_ptr d in
  let ptr24 := N.land (w32 (ptr0 + (2 ^ 32 - 64))) 248 in
  let ptr31 := N.land (w32 (ptr0 + (2 ^ 32 - 8))) 248 in
  let q := fun k => match inData with Some w => at_ w k | None => at_ (p_s d) (k + 1) end in
  let buffer := fold_left (pan_bufstep ptr24 ptr31 q) pan_order (p_buf d) in
  let t := pan_gpt (p_s d) in
  let ptr16 := N.lxor ptr0 128 in
  let ptr4 := N.land (w32 (ptr0 + 32)) 248 in
  let l := fun k => match inData with Some w => at_ w k | None => bat buffer ptr4 k end in
  let s := [N.lxor (at_ t 0) 1; N.lxor (at_ t 1) (l 0); N.lxor (at_ t 2) (l 1); N.lxor (at_ t 3) (l 2); N.lxor (at_ t 4) (l 3);
            N.lxor (at_ t 5) (l 4); N.lxor (at_ t 6) (l 5); N.lxor (at_ t 7) (l 6); N.lxor (at_ t 8) (l 7);
            N.lxor (at_ t 9) (bat buffer ptr16 0); N.lxor (at_ t 10) (bat buffer ptr16 1); N.lxor (at_ t 11) (bat buffer ptr16 2); N.lxor (at_ t 12) (bat buffer ptr16 3);
            N.lxor (at_ t 13) (bat buffer ptr16 4); N.lxor (at_ t 14) (bat buffer ptr16 5); N.lxor (at_ t 15) (bat buffer ptr16 6); N.lxor (at_ t 16) (bat buffer ptr16 7)] in
  mkpst s buffer ptr31.
(** utils.go:15-26 bytesToUint32s *)
Definition pan_u32s (b : list N) : list N := map (fun i => le_val (slice b (i * 4) (i * 4 + 4))) (seq 0 (length b / 4)).
(** digest.go:91-93 processBlock *)
Definition pan_block (d : pst) (data : list N) : pst := pan_oneStep d (Some (pan_u32s data)).
(** digest.go:20-34 newDigest, Reset *)
Definition pan_new : dig pst := mkdig (mkpst (zeros 17) (zeros 256) 0) (zeros 32) 0 0.
(** digest.go:44-65 Write *)
Definition pan_write : dig pst -> list N -> dig pst * nat := write_nolen 32 pan_block.
(** digest.go:74-89 checkSum *)
Definition pan_checkSum (d : dig pst) : list N :=
  let pad := copy_at (zeros 32) 0 (firstn (dnx d) (dx d)) in
  let pad := upd pad (dnx d) 1%N in
  let st := pan_block (ds d) pad in
  let st := Nat.iter 32 (fun st => pan_oneStep st None) st in
  let sum := concat (map (le_bytes 4) (skipn 9 (p_s st))) in
  copy_at (zeros 32) 0 (firstn 32 sum).
(** digest.go:67-72 Sum (d0 is a copy of the whole struct) *)
Definition pan_sum (d : dig pst) (inp : list N) : dig pst * list N := (d, inp ++ pan_checkSum d).
Definition pan_impl : impl (dig pst) := mkimpl pan_write pan_sum (fun _ => pan_new).
(** panama.go:13-20 Sum *)
Definition pan_oneshot (data : list N) : list N :=
  copy_at (zeros 32) 0 (firstn 32 (snd (pan_sum (fst (pan_write pan_new data)) []))).
