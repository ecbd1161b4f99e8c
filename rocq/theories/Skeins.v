(** Skeins.v -- model of /repo/skeins (digest256.go, digest512.go, skeins.go, sbox.go). *)
From Coq Require Import List NArith Arith Bool.
From Verif Require Import Base HashAPI Buf MD SkeinsTab.
Import ListNotations.

(** (p << r) ^ (p >> (64 - r)) *)
Definition xrot (x r : N) : N := N.lxor (shl64 x r) (N.shiftr x (64 - r)).
(** One statement (pair) of SkeinsTab.v; [s] is 0 in digest256.go and the loop variable in digest512.go *)
Definition sk_ins (keys tw : list N) (s : nat) (b : list N) (i : ins) : list N :=
  match i with
  | SInj j h S0 => upd b j (add64 (at_ b j) (at_ keys (s + h)))
  | SInj j h (St t) => upd b j (add64 (at_ b j) (add64 (at_ keys (s + h)) (at_ tw t)))
  | SInj j h (Sc c) => upd b j (add64 (at_ b j) (add64 (add64 (at_ keys (s + h)) (N.of_nat s)) c))
  | SMix i j r => let b := upd b i (add64 (at_ b i) (at_ b j)) in upd b j (N.lxor (xrot (at_ b j) r) (at_ b i))
  end.
(** digest256.go:121-532 ubi: new value of d.s *)
Definition ubi256 (h : list N) (bcount : N) (x : list N) (etype extra : N) : list N :=
  let m := map (fun i => le_val (slice x (8 * i) (8 * i + 8))) (seq 0 4) in
  let h4 := N.lxor (N.lxor (N.lxor (at_ h 0) (at_ h 1)) (N.lxor (at_ h 2) (at_ h 3))) 0x1BD11BDAA9FC1A22 in
  let t0 := add64 (shl64 bcount 5) extra in
  let t1 := add64 (N.shiftr bcount 59) (shl64 etype 55) in
  let t2 := N.lxor t0 t1 in
  let p := fold_left (sk_ins [at_ h 0; at_ h 1; at_ h 2; at_ h 3; h4] [t0; t1; t2] 0) prog256 m in
  map (fun i => N.lxor (at_ m i) (at_ p i)) (seq 0 4).
(** digest512.go:120-263 ubi: new value of d.s[0..7]; d.s[8..26] are recomputed by every call before they are read *)
Definition ubi512 (h : list N) (bcount : N) (x : list N) (etype extra : N) : list N :=
  let m := map (fun i => le_val (slice x (8 * i) (8 * i + 8))) (seq 0 8) in
  let h8 := N.lxor (N.lxor (N.lxor (N.lxor (at_ h 0) (at_ h 1)) (N.lxor (at_ h 2) (at_ h 3))) (N.lxor (N.lxor (at_ h 4) (at_ h 5)) (N.lxor (at_ h 6) (at_ h 7)))) 0x1BD11BDAA9FC1A22 in
  let t0 := add64 (shl64 bcount 6) extra in
  let t1 := add64 (N.shiftr bcount 58) (shl64 etype 55) in
  let t2 := N.lxor t0 t1 in
  let hh := fold_left (fun hh u => upd (upd (upd hh (u + 9) (at_ hh (u + 0))) (u + 10) (at_ hh (u + 1))) (u + 11) (at_ hh (u + 2))) [0; 3; 6; 9; 12; 15] (firstn 8 h ++ h8 :: zeros 18) in
  let '(p, tw) := fold_left (fun '(p, tw) u =>
      (fold_left (sk_ins hh tw (2 * u)) prog512 p, [at_ tw 2; at_ tw 0; at_ tw 1])) (seq 0 9) (m, [t0; t1; t2]) in
  let k i := at_ hh (18 + i) in
  let p := [add64 (at_ p 0) (k 0); add64 (at_ p 1) (k 1); add64 (at_ p 2) (k 2); add64 (at_ p 3) (k 3); add64 (at_ p 4) (k 4);
            add64 (at_ p 5) (add64 (k 5) (at_ tw 0)); add64 (at_ p 6) (add64 (k 6) (at_ tw 1)); add64 (at_ p 7) (add64 (k 7) 18)] in
  map (fun i => N.lxor (at_ m i) (at_ p i)) (seq 0 8).
Section D.
(** bs = BlockSize256 or BlockSize512, u = the ubi method *)
Variable bs : nat.
Variable u : list N -> N -> list N -> N -> N -> list N.
(** digest256.go:55-83, digest512.go:55-83: the body of the loop of Write; the state is (d.s, d.bcount) *)
Definition sks_block (s : list N * N) (b : list N) : list N * N :=
  let etype := if (snd s =? 0)%N then 224%N else 96%N in
  let bcount := add64 (snd s) 1 in
  (u (fst s) bcount b etype 0, bcount).
Definition sks_write : dig (list N * N) -> list N -> dig (list N * N) * nat := write_pre bs sks_block.
(** digest256.go:92-119, digest512.go:92-118 checkSum; hs is d.hs *)
Definition sks_checkSum (hs : nat) (d : dig (list N * N)) : list N :=
  let ptr := dnx d in
  let x := firstn ptr (dx d) ++ zeros (bs - ptr) in
  let bcount := snd (ds d) in
  let s := if (bcount =? 0)%N then u (fst (ds d)) bcount x 480 (N.of_nat ptr) else u (fst (ds d)) bcount x 352 (N.of_nat ptr) in
  let s := u s 0 (zeros bs) 510 8 in
  let buf := flat_map (fun i => le_bytes 8 (at_ s i)) (seq 0 (bs / 8)) in
  copy_at (zeros hs) 0 buf.
(** New and Reset: digest256.go:24-41, digest512.go:24-41; Sum: digest256.go:85-90 *)
Definition sks_new (iv : list N) : dig (list N * N) := mkdig (iv, 0%N) (zeros bs) 0 0.
Definition sks_impl (hs : nat) (iv : list N) : impl (dig (list N * N)) :=
  mkimpl sks_write (fun d i => (d, i ++ sks_checkSum hs d)) (fun _ => sks_new iv).
End D.
(** sbox.go *)
Definition skiv224 : list N := [0xCCD0616248677224; 0xCBA65CF3A92339EF; 0x8CCD69D652FF4B64; 0x398AED7B3AB890B4; 0x0F59D1B1457D2BD0; 0x6776FE6575D4EB3D; 0x99FBC70E997413E9; 0x9E2CFCCFE1C41EF7]%N.
Definition skiv256 : list N := [0xCCD044A12FDB3E13; 0xE83590301A79A9EB; 0x55AEA0614F816E6F; 0x2A2767A4AE9B94DB; 0xEC06025E74DD7683; 0xE7A436CDC4746251; 0xC36FBAF9393AD185; 0x3EEDBA1833EDFC13]%N.
Definition skiv384 : list N := [0xA3F6C6BF3A75EF5F; 0xB0FEF9CCFD84FAA4; 0x9D77DD663D770CFE; 0xD798CBF3B468FDDA; 0x1BC4A6668A0E4465; 0x7ED7D434E5807407; 0x548FC1ACD4EC44D6; 0x266E17546AA18FF8]%N.
Definition skiv512 : list N := [0x4903ADFF749C51CE; 0x0D95DE399746DF03; 0x8FD1934127C79BCE; 0x9A255629FF352CB1; 0x5DB62599DF6CA7B0; 0xEABE394CA9D5C3F4; 0x991112C71A75B523; 0xAE18A40B660FCC33]%N.
(** skeins.go:16-33 the constructors by output size in bytes *)
Definition sk_variant (hs : nat) : list N := if hs =? 28 then skiv224 else if hs =? 32 then skiv256 else if hs =? 48 then skiv384 else skiv512.
Definition sk512_impl (hs : nat) := sks_impl 64 ubi512 hs (sk_variant hs).
Definition sk512_new (hs : nat) := sks_new 64 (sk_variant hs).
(** skeins.go:9-11 NewHS256 *)
Definition hs256_impl (hs : nat) (iv : list N) := sks_impl 32 ubi256 hs iv.
Definition hs256_new (iv : list N) := sks_new 32 iv.
(** skeins.go:35-72 Sum224 ... Sum512: copy of Sum(nil) into an array of that size *)
Definition sk512_Sum (hs : nat) (data : list N) : list N :=
  copy_at (zeros hs) 0 (snd (i_sum (sk512_impl hs) (fst (i_write (sk512_impl hs) (sk512_new hs) data)) [])).
