(** Bash.v -- model of package /repo/bash (bash.go, digest.go, utils.go, sbox.go). *)
From Coq Require Import List NArith ZArith Arith Lia Bool.
From Verif Require Import Base Words HashAPI Buf SpecBash.
Import ListNotations.

(** sbox.go:3-28 *)
Definition bash_rc : list N := [
  0x3bf5080ac8ba94b1; 0xc1d1659c1bbd92f6; 0x60e8b2ce0ddec97b; 0xec5fb8fe790fbc13; 0xaa043de6436706a7; 0x8929ff6a5e535bfd; 0x98bf1e2c50c97550; 0x4c5f8f162864baa8;
  0x262fc78b14325d54; 0x1317e3c58a192eaa; 0x098bf1e2c50c9755; 0xd8ee19681d669304; 0x6c770cb40eb34982; 0x363b865a0759a4c1; 0xc73622b47c4c0ace; 0x639b115a3e260567;
  0xede6693460f3da1d; 0xaad8d5034f9935a0; 0x556c6a81a7cc9ad0; 0x2ab63540d3e64d68; 0x155b1aa069f326b4; 0x0aad8d5034f9935a; 0x0556c6a81a7cc9ad; 0xde8082cd72debc78]%N.
(** sbox.go:30-39 *)
Definition bash_rot : list (list N) := [
  [8; 53; 14; 1]; [56; 51; 34; 7]; [8; 37; 46; 49]; [56; 3; 2; 23]; [8; 21; 14; 33]; [56; 19; 34; 39]; [8; 5; 46; 17]; [56; 35; 2; 55]]%N.

(** utils.go:47-57 *)
Definition bash_ROTHI (x y : N) : N :=
  if ((y <? 64) && (0 <? y))%N then N.lor (shl64 x y) (N.shiftr x (64 - y)) else x.
(** utils.go:59-74 BASH_L3_S3: the new values of the three words *)
Definition bash_L3_S3 (w : N * N * N) (m1 n1 m2 n2 : N) : N * N * N :=
  let '(w0, w1, w2) := w in
  let t0 := bash_ROTHI w0 m1 in
  let w0 := N.lxor (N.lxor w0 w1) w2 in
  let t1 := N.lxor w1 (bash_ROTHI w0 n1) in
  let w1 := N.lxor t0 t1 in
  let w2 := N.lxor (N.lxor w2 (bash_ROTHI w2 m2)) (bash_ROTHI t1 n2) in
  let t0 := not64 w2 in
  let t1 := N.lor w0 w2 in
  let t2 := N.land w0 w1 in
  let t0 := N.lor t0 w1 in
  (N.lxor w0 t0, N.lxor w1 t1, N.lxor w2 t2).
(** utils.go:76-88 *)
Definition bash_PERMUTE (S : list N) : list N :=
  [at_ S 15; at_ S 10; at_ S 9; at_ S 12; at_ S 11; at_ S 14; at_ S 13; at_ S 8; at_ S 17; at_ S 16; at_ S 19; at_ S 18;
   at_ S 21; at_ S 20; at_ S 23; at_ S 22; at_ S 6; at_ S 3; at_ S 0; at_ S 5; at_ S 2; at_ S 7; at_ S 4; at_ S 1].
(** utils.go:90-94 *)
Definition bash_SWAP64 (A : N) : N :=
  N.lor (N.lor (N.lor (N.lor (N.lor (N.lor (N.lor (shl64 A 56) (shl64 (N.land A 0xff00) 40)) (shl64 (N.land A 0xff0000) 24))
    (shl64 (N.land A 0xff000000) 8)) (N.land (N.shiftr A 8) 0xff000000))
    (N.land (N.shiftr A 24) 0xff0000)) (N.land (N.shiftr A 40) 0xff00)) (N.shiftr A 56).
(** utils.go:106-115, the inner loop *)
Definition bash_col (S : list N) (v : nat) : list N :=
  let r := nth v bash_rot [] in
  let '(a, b, c) := bash_L3_S3 (at_ S v, at_ S (v + 8), at_ S (v + 16)) (at_ r 0) (at_ r 1) (at_ r 2) (at_ r 3) in
  upd (upd (upd S v a) (v + 8) b) (v + 16) c.
(** utils.go:105-119 *)
Definition bash_rnd (S : list N) (round : nat) : list N :=
  let S := bash_PERMUTE (fold_left bash_col (seq 0 8) S) in
  upd S 23 (N.lxor (at_ S 23) (at_ bash_rc round)).
(** utils.go:96-128 with bigend = true, on a state of 24 words *)
Definition BASHF (S : list N) : list N := map bash_SWAP64 (fold_left bash_rnd (seq 0 24) (map bash_SWAP64 S)).

(** utils.go:21-32 *)
Definition bash_bytesToUint64s (b : list N) : list N := map (fun i => be_val (slice b (i * 8) (i * 8 + 8))) (seq 0 (length b / 8)).
(** utils.go:34-45 *)
Definition bash_uint64sToBytes (w : list N) : list N := concat (map (be_bytes 8) w).

(** digest.go:16-23; hs and bs are parameters of the functions below *)
Record bash := mkbash { hs_s : list N; hs_x : list N; hs_nx : nat; hs_len : N }.

(** digest.go:44-56 Reset; [hb] is byte(d.hs) *)
Definition bash_reset (hb : N) : bash :=
  let state := upd (bash_uint64sToBytes (zeros 24)) 184 hb in
  mkbash (bash_bytesToUint64s state) (zeros 192) 0 0.
(** digest.go:113-122 processBlock *)
Definition bash_process (s data : list N) : list N :=
  let state := bash_bytesToUint64s data in
  BASHF (map (fun k => N.lxor (at_ s k) (at_ state k)) (seq 0 24)).
(** digest.go:73-83, the loop; [fuel] bounds the number of iterations (each removes at least one byte of p) *)
Fixpoint bash_loop (bs fuel : nat) (s x : list N) (nx : nat) (p : list N) : list N * list N * nat * list N :=
  match fuel with
  | O => (s, x, nx, p)
  | S f => if bs <=? nx + length p
           then let x := copy_at x nx p in bash_loop bs f (bash_process s x) x 0 (skipn (bs - nx) p)
           else (s, x, nx, p)
  end.
(** digest.go:66-89 Write *)
Definition bash_write (bs : nat) (d : bash) (p : list N) : bash * nat :=
  let '(s, x, nx, p') := bash_loop bs (S (length p)) (hs_s d) (hs_x d) (hs_nx d) p in
  (mkbash s (copy_at x nx p') (nx + length p') (w64 (hs_len d + N.of_nat (length p))), length p).
(** digest.go:98-111 *)
Definition bash_checkSum (hs bs : nat) (d : bash) : list N :=
  let x := upd (copy_at (hs_x d) (hs_nx d) (zeros bs)) (hs_nx d) 0x40%N in
  firstn hs (bash_uint64sToBytes (bash_process (hs_s d) x)).
(** digest.go:91-96; copy() (124-139) is a deep copy *)
Definition bash_sum (hs bs : nat) (d : bash) (inp : list N) : bash * list N := (d, inp ++ bash_checkSum hs bs d).
(** a digest with hash size hs bytes, 1 <= hs <= 64 (digest.go:26-42) *)
Definition bash_bs (hs : nat) : nat := 192 - 2 * hs.
Definition bash_new (hs : nat) : bash := bash_reset (N.of_nat hs).
Definition bash_impl (hs : nat) : impl bash := mkimpl (bash_write (bash_bs hs)) (bash_sum hs (bash_bs hs)) (fun _ => bash_new hs).
(** bash.go:45-83: Sum224, Sum256, Sum384, Sum512 with hs = 28, 32, 48, 64 *)
Definition bash_Sum (hs : nat) (data : list N) : list N := firstn hs (snd (bash_sum hs (bash_bs hs) (fst (bash_write (bash_bs hs) (bash_new hs) data)) [])).

(** digest.go:26-42 newDigest on a Go int: the tests, then the sizes (hs, bs); Go's % and / truncate towards zero *)
Definition bash_newDigest (hashsize : Z) : option (Z * Z) :=
  (if hashsize =? 0 then None else if 0 <? Z.rem hashsize 8 then None else if 512 <? hashsize then None
   else let hs := Z.quot hashsize 8 in Some (hs, 3 * 8 * 8 - 2 * hs))%Z.

From Coq Require Import String.
Local Open Scope list_scope.
(** two vectors of bash_test.go: one block, and a 252-byte message *)
Example bash_vec1 : bash_Sum 28 (hex "1F877C") = hex "c8b22035a5357c9b31cd13788b7e898ad61d87fb459e5e309def9e9b".
Proof. vm_compute. reflexivity. Qed.
Example bash_std_vec : bash_std 28 (hex "1F877C") = hex "c8b22035a5357c9b31cd13788b7e898ad61d87fb459e5e309def9e9b".
Proof. vm_compute. reflexivity. Qed.
