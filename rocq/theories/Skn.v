(** Skn.v -- model of /repo/skein512 (block.go, hash.go, sbox.go, skein.go). *)
From Coq Require Import List NArith Arith Bool.
Require Import Verif.Base Verif.HashAPI Verif.SpecSkein Verif.ThreefishTab Verif.Threefish Verif.SpecSkn Verif.SknTab.
Import ListNotations.

(** block.go:7-839, block(k, t, dst, src): the new dst.  k8 and t2 (lines 9-10) are appended to k and t; [tf_fin add64] is one key
    injection, [go_mix] one pair of mixing statements (Threefish.v). *)
Definition skn_keys (k : list N) : list N := k ++ [fold_left N.lxor k 0x1bd11bdaa9fc1a22%N].
Definition skn_tw (t : N * N) : list N := [fst t; snd t; N.lxor (fst t) (snd t)].
Definition skn_rounds (k : list N) (t : N * N) (src : list N) : list N :=
  let x := fold_left (fun x im => fold_left go_mix (snd im) (tf_fin add64 (fst im) (skn_keys k) (skn_tw t) x)) (combine skn_inj skn_mix) src in
  tf_fin add64 (nth 18 skn_inj []) (skn_keys k) (skn_tw t) x.
Definition skn_block (k : list N) (t : N * N) (src : list N) : list N :=
  let x := skn_rounds k t src in map (fun i => N.lxor (at_ src i) (at_ x i)) (seq 0 8).

(** sbox.go:4-18 *)
Definition skn_first : N := 2 ^ 62.
Definition skn_last : N := 2 ^ 63.
Definition skn_outTweak : N * N := (8%N, N.lor (N.lor (shl64 63 56) skn_first) skn_last).
(** sbox.go:23-42 *)
Definition skn_iv224 : list N := [0xCCD0616248677224; 0xCBA65CF3A92339EF; 0x8CCD69D652FF4B64; 0x398AED7B3AB890B4;
    0x0F59D1B1457D2BD0; 0x6776FE6575D4EB3D; 0x99FBC70E997413E9; 0x9E2CFCCFE1C41EF7]%N.
Definition skn_iv256 : list N := [0xCCD044A12FDB3E13; 0xE83590301A79A9EB; 0x55AEA0614F816E6F; 0x2A2767A4AE9B94DB;
    0xEC06025E74DD7683; 0xE7A436CDC4746251; 0xC36FBAF9393AD185; 0x3EEDBA1833EDFC13]%N.
Definition skn_iv384 : list N := [0xA3F6C6BF3A75EF5F; 0xB0FEF9CCFD84FAA4; 0x9D77DD663D770CFE; 0xD798CBF3B468FDDA;
    0x1BC4A6668A0E4465; 0x7ED7D434E5807407; 0x548FC1ACD4EC44D6; 0x266E17546AA18FF8]%N.
Definition skn_iv512 : list N := [0x4903ADFF749C51CE; 0x0D95DE399746DF03; 0x8FD1934127C79BCE; 0x9A255629FF352CB1;
    0x5DB62599DF6CA7B0; 0xEABE394CA9D5C3F4; 0x991112C71A75B523; 0xAE18A40B660FCC33]%N.

(** hash.go:37-49, Hash *)
Record skn : Type := mkskn { n_k : list N; n_t : N * N; n_x : list N; n_nx : nat; n_outLen : N; n_noMsg : bool; n_ik : list N }.
(** hash.go:185-212, hashBlock(b, unpaddedLen), on (k, t) *)
Definition skn_load (b : list N) : list N := map (fun i => le_val (slice b (8 * i) (8 * i + 8))) (seq 0 8).
Definition skn_hb (kt : list N * (N * N)) (b : list N) (unp : N) : list N * (N * N) :=
  let t0 := add64 (fst (snd kt)) unp in
  (skn_block (fst kt) (t0, snd (snd kt)) (skn_load b), (t0, N.ldiff (snd (snd kt)) skn_first)).
(** hash.go:74-84, hashLastBlock, on (k, t, x, nx) *)
Definition skn_lastBlock (h : skn) : skn :=
  let x := copy_at (n_x h) (n_nx h) (zeros 64) in
  let kt := skn_hb (n_k h, (fst (n_t h), N.lor (snd (n_t h)) skn_last)) x (N.of_nat (n_nx h)) in
  mkskn (fst kt) (snd kt) x 0 (n_outLen h) (n_noMsg h) (n_ik h).
(** hash.go:121-139, update *)
Fixpoint skn_full (fuel : nat) (kt : list N * (N * N)) (b : list N) : (list N * (N * N)) * list N :=
  match fuel with
  | O => (kt, b)
  | S fuel => if 64 <? length b then skn_full fuel (skn_hb kt b 64) (skipn 64 b) else (kt, b)
  end.
Definition skn_update (h : skn) (b : list N) : skn :=
  let left := 64 - n_nx h in
  let '(kt, x, nx, b) :=
    if left <? length b
    then let x := copy_at (n_x h) (n_nx h) (firstn left b) in (skn_hb (n_k h, n_t h) x 64, x, 0, skipn left b)
    else ((n_k h, n_t h), n_x h, n_nx h, b) in
  let '(kt, b) := skn_full (length b) kt b in
  mkskn (fst kt) (snd kt) (copy_at x nx b) (nx + Nat.min (64 - nx) (length b)) (n_outLen h) (n_noMsg h) (n_ik h).
(** hash.go:86-102, outputBlock *)
Definition skn_outBlock (k : list N) (counter : N) : list N :=
  flat_map (le_bytes 8) (skn_block k skn_outTweak (upd (zeros 8) 0 counter)).
(** hash.go:104-119, appendOutput(length); the loop runs at most length/64 + 1 times *)
Fixpoint skn_append (fuel : nat) (k : list N) (length counter : N) : list N :=
  match fuel with
  | O => []
  | S fuel =>
    if (length =? 0)%N then [] else
    let b := skn_outBlock k counter in
    let counter := add64 counter 1 in
    if (length <? 64)%N then firstn (N.to_nat length) b else b ++ skn_append fuel k (length - 64) counter
  end.
Definition skn_appendOutput (k : list N) (length : N) : list N := skn_append (S (N.to_nat (length / 64))) k length 0.
(** hash.go:54-63, Reset *)
Definition skn_start (typ : N) : N * N := (0%N, N.lor (shl64 typ 56) skn_first).
Definition skn_reset (h : skn) : skn := mkskn (n_ik h) (skn_start 48) (n_x h) 0 (n_outLen h) (n_noMsg h) (n_ik h).
(** hash.go:143-149, Write; 153-167, Sum and checkSum *)
Definition skn_write (h : skn) (b : list N) : skn * nat := if n_noMsg h then (h, 0) else (skn_update h b, length b).
Definition skn_checkSum (h : skn) : list N :=
  let h := if n_noMsg h then h else skn_lastBlock h in skn_appendOutput (n_k h) (n_outLen h).
Definition skn_impl : impl skn := mkimpl skn_write (fun h i => (h, i ++ skn_checkSum h)) skn_reset.

(** hash.go:301-306, addArg *)
Definition skn_addArg (typ : N) (arg : list N) (h : skn) : skn :=
  skn_lastBlock (skn_update (mkskn (n_k h) (skn_start typ) (n_x h) (n_nx h) (n_outLen h) (n_noMsg h) (n_ik h)) arg).
Definition skn_addOpt (typ : N) (arg : option (list N)) (h : skn) : skn := match arg with None => h | Some a => skn_addArg typ a h end.
(** hash.go:309-321, addConfig *)
Definition skn_addConfig (outBits : N) (h : skn) : skn :=
  skn_addArg 4 (copy_at (copy_at (zeros 32) 0 [0x53; 0x48; 0x41; 0x33; 1; 0; 0; 0]%N) 8 (le_bytes 8 outBits)) h.
Definition skn_with_k (h : skn) (k : list N) : skn := mkskn k (n_t h) (n_x h) (n_nx h) (n_outLen h) (n_noMsg h) (n_ik h).
(** hash.go:326-376, New(outLen, args); args == nil is [skn_noargs] with NoMsg false.  A nil field is None. *)
Definition skn_New (outLen : N) (a : skn_args) (noMsg : bool) : skn :=
  let h := mkskn (zeros 8) (0, 0)%N (zeros 64) 0 outLen false (zeros 8) in
  let h := match a_key a with
    | Some key => skn_addConfig (mul64 outLen 8) (skn_addArg 0 key h)
    | None => if (outLen =? 28)%N then skn_with_k h skn_iv224
              else if (outLen =? 32)%N then skn_with_k h skn_iv256
              else if (outLen =? 48)%N then skn_with_k h skn_iv384
              else if (outLen =? 64)%N then skn_with_k h skn_iv512
              else skn_addConfig (mul64 outLen 8) h
    end in
  let h := mkskn (n_k h) (n_t h) (n_x h) (n_nx h) (n_outLen h) noMsg (n_ik h) in
  let h := skn_addOpt 20 (a_nonce a) (skn_addOpt 16 (a_kid a) (skn_addOpt 12 (a_pub a) (skn_addOpt 8 (a_person a) h))) in
  mkskn (n_k h) (skn_start 48) (n_x h) (n_nx h) (n_outLen h) (n_noMsg h) (n_k h).

(** hash.go:216-219, outputReader (the embedded Hash: chain value, buffer and position) *)
Record skr : Type := mkskr { r_k : list N; r_x : list N; r_nx : nat; r_ctr : N }.
(** hash.go:223-233, newOutputReader (OutputReader: 172-174) *)
Definition skn_reader (h : skn) : skr := let h := if n_noMsg h then h else skn_lastBlock h in mkskr (n_k h) (n_x h) 64 0.
(** hash.go:236-240, nextBlock *)
Definition skr_next (r : skr) : skr := mkskr (r_k r) (skn_outBlock (r_k r) (r_ctr r)) 0 (add64 (r_ctr r) 1).
(** hash.go:244-265, Read(p) with len(p) = n: the new contents of p.  The loop runs at most n/64 times. *)
Fixpoint skr_blocks (fuel : nat) (r : skr) (n : nat) : skr * list N * nat :=
  match fuel with
  | O => (r, [], n)
  | S fuel => if 64 <=? n then let '(r', out, n') := skr_blocks fuel (skr_next r) (n - 64) in (r', r_x r ++ out, n') else (r, [], n)
  end.
Definition skr_read (r : skr) (n : nat) : skr * list N :=
  let left := 64 - r_nx r in
  if n <? left then (mkskr (r_k r) (r_x r) (r_nx r + n) (r_ctr r), slice (r_x r) (r_nx r) (r_nx r + n))
  else
    let p0 := skipn (r_nx r) (r_x r) in
    let '(r, p1, n) := skr_blocks n (skr_next r) (n - left) in
    if 0 <? n then (mkskr (r_k r) (r_x r) (r_nx r + n) (r_ctr r), p0 ++ p1 ++ firstn n (r_x r)) else (r, p0 ++ p1).
(** hash.go:269-298, XORKeyStream(dst, src) with len(dst) >= len(src): the new first len(src) bytes of dst (dst may be src) *)
Definition xor2 (a b : list N) : list N := map (fun p => N.lxor (fst p) (snd p)) (combine a b).
Fixpoint skr_xblocks (fuel : nat) (r : skr) (src : list N) : skr * list N * list N :=
  match fuel with
  | O => (r, [], src)
  | S fuel => if 64 <=? length src then let '(r', out, src') := skr_xblocks fuel (skr_next r) (skipn 64 src) in (r', xor2 (firstn 64 src) (r_x r) ++ out, src') else (r, [], src)
  end.
Definition skr_xor (r : skr) (src : list N) : skr * list N :=
  let left := 64 - r_nx r in
  if length src <? left then (mkskr (r_k r) (r_x r) (r_nx r + length src) (r_ctr r), xor2 src (skipn (r_nx r) (r_x r)))
  else
    let d0 := xor2 (firstn left src) (skipn (r_nx r) (r_x r)) in
    let '(r, d1, src) := skr_xblocks (length src) (skr_next r) (skipn left src) in
    if 0 <? length src then (mkskr (r_k r) (r_x r) (r_nx r + length src) (r_ctr r), d0 ++ d1 ++ xor2 src (r_x r)) else (r, d0 ++ d1).
Definition skr_step (r : skr) (o : rop) : skr * list N := match o with RRead n => skr_read r n | RXor src => skr_xor r src end.
Fixpoint skr_run (r : skr) (ops : list rop) : list (list N) :=
  match ops with [] => [] | o :: ops => let '(r, out) := skr_step r o in out :: skr_run r ops end.
(** skein.go:47-51, NewStream *)
Definition skn_NewStream (key nonce : option (list N)) : skr :=
  skn_reader (skn_New ((2 ^ 64 - 1) / 8) (mkargs key None None None nonce) true).
