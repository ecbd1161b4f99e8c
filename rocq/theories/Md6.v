(** Md6.v -- model of /repo/md6 (digest.go, md6.go, utils.go, sbox.go). *)
From Coq Require Import List NArith Arith Lia Bool.
From Verif Require Import Base Buf HashAPI.
Import ListNotations.

(** A 64-bit word is a slice {high, low} of two uint32. *)
Notation W := (N * N)%type (only parsing).
(** utils.go:57-63 xor, and *)
Definition m6_xor (x y : W) : W := (N.lxor (fst x) (fst y), N.lxor (snd x) (snd y)).
Definition m6_and (x y : W) : W := (N.land (fst x) (fst y), N.land (snd x) (snd y)).
(** utils.go:65-80 shl *)
Definition m6_shl (x : W) (n : N) : W :=
  let '(a, b) := x in
  if (32 <=? n)%N then (shl32 b (n - 32), 0%N) else (N.lor (shl32 a n) (N.shiftr b (32 - n)), shl32 b n).
(** utils.go:82-97 shr *)
Definition m6_shr (x : W) (n : N) : W :=
  let '(a, b) := x in
  if (32 <=? n)%N then (0%N, N.shiftr a (n - 32)) else (N.shiftr a n, N.lor (shl32 a (32 - n)) (N.shiftr b n)).
(** utils.go:99-113 toWord; it is only applied to multiples of 8 bytes *)
Definition m6_toWord (input : list N) : list W := map (fun c => (be_val (firstn 4 c), be_val (firstn 4 (skipn 4 c)))) (chunks 8 input).
(** utils.go:115-126 fromWord *)
Definition m6_fromWord (l : list W) : list N := concat (map (fun w : W => be_bytes 4 (fst w) ++ be_bytes 4 (snd w)) l).
(** utils.go:128-143 crop(size, hash, true); None: the slice expression panics *)
Definition m6_crop (size : nat) (hash : list N) : option (list N) :=
  let length_ := (size + 7) / 8 in
  let remain := size mod 8 in
  if length hash <? length_ then None else
  let h := skipn (length hash - length_) hash in
  Some (if 0 <? remain then upd h (length_ - 1) (N.land (at_ h (length_ - 1)) (N.land (N.shiftl 0xFF (8 - N.of_nat remain)) 0xFF)) else h).

(** sbox.go:3-31 *)
Definition m6_n : nat := 89.
Definition m6_S0 : W := (0x01234567, 0x89ABCDEF)%N.
Definition m6_Sm : W := (0x7311C281, 0x2425CFA0)%N.
Definition m6_Q : list W :=
  [(0x7311C281, 0x2425CFA0); (0x64322864, 0x34AAC8E7); (0xB60450E9, 0xEF68B7C1); (0xE8FB2390, 0x8D9F06F1); (0xDD2E76CB, 0xA691E5BF);
   (0x0CD0D63B, 0x2C30BC41); (0x1F8CCF68, 0x23058F8A); (0x54E5ED5B, 0x88E3775D); (0x4AD12AAE, 0x0A6D6031); (0x3E7F16BB, 0x88222E0D);
   (0x8AF8671D, 0x3FB50C2C); (0x995AD117, 0x8BD25C31); (0xC878C1DD, 0x04C4B633); (0x3B72066C, 0x7A1552AC); (0x0D6F3522, 0x631EFFCB)]%N.
Definition m6_t : list nat := [17; 18; 21; 31; 67; 89].
Definition m6_rs : list N := [10; 5; 13; 10; 11; 12; 2; 7; 14; 15; 7; 13; 11; 7; 6; 12]%N.
Definition m6_ls : list N := [11; 24; 9; 16; 15; 9; 27; 15; 6; 2; 29; 8; 15; 5; 31; 9]%N.

(** digest.go:12-28: the fields set by the constructor (d, K, k, r, L) and those that change
    (x, nx, len, ell, C).  The fields s and M are never used by the code. *)
Record m6_cfg := { c_d : nat; c_K : list W; c_k : nat; c_r : nat; c_L : nat }.
Record m6_st := { m_x : list N; m_nx : nat; m_len : N; m_ell : nat; m_C : list W }.

(** digest.go:188-219 f: one step of the inner loop (s), then the rounds (j, with i = n + 16 j). *)
Definition m6_A (A : list W) (k : nat) : W := nth k A (0, 0)%N.
Definition m6_T (k : nat) : nat := nth k m6_t 0.
Definition m6_inner (S : W) (i : nat) (A : list W) (s : nat) : list W :=
  let x := S in
  let x := m6_xor x (m6_A A (i + s - m6_T 5)) in
  let x := m6_xor x (m6_A A (i + s - m6_T 0)) in
  let x := m6_xor x (m6_and (m6_A A (i + s - m6_T 1)) (m6_A A (i + s - m6_T 2))) in
  let x := m6_xor x (m6_and (m6_A A (i + s - m6_T 3)) (m6_A A (i + s - m6_T 4))) in
  let x := m6_xor x (m6_shr x (nth s m6_rs 0%N)) in
  upd A (i + s) (m6_xor x (m6_shl x (nth s m6_ls 0%N))).
Definition m6_outer (SA : W * list W) (j : nat) : W * list W :=
  let '(K, A) := SA in
  let A' := fold_left (m6_inner K (m6_n + 16 * j)) (seq 0 16) A in
  (m6_xor (m6_xor (m6_shl K 1) (m6_shr K (64 - 1))) (m6_and K m6_Sm), A').
Definition m6_f (r : nat) (input : list W) : list W :=
  let A := copy_at (repeat (0, 0)%N (m6_n + r * 16)) 0 input in
  let A := snd (fold_left m6_outer (seq 0 r) (m6_S0, A)) in
  skipn (length A - 16) A.

(** digest.go:221-241 mid; uint32 conversions are explicit *)
Definition m6_mid (c : m6_cfg) (ell : nat) (B C : list W) (i p z : N) : list W :=
  let U : W := (N.lor (shl32 (N.land (w32 (N.of_nat ell)) 0xFF) 24) (N.land (i / 0xFFFFFFFF) 0xFFFFFF), N.land i 0xFFFFFFFF) in
  let V : W := (N.lor (N.lor (N.lor (shl32 (N.land (w32 (N.of_nat (c_r c))) 0xFFF) 16) (shl32 (N.land (w32 (N.of_nat (c_L c))) 0xFF) 8)) (shl32 (N.land z 0xF) 4)) (N.shiftr (N.land p 0xF000) 12),
                N.lor (N.lor (shl32 (N.land p 0xFFF) 20) (shl32 (N.land (w32 (N.of_nat (c_k c))) 0xFF) 12)) (N.land (w32 (N.of_nat (c_d c))) 0xFFF)) in
  m6_f (c_r c) (m6_Q ++ c_K c ++ [U] ++ [V] ++ C ++ B).

(** the padding loops of par and seq: for len(M) < 1 || (len(M) % k) > 0 { M = append(M, 0x00); P += 8 } *)
Fixpoint m6_padloop (fuel k : nat) (M : list N) (P : N) : list N * N :=
  match fuel with
  | O => (M, P)
  | S f => if (length M <? 1) || (0 <? length M mod k) then m6_padloop f k (M ++ [0%N]) (P + 8)%N else (M, P)
  end.
(** digest.go:132-159 par: B gets exactly one element, so the loop over i runs for i = 0 only.
    The appends write at most into the spare capacity of x, past nx, which nothing reads afterwards. *)
Definition m6_par (c : m6_cfg) (ell : nat) (C : list W) (M : list N) (length_ : N) (final : bool) : list W :=
  let z := if final && (512 <? length_)%N then 0%N else 1%N in
  let '(M, P) := m6_padloop 513 512 M 0 in
  let p := if final then P else 0%N in
  m6_mid c ell (m6_toWord M) C 0 (w32 p) z.
(** digest.go:162-186 seq *)
Definition m6_seq (c : m6_cfg) (ell : nat) (C : list W) (M : list N) (final : bool) : list W :=
  let '(M, P) := m6_padloop 385 384 M 0 in
  let '(p, z) := if final then (P, 1%N) else (0%N, 0%N) in
  m6_mid c ell (m6_toWord M) C 0 (w32 p) z.
(** digest.go:121-129 process *)
Definition m6_process (c : m6_cfg) (ell : nat) (C : list W) (M : list N) (length_ : N) (final : bool) : nat * list W :=
  let ell := ell + 1 in
  (ell, if c_L c <? ell then m6_seq c ell C M final else m6_par c ell C M length_ final).

(** digest.go:31-59 newDigest, 69-80 Reset.  The key argument is a Go slice: [back] is the memory it
    occupies up to its capacity, the slice is its first [kl] bytes.  append writes into that memory as long
    as there is capacity and moves to fresh memory after that ([own]). *)
Fixpoint m6_keypad (fuel : nat) (own : bool) (back key : list N) : list N * list N :=
  match fuel with
  | O => (back, key)
  | S f => if length key <? 64 then
             if own || (length back =? length key) then m6_keypad f true back (key ++ [0%N])
             else m6_keypad f false (upd back (length key) 0%N) (key ++ [0%N])
           else (back, key)
  end.
Definition m6_tmax (a b : nat) : nat := if b <? a then a else b.
Definition m6_newcfg (size : nat) (back : list N) (kl levels : nat) : m6_cfg * list N :=
  let key := firstn kl back in
  let key := if 64 <? length key then firstn 64 key else key in
  let k := length key in
  let '(back', key') := m6_keypad 65 false back key in
  let r := if 0 <? k then m6_tmax 80 (40 + size / 4) else m6_tmax 0 (40 + size / 4) in
  ({| c_d := size; c_K := m6_toWord key'; c_k := k; c_r := r; c_L := levels |}, back').
Definition m6_reset (d : m6_st) : m6_st := {| m_x := zeros 512; m_nx := 0; m_len := 0; m_ell := 0; m_C := [] |}.
Definition m6_new : m6_st := {| m_x := zeros 512; m_nx := 0; m_len := 0; m_ell := 0; m_C := [] |}.
(** digest.go:82-107 Write *)
Definition m6_write (c : m6_cfg) (d : m6_st) (p : list N) : m6_st * nat :=
  let '((ell, C, len), x, nx, plen) :=
    writeA 512 (fun (s : nat * list W * N) b xx =>
      let '(ell, C, len) := s in
      let len := add64 len (N.of_nat xx) in
      let '(ell, C) := m6_process c ell C b len false in (ell, C, len)) (m_ell d, m_C d, m_len d) (m_x d) (m_nx d) p in
  ({| m_x := x; m_nx := nx; m_len := add64 len (N.of_nat plen); m_ell := ell; m_C := C |}, length p).
(** digest.go:115-119 checkSum on the copy made by Sum (243-266 copy, 109-113 Sum) *)
Definition m6_checkSum (c : m6_cfg) (d : m6_st) : option (list N) :=
  let '(ell, C) := m6_process c (m_ell d) (m_C d) (firstn (m_nx d) (m_x d)) (m_len d) true in
  m6_crop (c_d c) (m6_fromWord C).
Definition m6_sum (c : m6_cfg) (d : m6_st) (inp : list N) : option (list N) :=
  match m6_checkSum c d with Some h => Some (inp ++ h) | None => None end.
(** The object as a client sees it while Sum does not panic. *)
Definition m6_impl (c : m6_cfg) : impl m6_st :=
  mkimpl (m6_write c) (fun d i => (d, match m6_sum c d i with Some o => o | None => [] end)) m6_reset.
