(** Simd.v -- model of /repo/simd (utils.go, digest256.go, digest512.go, simd.go; tables in SimdTab.v).
    The two digest types differ in their sizes only and are modelled together: [big] = digest512.go. *)
From Coq Require Import List NArith ZArith Arith Bool.
Require Import Verif.Base Verif.Buf Verif.MD Verif.HashAPI Verif.SimdTab.
Import ListNotations.
Local Open Scope nat_scope.

(** ** int32 arithmetic *)
(** the int32 a Go expression of mathematical value z leaves *)
Definition i32 (z : Z) : Z := ((z + 2147483648) mod 4294967296 - 2147483648)%Z.
(** utils.go:54-56, REDS1 *)
Definition sd_REDS1 (x : Z) : Z := i32 (Z.land x 255 - Z.shiftr x 8).
(** utils.go:58-60, REDS2 (which the code writes out instead of calling) *)
Definition sd_REDS2 (x : Z) : Z := i32 (Z.land x 65535 + Z.shiftr x 16).

(** The operations the transform is made of.  The transform below is written over any such record; the code is its
    instance at [i32ops]. *)
Record fop (T : Type) : Type := mkfop {
  f_add : T -> T -> T;
  f_sub : T -> T -> T;
  f_shl : T -> nat -> T;      (** x << k *)
  f_red : T -> T;             (** REDS1 *)
  f_mul : T -> Z -> T         (** ((n * a) & 0xFFFF) + ((n * a) >> 16) *)
}.
Arguments mkfop {T}. Arguments f_add {T}. Arguments f_sub {T}. Arguments f_shl {T}. Arguments f_red {T}. Arguments f_mul {T}.
Definition i32ops : fop Z :=
  mkfop (fun a b => i32 (a + b)) (fun a b => i32 (a - b)) (fun a k => i32 (a * 2 ^ Z.of_nat k)) sd_REDS1
        (fun n a => sd_REDS2 (i32 (n * a))).

Section Transform.
Context {T : Type}.
Variable o : fop T.
(** the value read outside the array (never happens) *)
Variable d : T.
(** the bytes of the block, converted by int32(x[i] & 0xFF) *)
Variable x : nat -> T.
(** alphaTab256 / alphaTab512 *)
Variable tab : list Z.

(** digest256.go:694-714 and its copies (digest512.go:709-731, ...): x0..x3 to d1_0..d1_7 *)
Definition sd_eight (x0 x1 x2 x3 : T) : list T :=
  let a0 := f_add o x0 x2 in
  let a1 := f_add o x0 (f_shl o x2 4) in
  let a2 := f_sub o x0 x2 in
  let a3 := f_sub o x0 (f_shl o x2 4) in
  let b0 := f_add o x1 x3 in
  let b1 := f_red o (f_add o (f_shl o x1 2) (f_shl o x3 6)) in
  let b2 := f_sub o (f_shl o x1 4) (f_shl o x3 4) in
  let b3 := f_red o (f_add o (f_shl o x1 6) (f_shl o x3 2)) in
  [f_add o a0 b0; f_add o a1 b1; f_add o a2 b2; f_add o a3 b3; f_sub o a0 b0; f_sub o a1 b1; f_sub o a2 b2; f_sub o a3 b3].
(** digest256.go:741-756 and its copies: q[qoff+k] = d1_k + (d2_k << k), q[qoff+8+k] = d1_k - (d2_k << k)
    (for k = 0 the source has no shift; shifting by 0 is the same) *)
Definition sd_sixteen (d1 d2 : list T) : list T :=
  map (fun k => f_add o (nth k d1 d) (f_shl o (nth k d2 d) k)) (seq 0 8) ++
  map (fun k => f_sub o (nth k d1 d) (f_shl o (nth k d2 d) k)) (seq 0 8).
(** the assignments to q[off], q[off+1], ... *)
Definition sd_put (q : list T) (off : nat) (l : list T) : list T :=
  fold_left (fun q k => upd q (off + k) (nth k l d)) (seq 0 (length l)) q.
(** m = q[lo]; n = q[hi]; t = REDS2(n * a); q[lo] = m + t; q[hi] = m - t *)
Definition sd_bfly (q : list T) (lo hi : nat) (a : Z) : list T :=
  let m := nth lo q d in
  let t := f_mul o (nth hi q d) a in
  upd (upd q lo (f_add o m t)) hi (f_sub o m t).
(** the butterflies that join two transforms of [half] points at q[b..] (digest256.go:132-168, 175-211, 213-249, 822-848;
    digest512.go:145-174, 176-210, 212-246, 843-867, 1003-1029, 1031-1056): without multiplication at u = 0, then
    for u, v := 0, 0; u < half; u, v = u + 4, v + 4 * step, skipping the first butterfly of the first round *)
Definition sd_join (q : list T) (b half step : nat) : list T :=
  let m := nth b q d in
  let n := nth (b + half) q d in
  let q := upd (upd q b (f_add o m n)) (b + half) (f_sub o m n) in
  fold_left (fun q i =>
    let u := 4 * i in let v := u * step in
    fold_left (fun q j => if (u =? 0) && (j =? 0) then q
                          else sd_bfly q (b + u + j) (b + u + j + half) (nth (v + j * step) tab 0%Z))
              (seq 0 4) q) (seq 0 (half / 4)) q.
(** digest256.go:687-849, fft32; digest512.go:701-867 and 868-1029 with xs = 2 * the caller's xs *)
Definition sd_fft32 (q : list T) (xb xs qoff : nat) : list T :=
  let xd := 2 * xs in
  let part b := sd_sixteen (sd_eight (x b) (x (b + 2 * xd)) (x (b + 4 * xd)) (x (b + 6 * xd)))
                           (sd_eight (x (b + xd)) (x (b + 3 * xd)) (x (b + 5 * xd)) (x (b + 7 * xd))) in
  let q := sd_put q qoff (part xb) in
  let q := sd_put q (qoff + 16) (part (xb + xs)) in
  sd_join q qoff 16 8.
(** digest512.go:701-1057, fft64: two inlined transforms of 32 points, at xb and xb + xs with stride xd = 2 * xs, and their join.
    The first is finished, join included, before the second begins, as in the source. *)
Definition sd_fft64 (q : list T) (xb xs qoff : nat) : list T :=
  let q := sd_fft32 q xb (2 * xs) qoff in
  let q := sd_fft32 q (xb + xs) (2 * xs) (qoff + 32) in
  sd_join q qoff 32 4.
(** digest256.go:131-249, the transform part of compress *)
Definition sd_trans256 (q : list T) : list T :=
  let q := sd_fft32 q 0 4 0 in
  let q := sd_fft32 q 2 4 32 in
  let q := sd_join q 0 32 4 in
  let q := sd_fft32 q 1 4 64 in
  let q := sd_fft32 q 3 4 96 in
  let q := sd_join q 64 32 4 in
  sd_join q 0 64 2.
(** digest512.go:138-246 *)
Definition sd_trans512 (q : list T) : list T :=
  let q := sd_fft64 q 0 4 0 in
  let q := sd_fft64 q 2 4 64 in
  let q := sd_join q 0 64 2 in
  let q := sd_fft64 q 1 4 128 in
  let q := sd_fft64 q 3 4 192 in
  let q := sd_join q 128 64 2 in
  sd_join q 0 128 1.
End Transform.

Definition sd_L (big : bool) : nat := if big then 8 else 4.
(** digest256.go:251-276, digest512.go:248-273: one q[i] from q[i] + yoff[i] *)
Definition sd_fin (tq : Z) : Z :=
  let tq := i32 tq in
  let tq := sd_REDS2 tq in
  let tq := sd_REDS1 tq in
  let tq := sd_REDS1 tq in
  if (tq <=? 128)%Z then tq else i32 (tq - 257).
(** the array q after the transform; [q] is what the previous block left in d.q *)
Definition sd_q (big last : bool) (b : list N) (q : list Z) : list Z :=
  let x := fun i => Z.of_N (at_ b i) in
  let t := if big then sd_trans512 i32ops 0%Z x sm_alphaTab512 q else sd_trans256 i32ops 0%Z x sm_alphaTab256 q in
  let yoff := if big then (if last then sm_yoffF512 else sm_yoffN512) else (if last then sm_yoffF256 else sm_yoffN256) in
  map (fun i => sd_fin (nth i t 0 + nth i yoff 0)%Z) (seq 0 (32 * sd_L big)).

(** (uint32(l * mm) & 0xFFFF) + (uint32(h * mm) << 16) *)
Definition sd_inner (l h mm : Z) : N :=
  add32 (N.land (Z.to_N (i32 (l * mm) mod 4294967296)) 65535)
        (w32 (N.shiftl (Z.to_N (i32 (h * mm) mod 4294967296)) 16)).
(** digest256.go:287-294 (and 296-303, 305-312, 314-321), digest512.go:288-300 (...): the array w of one round *)
Definition sd_w (big : bool) (q : list Z) (rd : nat) (o1 o2 mm : Z) : list N :=
  let sp := if big then sm_wbp512 else sm_wsp256 in
  flat_map (fun u => let v := nth (u + 8 * rd) sp 0%Z in
    map (fun j => sd_inner (nth (Z.to_nat (v + 2 * Z.of_nat j + o1)) q 0%Z) (nth (Z.to_nat (v + 2 * Z.of_nat j + o2)) q 0%Z) mm)
        (seq 0 (sd_L big))) (seq 0 8).

(** the two boolean functions as the code writes them *)
Definition sd_if (a b c : N) : N := N.lxor (N.land (N.lxor b c) a) c.
Definition sd_maj (a b c : N) : N := N.lor (N.land a b) (N.land (N.lor a b) c).
(** one step of oneRound (digest256.go:436-466 and so on; digest512.go:579-592 and so on), also of the four final steps
    (digest256.go:324-430, digest512.go:343-570): tA := rotated state[0..L), then the lanes in order *)
Definition sd_step (L : nat) (F : N -> N -> N -> N) (w : list N) (k : nat) (p p' : N) (pp : nat) (state : list N) : list N :=
  let tA := map (fun i => rotl32 (at_ state i) p) (seq 0 L) in
  fold_left (fun s i =>
    let tmp := add32 (add32 (at_ s (3 * L + i)) (at_ w (k * L + i))) (F (at_ s i) (at_ s (L + i)) (at_ s (2 * L + i))) in
    let s := upd s i (add32 (rotl32 tmp p') (at_ tA (Nat.lxor pp i))) in
    let s := upd s (3 * L + i) (at_ s (2 * L + i)) in
    let s := upd s (2 * L + i) (at_ s (L + i)) in
    upd s (L + i) (at_ tA i)) (seq 0 L) state.
(** digest256.go:432-685, digest512.go:571-699, oneRound *)
Definition sd_oneRound (big : bool) (w : list N) (isp : nat) (p0 p1 p2 p3 : N) (state : list N) : list N :=
  let L := sd_L big in
  let pp k := nth (isp + k) (if big then sm_pp8k512 else sm_pp4k256) 0 in
  let s := sd_step L sd_if w 0 p0 p1 (pp 0) state in
  let s := sd_step L sd_if w 1 p1 p2 (pp 1) s in
  let s := sd_step L sd_if w 2 p2 p3 (pp 2) s in
  let s := sd_step L sd_if w 3 p3 p0 (pp 3) s in
  let s := sd_step L sd_maj w 4 p0 p1 (pp 4) s in
  let s := sd_step L sd_maj w 5 p1 p2 (pp 5) s in
  let s := sd_step L sd_maj w 6 p2 p3 (pp 6) s in
  sd_step L sd_maj w 7 p3 p0 (pp 7) s.

(** digest256.go:126-430, digest512.go:132-570, compress.  The state is d.state and d.q; d.w, d.tmpState and d.tA are
    wholly written before they are read, so they are local here. *)
Definition sd_compress (big : bool) (st : list N * list Z) (b : list N) (last : bool) : list N * list Z :=
  let L := sd_L big in
  let q := sd_q big last b (snd st) in
  let tmpState := fst st in
  let s := map (fun i => N.lxor (at_ (fst st) i) (le_val (firstn 4 (skipn (4 * i) b)))) (seq 0 (4 * L)) in
  let s := sd_oneRound big (sd_w big q 0 0 1 185) 0 3 23 17 27 s in
  let s := sd_oneRound big (sd_w big q 1 0 1 185) (if big then 1 else 2) 28 19 22 7 s in
  let s := sd_oneRound big (if big then sd_w big q 2 (-256) (-128) 233 else sd_w big q 2 (-128) (-64) 233)
                       (if big then 2 else 1) 29 9 15 5 s in
  let s := sd_oneRound big (if big then sd_w big q 3 (-383) (-255) 233 else sd_w big q 3 (-191) (-127) 233)
                       (if big then 3 else 0) 4 13 10 25 s in
  let s := sd_step L sd_if tmpState 0 4 13 (if big then 5 else 3) s in
  let s := sd_step L sd_if tmpState 1 13 10 (if big then 7 else 1) s in
  let s := sd_step L sd_if tmpState 2 10 25 (if big then 4 else 2) s in
  let s := sd_step L sd_if tmpState 3 25 4 (if big then 1 else 3) s in
  (s, q).

(** ** the digests *)
Definition sd_bs (big : bool) : nat := 16 * sd_L big.
Definition sd_block (big : bool) (st : list N * list Z) (b : list N) : list N * list Z := sd_compress big st b false.
(** digest256.go:64-84, digest512.go Write *)
Definition sd_write (big : bool) : dig (list N * list Z) -> list N -> dig (list N * list Z) * nat :=
  write_pre (sd_bs big) (sd_block big).
(** digest256.go:93-120, digest512.go:86-117, checkSum *)
Definition sd_checkSum (big : bool) (hs : nat) (d : dig (list N * list Z)) : list N :=
  let bs := sd_bs big in
  let ptr := dnx d in
  let buf := dx d in
  let st := ds d in
  let buf' := firstn ptr buf ++ zeros (length buf - ptr) in
  let st := if ptr =? 0 then st else sd_compress big st buf' false in
  let buf := if ptr =? 0 then buf else buf' in
  let count := add64 (w64 (N.shiftl (dlen d / N.of_nat bs) (if big then 10 else 9))) (w64 (N.shiftl (N.of_nat ptr) 3)) in
  let buf := copy_at buf 0 (le_bytes 4 (w32 count)) in
  let buf := copy_at buf 4 (le_bytes 4 (w32 (N.shiftr count 32))) in
  let buf := firstn 8 buf ++ zeros (length buf - 8) in
  let st := sd_compress big st buf true in
  copy_at (zeros hs) 0 (flat_map (fun i => le_bytes 4 (at_ (fst st) i)) (seq 0 (hs / 4))).
(** digest256.go:29-53, newDigest256 and Reset; initVal from simd.go *)
Definition sd_iv (hs : nat) : list N :=
  if hs =? 28 then sm_iv224 else if hs =? 32 then sm_iv256 else if hs =? 48 then sm_iv384 else sm_iv512.
Definition sd_reset (big : bool) (hs : nat) : dig (list N * list Z) :=
  mkdig (sd_iv hs, repeat 0%Z (32 * sd_L big)) (zeros (sd_bs big)) 0 0.
(** the hash.Hash values New224, New256 (big = false), New384, New512 (big = true) return *)
Definition sd_impl (big : bool) (hs : nat) : impl (dig (list N * list Z)) :=
  mkimpl (sd_write big) (fun d i => (d, i ++ sd_checkSum big hs d)) (fun _ => sd_reset big hs).
(** simd.go:19-67, Sum224 .. Sum512: copy(out[:], sum) *)
Definition sd_Sum (big : bool) (hs : nat) (data : list N) : list N :=
  copy_at (zeros hs) 0 (sd_checkSum big hs (fst (sd_write big (sd_reset big hs) data))).
