(** SpecMurmur.v -- MurmurHash3 (Appleby, 2010): x86_32 and x64_128 on whole messages.
    Bytes are read little-endian; the results are numbers. *)
From Coq Require Import String List NArith Arith.
From Verif Require Import Base.
Import ListNotations.

(** ** x86_32 *)
Definition mm32_k (k : N) : N := mul32 (rotl32 (mul32 k 0xcc9e2d51) 15) 0x1b873593.
Definition mm32_body (h : N) (block : list N) : N :=
  add32 (mul32 (rotl32 (N.lxor h (mm32_k (le_val block))) 13) 5) 0xe6546b64.
Definition fmix32 (h : N) : N :=
  let h := mul32 (N.lxor h (N.shiftr h 16)) 0x85ebca6b in
  let h := mul32 (N.lxor h (N.shiftr h 13)) 0xc2b2ae35 in
  N.lxor h (N.shiftr h 16).
(** The tail of 0..3 bytes is one more word, mixed without the rotation (a zero word for an empty
    tail changes nothing). *)
Definition murmur32_spec (seed : N) (m : list N) : N :=
  let h := fold_left mm32_body (chunks 4 m) seed in
  let h := N.lxor h (mm32_k (le_val (rest 4 m))) in
  fmix32 (N.lxor h (w32 (N.of_nat (length m)))).

(** ** x64_128 *)
Definition mm128_k1 (k : N) : N := mul64 (rotl64 (mul64 k 0x87c37b91114253d5) 31) 0x4cf5ad432745937f.
Definition mm128_k2 (k : N) : N := mul64 (rotl64 (mul64 k 0x4cf5ad432745937f) 33) 0x87c37b91114253d5.
Definition mm128_body (h : N * N) (block : list N) : N * N :=
  let '(h1, h2) := h in
  let h1 := add64 (mul64 (add64 (rotl64 (N.lxor h1 (mm128_k1 (le_val (firstn 8 block)))) 27) h2) 5) 0x52dce729 in
  let h2 := add64 (mul64 (add64 (rotl64 (N.lxor h2 (mm128_k2 (le_val (skipn 8 block)))) 31) h1) 5) 0x38495ab5 in
  (h1, h2).
Definition fmix64_spec (k : N) : N :=
  let k := mul64 (N.lxor k (N.shiftr k 33)) 0xff51afd7ed558ccd in
  let k := mul64 (N.lxor k (N.shiftr k 33)) 0xc4ceb9fe1a85ec53 in
  N.lxor k (N.shiftr k 33).
Definition murmur128_spec (seed : N) (m : list N) : N * N :=
  let '(h1, h2) := fold_left mm128_body (chunks 16 m) (seed, seed) in
  let t := rest 16 m in
  let n := w64 (N.of_nat (length m)) in
  let h1 := N.lxor (N.lxor h1 (mm128_k1 (le_val (firstn 8 t)))) n in
  let h2 := N.lxor (N.lxor h2 (mm128_k2 (le_val (skipn 8 t)))) n in
  let h1 := add64 h1 h2 in
  let h2 := add64 h2 h1 in
  let h1 := fmix64_spec h1 in
  let h2 := fmix64_spec h2 in
  let h1 := add64 h1 h2 in
  (h1, add64 h2 h1).

(** Published vectors (murmur_test.go). *)
Example murmur_vectors :
  murmur32_spec 0 [] = 0%N /\
  murmur32_spec 0 (bytes_of_string "hello, world") = 0x149bbb7f%N /\
  murmur32_spec 0x2a (bytes_of_string "19 Jan 2038 at 3:14:07 AM") = 0x58f745f6%N /\
  murmur128_spec 1 [] = (0x4610abe56eff5cb5, 0x51622daa78f83583)%N /\
  murmur128_spec 0 (bytes_of_string "hello") = (0xcbd8a7b341bd9b02, 0x5b1e906a48ae1d19)%N /\
  murmur128_spec 0x2a (bytes_of_string "The quick brown fox jumps over the lazy dog.") = (0x74f33c659cda5af7, 0x4ec7a891caf316f0)%N.
Proof. vm_compute. repeat split. Qed.
