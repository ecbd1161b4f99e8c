(** SpecGmac.v -- GHASH and GMAC (NIST SP 800-38D), written from the standard.  A 128-bit block
    x_0 x_1 .. x_127 is the number whose most significant bit is x_0.  [E] is the block cipher
    under the key. *)
From Coq Require Import List NArith Arith Bool.
From Verif Require Import Base SpecCmac.
Import ListNotations.

(** Section 6.3, Algorithm 1: R = 11100001 || 0^120; Z and V are updated for i = 0 .. 127. *)
Definition gcm_R : N := N.shiftl 0xe1 120.
Definition gcm_shift (V : N) : N := N.lxor (N.shiftr V 1) (if N.testbit V 0 then gcm_R else 0).
Definition gcm_mul (X Y : N) : N :=
  fst (fold_left (fun (zv : N * N) i =>
         let '(Z, V) := zv in
         (if N.testbit X (127 - N.of_nat i) then N.lxor Z V else Z, gcm_shift V))
       (seq 0 128) (0, Y)%N).
(** Section 6.4, Algorithm 2. *)
Definition ghash (H : N) (blocks : list (list N)) : N :=
  fold_left (fun Y b => gcm_mul (N.lxor Y (be_val b)) H) blocks 0%N.
(** The message cut into blocks, the last one filled with zeros. *)
Definition zpad (m : list N) : list (list N) :=
  chunks 16 m ++ (if length (rest 16 m) =? 0 then [] else [rest 16 m ++ zeros (16 - length (rest 16 m))]).
(** Section 7.1, step 2: the pre-counter block (lengths are 64-bit counts of bits). *)
Definition gcm_J0 (H : N) (iv : list N) : list N :=
  if length iv =? 12 then iv ++ [0; 0; 0; 1]%N
  else be_bytes 16 (ghash H (zpad iv ++ [be_bytes 8 0 ++ be_bytes 8 (8 * N.of_nat (length iv))])).
(** Sections 6.4, 7.1 with an empty plaintext: the authenticated data is [m]; [n] is the length in
    bytes entered in the length block (the length of [m] in GMAC proper). *)
Definition gmac_tag_len (E : list N -> list N) (iv m : list N) (n : N) : list N :=
  let H := be_val (E (zeros 16)) in
  let S := ghash H (zpad m ++ [be_bytes 8 (8 * n) ++ be_bytes 8 0]) in
  xorblk (be_bytes 16 S) (E (gcm_J0 H iv)).
Definition gmac_spec (E : list N -> list N) (iv m : list N) : list N := gmac_tag_len E iv m (N.of_nat (length m)).

(** Test Case 1 and 2 of the GCM specification: H = E(K, 0), GHASH of one ciphertext block. *)
Example ghash_case2 :
  ghash 0x66e94bd4ef8a2c3b884cfa59ca342b2e [be_bytes 16 0x0388dace60b6a392f328c2b971b2fe78; be_bytes 8 0 ++ be_bytes 8 128]
  = 0xf38cbb1ad69223dcc3457ae5b6b0f885%N.
Proof. vm_compute. reflexivity. Qed.
