(** SpecHaraka.v -- Haraka v2 (Koelbl, Lauridsen, Mendel, Rechberger, "Haraka v2 - Efficient Short-Input Hashing for
    Post-Quantum Applications").  A state is the list of its 32-bit columns, a column the list of its 4 bytes; the AES
    round is that of SpecAes.v.  Uses nothing of the model. *)
From Coq Require Import List NArith Arith.
Require Import Verif.Base Verif.SpecAes.
Import ListNotations.

(** Appendix A: the round constants, as printed (most significant byte first). *)
Definition hk_RC : list N := [
  0x0684704ce620c00ab2c5fef075817b9d; 0x8b66b4e188f3a06b640f6ba42f08f717;
  0x3402de2d53f28498cf029d609f029114; 0x0ed6eae62e7b4f08bbf3bcaffd5b4f79;
  0xcbcfb0cb4872448b79eecd1cbe397044; 0x7eeacdee6e9032b78d5335ed2b8a057b;
  0x67c28f435e2e7cd0e2412761da4fef1b; 0x2924d9b0afcacc07675ffde21fc70b3b;
  0xab4d63f1e6867fe9ecdb8fcab9d465ee; 0x1c30bf84d4b7cd645b2a404fad037e33;
  0xb2cc0bb9941723bf69028b2e8df69800; 0xfa0478a6de6f55724aaa9ec85c9d2d8a;
  0xdfb49f2b6b772a120efa4f2e29129fd4; 0x1ea10344f449a23632d611aebb6a12ee;
  0xaf0449884b0500845f9600c99ca8eca6; 0x21025ed89d199c4f78a2c7e327e593ec;
  0xbf3aaaf8a759c9b7b9282ecd82d40173; 0x6260700d6186b01737f2efd910307d6b;
  0x5aca45c22130044381c29153f6fc9ac6; 0x9223973c226b68bb2caf92e836d1943a;
  0xd3bf9238225886eb6cbab958e51071b4; 0xdb863ce5aef0c677933dfddd24e1128d;
  0xbb606268ffeba09c83e48de3cb2212b1; 0x734bd3dce2e4d19c2db91a4ec72bf77d;
  0x43bb47c361301b434b1415c42cb3924e; 0xdba775a8e707eff603b231dd16eb6899;
  0x6df3614b3c7559778e5e23027eca472c; 0xcda75a17d6de7d776d1be5b9b88617f9;
  0xec6b43f06ba8e9aa9d6c069da946ee5d; 0xcb1e6950f957332ba25311593bf327c1;
  0x2cee0c7500da619ce4ed0353600ed0d9; 0xf0b1a5a196e90cab80bbbabc63a4a350;
  0xae3db1025e962988ab0dde30938dca39; 0x17bb8f38d554a40b8814f3a82e75b442;
  0x34bb8a5b5f427fd7aeb6b779360a16f6; 0x26f65241cbe5543843ce5918ffbaafde;
  0x4ce99a54b9f3026aa2ca9cf7839ec978; 0xae51a51a1bdff7be40c06e2822901235;
  0xa0c1613cba7ed22bc173bc0f48a659cf; 0x756acc03022882884ad6bdfde9c59da1]%N.
Definition hk_xor (a b : list N) : list N := map (fun p => N.lxor (fst p) (snd p)) (combine a b).
(** aesenc: one AES round with the round constant as round key, on a block of four columns. *)
Definition hk_aesenc (rc : N) (block : list N) : list N := hk_xor (aes_round block) (le_bytes 16 rc).
(** One layer: the blocks 0..nb-1 of the state, with the constants number base, base+1, ... *)
Definition hk_layer (nb base : nat) (s : list (list N)) : list (list N) :=
  flat_map (fun j => chunks 4 (hk_aesenc (at_ hk_RC (base + j)) (concat (firstn 4 (skipn (4 * j) s))))) (seq 0 nb).
Definition hk_perm (is : list nat) (s : list (list N)) : list (list N) := map (fun i => nth i s []) is.
Definition hk_mix256 := hk_perm [0; 4; 1; 5; 2; 6; 3; 7].
Definition hk_mix512 := hk_perm [3; 11; 7; 15; 8; 0; 12; 4; 9; 1; 13; 5; 2; 10; 6; 14].
(** Five rounds of two layers and a mix. *)
Definition hk_pi256 (s : list (list N)) : list (list N) :=
  fold_left (fun s i => hk_mix256 (hk_layer 2 (4 * i + 2) (hk_layer 2 (4 * i) s))) (seq 0 5) s.
Definition hk_pi512 (s : list (list N)) : list (list N) :=
  fold_left (fun s i => hk_mix512 (hk_layer 4 (8 * i + 4) (hk_layer 4 (8 * i) s))) (seq 0 5) s.
Definition hk_add (a b : list (list N)) : list (list N) := map (fun p => hk_xor (fst p) (snd p)) (combine a b).
(** Davies-Meyer; Haraka-512 keeps the columns 2, 3, 6, 7, 8, 9, 12, 13. *)
Definition haraka256 (m : list N) : list N := let x := chunks 4 m in concat (hk_add (hk_pi256 x) x).
Definition haraka512 (m : list N) : list N :=
  let x := chunks 4 m in concat (hk_perm [2; 3; 6; 7; 8; 9; 12; 13] (hk_add (hk_pi512 x) x)).

(** Appendix B: the published vectors. *)
Example haraka256_vector : be_val (haraka256 (map N.of_nat (seq 0 32))) = 0x8027ccb87949774b78d0545fb72bf70c695c2a0923cbd47bba1159efbf2b2c1c%N.
Proof. vm_compute. reflexivity. Qed.
Example haraka512_vector : be_val (haraka512 (map N.of_nat (seq 0 64))) = 0xbe7f723b4e80a99813b292287f306f625a6d57331cae5f34dd9277b0945be2aa%N.
Proof. vm_compute. reflexivity. Qed.
