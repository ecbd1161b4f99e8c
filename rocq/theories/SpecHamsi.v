(** SpecHamsi.v -- Hamsi-224, -256, -384 and -512, written from "The Hash Function Hamsi" (Kucuk; SHA-3 candidate, 2009). *)
From Coq Require Import List NArith Arith.
Require Import Verif.Base.
Import ListNotations.
Local Open Scope nat_scope.
Inductive hmv : Type := HM256 | HM512.
(** The state of the permutation has 4 rows of [hm_r] words; a message block has [hm_r] bytes and the chaining value 2 * hm_r words. *)
Definition hm_r (v : hmv) : nat := match v with HM256 => 4 | HM512 => 8 end.
(** ** Message expansion: a linear code over F4 = {0, 1, w, w+1}.  A word of the code is written as 4 * hm_r symbols of 16 (i.e. hm_r words
    of high bits, then hm_r words of low bits): (A, B) is A * w + B.  The generators are the images of the message symbols. *)
Definition hm_G256 : list (list N) := [
  [0x045f0000; 0x9c4a93c9; 0x62fc79d0; 0x731ebdc2; 0xe0278000; 0x19dce008; 0xd7075d82; 0x5ad2e31d];
  [0xe6570000; 0x4bb33a25; 0x848598ba; 0x1041003e; 0xf44c4000; 0x10a4e3cd; 0x097f5711; 0xde77cc4c];
  [0x97530000; 0x204f6ed3; 0x77b9e80f; 0xa1ec5ec1; 0x7e792000; 0x9418e22f; 0x6643d258; 0x9c255be5];
  [0xcba90000; 0x90273769; 0xbbdcf407; 0xd0f4af61; 0xbf3c1000; 0xca0c7117; 0x3321e92c; 0xce122df3];
  [0xe18b0000; 0x5459887d; 0xbf1283d3; 0x1b666a73; 0x3fb90800; 0x7cdad883; 0xce97a914; 0xbdd9f5e5];
  [0x14bd0000; 0x2fba37ff; 0x6a72e5bb; 0x247febe6; 0x9b830400; 0x2227ff88; 0x05b7ad5a; 0xadf2c730];
  [0xee260000; 0x124b683e; 0x80c2d68f; 0x3bf3ab2c; 0x499e0200; 0x0d59ec0d; 0xe0272f7d; 0xa5e7de5a];
  [0x734c0000; 0x956fa7d6; 0xa29d1297; 0x6ee56854; 0xc4e80100; 0x1f70960e; 0x2714ca3c; 0x88210c30];
  [0x39a60000; 0x4ab753eb; 0xd14e094b; 0xb772b42b; 0x62740080; 0x0fb84b07; 0x138a651e; 0x44100618];
  [0x78ab0000; 0xa0cd5a34; 0x5d5ca0f7; 0x727784cb; 0x35650040; 0x9b96b64a; 0x6b39cb5f; 0x5114bece];
  [0x5c720000; 0xc9bacd12; 0x79a90df9; 0x63e92178; 0xfeca0020; 0x485d28e4; 0x806741fd; 0x814681b8];
  [0x2e390000; 0x64dd6689; 0x3cd406fc; 0xb1f490bc; 0x7f650010; 0x242e1472; 0xc03320fe; 0xc0a3c0dd];
  [0x171c0000; 0xb26e3344; 0x9e6a837e; 0x58f8485f; 0xbfb20008; 0x92170a39; 0x6019107f; 0xe051606e];
  [0x6ba90000; 0x40ebf9aa; 0x98321c3d; 0x76acc733; 0xbba10004; 0xcc9d76dd; 0x05f7ac6d; 0xd9e6eee9];
  [0x51ac0000; 0x25e30f14; 0x79e22a4c; 0x1298bd46; 0xd98f0002; 0x7a04a8a7; 0xe007afe6; 0x9fed4ab7];
  [0xc8f10000; 0x0b2de782; 0x6bf648a4; 0x539cbdbf; 0x08bf0001; 0x38942792; 0xc5f8f3a1; 0xe6387b84]]%N.
Definition hm_G512 : list (list N) := [
  [0x466d0c00; 0x08620000; 0xdd5d0000; 0xbadd0000; 0x6a927942; 0x441f2b93; 0x218ace6f; 0xbf2c0be2; 0x6f299000; 0x6c850000; 0x2f160000; 0x782e0000; 0x644c37cd; 0x12dd1cd6; 0xd26a8c36; 0x32219526];
  [0x9cbb1800; 0xb0d30000; 0x92510000; 0xed930000; 0x593a4345; 0xe114d5f4; 0x430633da; 0x78cace29; 0xc8934400; 0x5a3e0000; 0x57870000; 0x4c560000; 0xea982435; 0x75b11115; 0x28b67247; 0x2dd1f9ab];
  [0x23671400; 0xc8b90000; 0xf4c70000; 0xfb750000; 0x73cd2465; 0xf8a6a549; 0x02c40a3f; 0xdc24e61f; 0x373d2800; 0x71500000; 0x95e00000; 0x0a140000; 0xbdac1909; 0x48ef9831; 0x456d6d1f; 0x3daac2da];
  [0xc96b0030; 0xe7250000; 0x2f840000; 0x264f0000; 0x08695bf9; 0x6dfcf137; 0x509f6984; 0x9e69af68; 0x26600240; 0xddd80000; 0x722a0000; 0x4f060000; 0x936667ff; 0x29f944ce; 0x368b63d5; 0x0c26f262];
  [0xb4370060; 0x0c4c0000; 0x56c20000; 0x5cae0000; 0x94541f3f; 0x3b3ef825; 0x1b365f3d; 0xf3d45758; 0x5cb00110; 0x913e0000; 0x44190000; 0x888c0000; 0x66dc7418; 0x921f1d66; 0x55ceea25; 0x925c44e9];
  [0xf46c0050; 0x96180000; 0x14a50000; 0x031f0000; 0x42947eb8; 0x66bf7e19; 0x9ca470d2; 0x8a341574; 0x832800a0; 0x67420000; 0xe1170000; 0x370b0000; 0xcba30034; 0x3c34923c; 0x9767bdcc; 0x450360bf];
  [0xd46a0000; 0x8dc8c000; 0xa5af0000; 0x4a290000; 0xfc4e427a; 0xc9b4866c; 0x98369604; 0xf746c320; 0x231f0009; 0x42f40000; 0x66790000; 0x4ebb0000; 0xfedb5bd3; 0x315cb0d6; 0xe2b1674a; 0x69505b3a];
  [0xa67f0001; 0x71378000; 0x19fc0000; 0x96db0000; 0x3a8b6dfd; 0xebcaaef3; 0x2c6d478f; 0xac8e6c88; 0x50ff0004; 0x45744000; 0x3dfb0000; 0x19e60000; 0x1bbc5606; 0xe1727b5d; 0xe1a8cc96; 0x7b1bd6b9];
  [0xeecf0001; 0x6f564000; 0xf33e0000; 0xa79e0000; 0xbdb57219; 0xb711ebc5; 0x4a3b40ba; 0xfeabf254; 0x9b060002; 0x61468000; 0x221e0000; 0x1d740000; 0x36715d27; 0x30495c92; 0xf11336a7; 0xfe1cdc7f];
  [0xd1660000; 0x1bbc0300; 0x9eec0000; 0xf6940000; 0x03024527; 0xcf70fcf2; 0xb4431b17; 0x857f3c2b; 0xa4c20000; 0xd9372400; 0x0a480000; 0x66610000; 0xf87a12c7; 0x86bef75c; 0xa324df94; 0x2ba05a55];
  [0xb83d0000; 0x16710600; 0x379a0000; 0xf5b10000; 0x228161ac; 0xae48f145; 0x66241616; 0xc5c1eb3e; 0xfd250000; 0xb3c41100; 0xcef00000; 0xcef90000; 0x3c4d7580; 0x8d5b6493; 0x7098b0a6; 0x1af21fe1];
  [0xfe220000; 0xa7580500; 0x25d10000; 0xf7600000; 0x893178da; 0x1fd4f860; 0x4ed0a315; 0xa123ff9f; 0xf2500000; 0xeebd0a00; 0x67a80000; 0xab8a0000; 0xba9b48c0; 0x0a56dd74; 0xdb73e86e; 0x1568ff0f];
  [0xc6730000; 0xaf8d000c; 0xa4c10000; 0x218d0000; 0x23111587; 0x7913512f; 0x1d28ac88; 0x378dd173; 0xaf220000; 0x7b6c0090; 0x67e20000; 0x8da20000; 0xc7841e29; 0xb7b744f3; 0x9ac484f4; 0x8b6c72bd];
  [0xbc8d0000; 0xfc3b0018; 0x19830000; 0xd10b0000; 0xae1878c4; 0x42a69856; 0x0012da37; 0x2c3b504e; 0xe8dd0000; 0xfa4a0044; 0x3c2d0000; 0xbb150000; 0x80bd361b; 0x24e81d44; 0xbfa8c2f4; 0x524a0d59];
  [0xe3430000; 0x3a4e0014; 0xf2c60000; 0xaa4e0000; 0xdb1e42a6; 0x256bbe15; 0x123db156; 0x3a4e99d7; 0xf75a0000; 0x19840028; 0xa2190000; 0xeef80000; 0xc0722516; 0x19981260; 0x73dba1e6; 0xe1844257];
  [0x30b70000; 0xe5d00000; 0xf4f46000; 0x42c40000; 0x63b83d6a; 0x78ba9460; 0x21afa1ea; 0xb0a51834; 0xb6ce0000; 0xdae90002; 0x156e8000; 0xda920000; 0xf6dd5a64; 0x36325c8a; 0xf272e8ae; 0xa6b8c28d];
  [0xdb250000; 0x09290000; 0x49aac000; 0x81e10000; 0xcafe6b59; 0x42793431; 0x43566b76; 0xe86cba2e; 0x75e60000; 0x95660001; 0x307b2000; 0xadf40000; 0x8f321eea; 0x24298307; 0xe8c49cf9; 0x4b7eec55];
  [0x1e4e0000; 0xdecf0000; 0x6df80180; 0x77240000; 0xec47079e; 0xf4a0694e; 0xcda31812; 0x98aa496e; 0xb2060000; 0xc5690000; 0x28031200; 0x74670000; 0xb6c236f4; 0xeb1239f8; 0x33d1dfec; 0x094e3198];
  [0x02af0000; 0xb7280000; 0xba1c0300; 0x56980000; 0xba8d45d3; 0x8048c667; 0xa95c149a; 0xf4f6ea7b; 0x7a8c0000; 0xa5d40000; 0x13260880; 0xc63d0000; 0xcbb36daa; 0xfea14f43; 0x59d0b4f8; 0x979961d0];
  [0x819e0000; 0xec570000; 0x66320280; 0x95f30000; 0x5da92802; 0x48f43cbc; 0xe65aa22d; 0x8e67b7fa; 0x4d8a0000; 0x49340000; 0x3c8b0500; 0xaea30000; 0x16793bfd; 0xcf6f08a4; 0x8f19eaec; 0x443d3004];
  [0x538d0000; 0xa9fc0000; 0x9ef70006; 0x56ff0000; 0x0ae4004e; 0x92c5cdf9; 0xa9444018; 0x7f975691; 0x01dd0000; 0x80a80000; 0xf4960048; 0xa6000000; 0x90d57ea2; 0xd7e68c37; 0x6612cffd; 0x2c94459e];
  [0x0bc20000; 0xdb630000; 0x7e88000c; 0x15860000; 0x91fd48f3; 0x7581bb43; 0xf460449e; 0xd8b61463; 0x835a0000; 0xc4f70000; 0x01470022; 0xeec80000; 0x60a54f69; 0x142f2a24; 0x5cf534f2; 0x3ea660f7];
  [0x07ed0000; 0xb2500000; 0x8774000a; 0x970d0000; 0x437223ae; 0x48c76ea4; 0xf4786222; 0x9075b1ce; 0xa2d60000; 0xa6760000; 0xc9440014; 0xeba30000; 0xccec2e7b; 0x3018c499; 0x03490afa; 0x9b6ef888];
  [0x1d5a0000; 0x2b720000; 0x488d0000; 0xaf611800; 0x25cb2ec5; 0xc879bfd0; 0x81a20429; 0x1e7536a6; 0x45190000; 0xab0c0000; 0x30be0001; 0x690a2000; 0xc2fc7219; 0xb1d4800d; 0x2dd1fa46; 0x24314f17];
  [0x92560000; 0x1eda0000; 0xea510000; 0xe8b13000; 0xa93556a5; 0xebfb6199; 0xb15c2254; 0x33c5244f; 0x8c3a0000; 0xda980000; 0x607f0000; 0x54078800; 0x85714513; 0x6006b243; 0xdb50399c; 0x8a58e6a4];
  [0xbadd0000; 0x13ad0000; 0xb7e70000; 0xf7282800; 0xdf45144d; 0x361ac33a; 0xea5a8d14; 0x2a2c18f0; 0xb82f0000; 0xb12c0000; 0x30d80000; 0x14445000; 0xc15860a2; 0x3127e8ec; 0x2e98bf23; 0x551e3d6e];
  [0xe3060000; 0xbdc10000; 0x87130000; 0xbff20060; 0x2eba0a1a; 0x8db53751; 0x73c5ab06; 0x5bd61539; 0x57370000; 0xcaf20000; 0x364e0000; 0xc0220480; 0x56186b22; 0x5ca3f40c; 0xa1937f8f; 0x15b961e7];
  [0xf0c50000; 0x59230000; 0x45820000; 0xe18d00c0; 0x3b6d0631; 0xc2ed5699; 0xcbe0fe1c; 0x56a7b19f; 0x16ed0000; 0x15680000; 0xedd70000; 0x325d0220; 0xe30c3689; 0x5a4ae643; 0xe375f8a8; 0x81fdf908];
  [0x7b280000; 0x57420000; 0xa9e50000; 0x634300a0; 0x9edb442f; 0x6d9995bb; 0x27f83b03; 0xc7ff60f0; 0x95bb0000; 0x81450000; 0x3b240000; 0x48db0140; 0x0a8a6c53; 0x56f56eec; 0x62c91877; 0xe7e00a94];
  [0x00440000; 0x7f480000; 0xda7c0000; 0x2a230001; 0x3badc9cc; 0xa9b69c87; 0x030a9e60; 0xbe0a679e; 0x5fec0000; 0x294b0000; 0x99d20000; 0x4ed00012; 0x1ed34f73; 0xbaa708c9; 0x57140bdf; 0x30aebcf7];
  [0x92280000; 0xdc850000; 0x57fa0000; 0x56dc0003; 0xbae92316; 0x5aefa30c; 0x90cef752; 0x7b1675d7; 0x93bb0000; 0x3b070000; 0xba010000; 0x99d00008; 0x3739ae4e; 0xe64c1722; 0x96f896b3; 0x2879ebac];
  [0xa8da0000; 0x96be0000; 0x5c1d0000; 0x07da0002; 0x7d669583; 0x1f98708a; 0xbb668808; 0xda878000; 0xabe70000; 0x9e0d0000; 0xaf270000; 0x3d180005; 0x2c4f1fd3; 0x74f61695; 0xb5c347eb; 0x3c5dfffe]]%N.
Definition hm_G (v : hmv) : list (list N) := match v with HM256 => hm_G256 | HM512 => hm_G512 end.
Definition hm_xors (a b : list N) : list N := map (fun p => N.lxor (fst p) (snd p)) (combine a b).
Definition hm_if (b : bool) (a : list N) : list N := if b then a else map (fun _ => 0%N) a.
(** w * (A w + B) = (A + B) w + A *)
Definition hm_timesw (a : list N) : list N := let n := length a / 2 in hm_xors (firstn n a) (skipn n a) ++ firstn n a.
(** (x1 w + x0) * a *)
Definition hm_f4 (x1 x0 : bool) (a : list N) : list N := hm_xors (hm_if x0 a) (hm_if x1 (hm_timesw a)).
(** bit i of the block, the most significant bit of its first byte being number 0 *)
Definition hm_bit (b : list N) (i : nat) : bool := N.testbit (at_ b (i / 8)) (N.of_nat (7 - i mod 8)).
Definition hm_expand (v : hmv) (b : list N) : list N :=
  fold_left (fun acc i => hm_xors acc (hm_f4 (hm_bit b (2 * i + 1)) (hm_bit b (2 * i)) (nth i (hm_G v) []))) (seq 0 (4 * hm_r v)) (zeros (2 * hm_r v)).
(** ** Concatenation, in pairs: row 0 is m0 m1 c0 c1 m2 m3 c2 c3 ..., row 1 goes on with c first, and so on. *)
Definition hm_concat (v : hmv) (m c : list N) : list N :=
  let pr := fun (l : list N) k => [at_ l (2 * k); at_ l (2 * k + 1)] in
  flat_map (fun k => if Nat.even (k / (hm_r v / 4)) then pr m k ++ pr c k else pr c k ++ pr m k)
    (match v with HM256 => [0; 1; 2; 3] | HM512 => [0; 1; 2; 3; 4; 5; 6; 7] end).
(** ** The permutation *)
Definition hm_alpha : list N := [0xff00f0f0; 0xccccaaaa; 0xf0f0cccc; 0xff00aaaa; 0xccccaaaa; 0xf0f0ff00; 0xaaaacccc; 0xf0f0ff00; 0xf0f0cccc; 0xaaaaff00; 0xccccff00; 0xaaaaf0f0; 0xaaaaf0f0; 0xff00cccc; 0xccccf0f0; 0xff00aaaa; 0xccccaaaa; 0xff00f0f0; 0xff00aaaa; 0xf0f0cccc; 0xf0f0ff00; 0xccccaaaa; 0xf0f0ff00; 0xaaaacccc; 0xaaaaff00; 0xf0f0cccc; 0xaaaaf0f0; 0xccccff00; 0xff00cccc; 0xaaaaf0f0; 0xff00aaaa; 0xccccf0f0]%N.
Definition hm_alphaf : list N := [0xcaf9639c; 0x0ff0f9c0; 0x639c0ff0; 0xcaf9f9c0; 0x0ff0f9c0; 0x639ccaf9; 0xf9c00ff0; 0x639ccaf9; 0x639c0ff0; 0xf9c0caf9; 0x0ff0caf9; 0xf9c0639c; 0xf9c0639c; 0xcaf90ff0; 0x0ff0639c; 0xcaf9f9c0; 0x0ff0f9c0; 0xcaf9639c; 0xcaf9f9c0; 0x639c0ff0; 0x639ccaf9; 0x0ff0f9c0; 0x639ccaf9; 0xf9c00ff0; 0xf9c0caf9; 0x639c0ff0; 0xf9c0639c; 0x0ff0caf9; 0xcaf90ff0; 0xf9c0639c; 0xcaf9f9c0; 0x0ff0639c]%N.
(** addition of the constants (4 rows of 8, the first hm_r of each row are used) and of the counter in word 1 *)
Definition hm_addc (v : hmv) (al : list N) (ctr : N) (s : list N) : list N :=
  map (fun i => let a := at_ al (8 * (i / hm_r v) + i mod hm_r v) in N.lxor (at_ s i) (if i =? 1 then N.lxor a ctr else a)) (seq 0 (4 * hm_r v)).
(** the S-box (S2 of Serpent) on the 4 bits of a column, row 0 the least significant *)
Definition hm_sbox : list N := [8; 6; 7; 9; 3; 12; 10; 15; 13; 1; 14; 4; 0; 11; 5; 2]%N.
Definition hm_word (f : N -> bool) : N := fold_right (fun i acc => if f (N.of_nat i) then N.setbit acc (N.of_nat i) else acc) 0%N (seq 0 32).
Definition hm_S (k : nat) (a b c d : N) : N :=
  hm_word (fun i => N.testbit (at_ hm_sbox (Nat.b2n (N.testbit a i) + 2 * Nat.b2n (N.testbit b i) + 4 * Nat.b2n (N.testbit c i) + 8 * Nat.b2n (N.testbit d i))) (N.of_nat k)).
Definition hm_subst (v : hmv) (s : list N) : list N :=
  map (fun i => let j := i mod hm_r v in hm_S (i / hm_r v) (at_ s j) (at_ s (hm_r v + j)) (at_ s (2 * hm_r v + j)) (at_ s (3 * hm_r v + j))) (seq 0 (4 * hm_r v)).
(** L of Serpent on four words *)
Definition hm_L (a b c d : N) : list N :=
  let a := rotl32 a 13 in let c := rotl32 c 3 in
  let b := N.lxor b (N.lxor a c) in let d := N.lxor d (N.lxor c (shl32 a 3)) in
  let b := rotl32 b 1 in let d := rotl32 d 7 in
  let a := N.lxor a (N.lxor b d) in let c := N.lxor c (N.lxor d (shl32 b 7)) in
  [rotl32 a 5; b; rotl32 c 22; d].
Definition hm_Lon (s : list N) (q : nat * nat * nat * nat) : list N :=
  let '(i, j, k, l) := q in let r := hm_L (at_ s i) (at_ s j) (at_ s k) (at_ s l) in
  upd (upd (upd (upd s i (at_ r 0)) j (at_ r 1)) k (at_ r 2)) l (at_ r 3).
(** on the diagonals; Hamsi-512 then mixes inside the rows *)
Definition hm_quads (v : hmv) : list (nat * nat * nat * nat) :=
  match v with
  | HM256 => [(0, 5, 10, 15); (1, 6, 11, 12); (2, 7, 8, 13); (3, 4, 9, 14)]
  | HM512 => [(0, 9, 18, 27); (1, 10, 19, 28); (2, 11, 20, 29); (3, 12, 21, 30); (4, 13, 22, 31); (5, 14, 23, 24); (6, 15, 16, 25); (7, 8, 17, 26);
              (0, 2, 5, 7); (16, 19, 21, 22); (9, 11, 12, 14); (25, 26, 28, 31)]
  end.
Definition hm_diff (v : hmv) (s : list N) : list N := fold_left hm_Lon (hm_quads v) s.
Definition hm_round (v : hmv) (al : list N) (s : list N) (ctr : nat) : list N := hm_diff v (hm_subst v (hm_addc v al (N.of_nat ctr) s)).
Definition hm_P (v : hmv) (s : list N) : list N := fold_left (hm_round v hm_alpha) (seq 0 (match v with HM256 => 3 | HM512 => 6 end)) s.
Definition hm_Pf (v : hmv) (s : list N) : list N := fold_left (hm_round v hm_alphaf) (seq 0 (match v with HM256 => 6 | HM512 => 12 end)) s.
(** rows 0 and 2 *)
Definition hm_trunc (v : hmv) (s : list N) : list N := firstn (hm_r v) s ++ firstn (hm_r v) (skipn (2 * hm_r v) s).
Definition hm_compress (P : list N -> list N) (v : hmv) (h b : list N) : list N := hm_xors h (hm_trunc v (P (hm_concat v (hm_expand v b) h))).
(** ** The hash.  The initial values are the bytes of the address of the author (UTF-8): 32 bytes for 224, the next 32 for 256, the next 64 for 384,
    the next 64 for 512. *)
Definition hm_text : list N := [195; 150; 122; 103; 195; 188; 108; 32; 75; 195; 188; 195; 167; 195; 188; 107; 44; 32; 75; 97; 116; 104; 111; 108; 105; 101; 107; 101; 32; 85; 110; 105; 118; 101; 114; 115; 105; 116; 101; 105; 116; 32; 76; 101; 117; 118; 101; 110; 44; 32; 68; 101; 112; 97; 114; 116; 101; 109; 101; 110; 116; 32; 69; 108; 101; 107; 116; 114; 111; 116; 101; 99; 104; 110; 105; 101; 107; 44; 32; 67; 111; 109; 112; 117; 116; 101; 114; 32; 83; 101; 99; 117; 114; 105; 116; 121; 32; 97; 110; 100; 32; 73; 110; 100; 117; 115; 116; 114; 105; 97; 108; 32; 67; 114; 121; 112; 116; 111; 103; 114; 97; 112; 104; 121; 44; 32; 75; 97; 115; 116; 101; 101; 108; 112; 97; 114; 107; 32; 65; 114; 101; 110; 98; 101; 114; 103; 32; 49; 48; 44; 32; 98; 117; 115; 32; 50; 52; 52; 54; 44; 32; 66; 45; 51; 48; 48; 49; 32; 76; 101; 117; 118; 101; 110; 45; 72; 101; 118; 101; 114; 108; 101; 101; 44; 32; 66; 101; 108; 103; 105; 117; 109]%N.
Definition hm_iv (hs : nat) : list N :=
  map be_val (chunks 4 (match hs with 28 => firstn 32 hm_text | 32 => firstn 32 (skipn 32 hm_text) | 48 => firstn 64 (skipn 64 hm_text) | _ => skipn 128 hm_text end)).
(** a bit 1, zeros up to a whole number of blocks, then the length in bits in 8 bytes; the last block uses Pf *)
Definition hm_pad (v : hmv) (m : list N) : list N :=
  m ++ [128%N] ++ zeros ((hm_r v - (length m + 1) mod hm_r v) mod hm_r v).
Definition hm_hash (v : hmv) (hs : nat) (m : list N) : list N :=
  let bs := chunks (hm_r v) (hm_pad v m ++ be_bytes 8 (w64 (8 * N.of_nat (length m)))) in
  let h := fold_left (hm_compress (hm_P v) v) (removelast bs) (hm_iv hs) in
  let h := hm_compress (hm_Pf v) v h (last bs []) in
  flat_map (fun k => be_bytes 4 (at_ h k)) (match hs with 28 => seq 0 7 | 32 => seq 0 8 | 48 => [0; 1; 3; 4; 5; 6; 8; 9; 10; 12; 13; 15] | _ => seq 0 16 end).
(** Known answers (hamsi_test.go). *)
Example hamsi_kat224 : hm_hash HM256 28 (be_bytes 3 0x1F877C) = be_bytes 28 0x15a0b54528fe0f765b50bd340bfb36ae32f106e305aec3b2f42cbec5.
Proof. vm_compute. reflexivity. Qed.
Example hamsi_kat256 : hm_hash HM256 32 (be_bytes 1 0xcc) = be_bytes 32 0xac2dac2a6ddaf703b7a55745d61b1a16a3d1bf1f74caab265a2e5dbebcf60832.
Proof. vm_compute. reflexivity. Qed.
Example hamsi_kat384 : hm_hash HM512 48 (be_bytes 1 0xcc) = be_bytes 48 0x9b299c0b4a6838b5b0f53b0f9c0aea98bbc9c4c9481ec0ec68f344e696f8787de2e08a1404a038c83ac9e121136e8bb8.
Proof. vm_compute. reflexivity. Qed.
Example hamsi_kat512 : hm_hash HM512 64 (be_bytes 1 0xcc) = be_bytes 64 0x7da1be62a813a8e24d200671cffb1d0be79d2bc176ff0b163b11eded2414ef66261ff52c745383442bc7f1884d5166f26f41d335fc2d2fdb2f93b24b8d079265.
Proof. vm_compute. reflexivity. Qed.
