(** SpecBelt.v -- the block cipher and hash function of STB 34.101.31, written from the standard,
    independent of the Go code.  The table is the standard's substitution H. *)
From Coq Require Import List NArith Arith Bool.
From Verif Require Import Base SpecCmac.
Import ListNotations.

Definition belt_H : list N := [
  177; 148; 186; 200; 10; 8; 245; 59;
  54; 109; 0; 142; 88; 74; 93; 228;
  133; 4; 250; 157; 27; 182; 199; 172;
  37; 46; 114; 194; 2; 253; 206; 13;
  91; 227; 214; 18; 23; 185; 97; 129;
  254; 103; 134; 173; 113; 107; 137; 11;
  92; 176; 192; 255; 51; 195; 86; 184;
  53; 196; 5; 174; 216; 224; 127; 153;
  225; 43; 220; 26; 226; 130; 87; 236;
  112; 63; 204; 240; 149; 238; 141; 241;
  193; 171; 118; 56; 159; 230; 120; 202;
  247; 198; 248; 96; 213; 187; 156; 79;
  243; 60; 101; 123; 99; 124; 48; 106;
  221; 78; 167; 121; 158; 178; 61; 49;
  62; 152; 181; 110; 39; 211; 188; 207;
  89; 30; 24; 31; 76; 90; 183; 147;
  233; 222; 231; 44; 143; 12; 15; 166;
  45; 219; 73; 244; 111; 115; 150; 71;
  6; 7; 83; 22; 237; 36; 122; 55;
  57; 203; 163; 131; 3; 169; 139; 246;
  146; 189; 155; 28; 229; 209; 65; 1;
  84; 69; 251; 201; 94; 77; 14; 242;
  104; 32; 128; 170; 34; 125; 100; 47;
  38; 135; 249; 52; 144; 64; 85; 17;
  190; 50; 151; 19; 67; 252; 154; 72;
  160; 42; 136; 95; 25; 75; 9; 161;
  126; 205; 164; 208; 21; 68; 175; 140;
  165; 132; 80; 191; 102; 210; 232; 138;
  162; 215; 70; 82; 66; 168; 223; 179;
  105; 116; 197; 81; 235; 35; 41; 33;
  212; 239; 217; 180; 58; 98; 40; 117;
  145; 20; 16; 234; 119; 108; 218; 29]%N.

(** Words are little-endian; G_r substitutes the four bytes and rotates left by r. *)
Definition belt_Gr (r : N) (u : N) : N := rotl32 (le_val (map (fun b => at_ belt_H (N.to_nat b)) (le_bytes 4 u))) r.
(** Section 6.1.3: round i = 1..8 with the key words K1..K8 repeated cyclically. *)
Definition bst := (N * N * N * N)%type.
Definition belt_round (K : nat -> N) (s : bst) (i : nat) : bst :=
  let '(a, b, c, d) := s in
  let k j := K ((7 * i - j - 1) mod 8) in
  let b := N.lxor b (belt_Gr 5 (add32 a (k 6))) in
  let c := N.lxor c (belt_Gr 21 (add32 d (k 5))) in
  let a := sub32 a (belt_Gr 13 (add32 b (k 4))) in
  let e := N.lxor (belt_Gr 21 (add32 (add32 b c) (k 3))) (N.of_nat i) in
  let b := add32 b e in
  let c := sub32 c e in
  let d := add32 d (belt_Gr 13 (add32 c (k 2))) in
  let b := N.lxor b (belt_Gr 21 (add32 a (k 1))) in
  let c := N.lxor c (belt_Gr 5 (add32 d (k 0))) in
  let '(a, b) := (b, a) in let '(c, d) := (d, c) in let '(b, c) := (c, b) in (a, b, c, d).
Definition belt_F (key x : list N) : list N :=
  let K j := le_val (slice key (4 * j) (4 * j + 4)) in
  let '(a, b, c, d) := fold_left (belt_round K) (seq 1 8)
     (le_val (slice x 0 4), le_val (slice x 4 8), le_val (slice x 8 12), le_val (slice x 12 16)) in
  le_bytes 4 b ++ le_bytes 4 d ++ le_bytes 4 a ++ le_bytes 4 c.
(** Section 6.9: sigma1, sigma2 of u1 || u2 || u3 || u4, here x = u1 || u2 and h = u3 || u4. *)
Definition belt_s1 (x h : list N) : list N :=
  let v := xorblk (firstn 16 h) (skipn 16 h) in xorblk (belt_F x v) v.
Definition belt_s2 (x h : list N) : list N :=
  let t := belt_s1 x h in
  xorblk (belt_F (t ++ skipn 16 h) (firstn 16 x)) (firstn 16 x) ++
  xorblk (belt_F (xorblk t (repeat 255%N 16) ++ firstn 16 h) (skipn 16 x)) (skipn 16 x).
Definition belt_step (sh : list N * list N) (x : list N) : list N * list N :=
  let '(s, h) := sh in (xorblk s (belt_s1 x h), belt_s2 x h).
(** Zero padding to whole blocks. *)
Definition zpad (bs : nat) (m : list N) : list N := m ++ zeros ((bs - length m mod bs) mod bs).
Definition belt_hash (m : list N) : list N :=
  let '(s, h) := fold_left belt_step (chunks 32 (zpad 32 m)) (zeros 16, firstn 32 belt_H) in
  belt_s2 (le_bytes 16 (8 * N.of_nat (length m)) ++ s) h.
(** Table A.24 of the standard: the hash of the first 13 bytes of H. *)
Example belt_kat : belt_hash (firstn 13 belt_H) =
  be_bytes 32 0xABEF9725D4C5A83597A367D14494CC2542F20F659DDFECC961A3EC550CBA8C75.
Proof. vm_compute. reflexivity. Qed.
(** Table A.1: the block cipher (key: H[128..159], block H[0..15]). *)
Example belt_F_kat : belt_F (slice belt_H 128 160) (firstn 16 belt_H) = be_bytes 16 0x69CCA1C93557C9E3D66BC3E0FA88FA6E.
Proof. vm_compute. reflexivity. Qed.
