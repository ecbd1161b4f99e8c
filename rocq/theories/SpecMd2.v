(** SpecMd2.v -- MD2 as in RFC 1319 section 3 (with the checksum erratum),
    in the index-by-index style of the RFC's pseudocode; independent of the model. *)
From Coq Require Import List NArith Arith.
From Verif Require Import Base.
Import ListNotations.

(** The "pi" substitution table of RFC 1319 A.3. *)
Definition rfc1319_S : list N := [
  41; 46; 67; 201; 162; 216; 124; 1;
  61; 54; 84; 161; 236; 240; 6; 19;
  98; 167; 5; 243; 192; 199; 115; 140;
  152; 147; 43; 217; 188; 76; 130; 202;
  30; 155; 87; 60; 253; 212; 224; 22;
  103; 66; 111; 24; 138; 23; 229; 18;
  190; 78; 196; 214; 218; 158; 222; 73;
  160; 251; 245; 142; 187; 47; 238; 122;
  169; 104; 121; 145; 21; 178; 7; 63;
  148; 194; 16; 137; 11; 34; 95; 33;
  128; 127; 93; 154; 90; 144; 50; 39;
  53; 62; 204; 231; 191; 247; 151; 3;
  255; 25; 48; 179; 72; 165; 181; 209;
  215; 94; 146; 42; 172; 86; 170; 198;
  79; 184; 56; 210; 150; 164; 125; 182;
  118; 252; 107; 226; 156; 116; 4; 241;
  69; 157; 112; 89; 100; 113; 135; 32;
  134; 91; 207; 101; 230; 45; 168; 2;
  27; 96; 37; 173; 174; 176; 185; 246;
  28; 70; 97; 105; 52; 64; 126; 15;
  85; 71; 163; 35; 221; 81; 175; 58;
  195; 92; 249; 206; 186; 197; 234; 38;
  44; 83; 13; 110; 133; 40; 132; 9;
  211; 223; 205; 244; 65; 129; 77; 82;
  106; 220; 55; 200; 108; 193; 171; 250;
  36; 225; 123; 8; 12; 189; 177; 74;
  120; 136; 149; 139; 227; 99; 232; 109;
  233; 203; 213; 254; 59; 0; 29; 57;
  242; 239; 183; 14; 102; 88; 208; 228;
  166; 119; 114; 248; 235; 117; 75; 10;
  49; 68; 80; 180; 143; 237; 31; 26;
  219; 153; 141; 51; 159; 17; 131; 20]%N.


Definition rfc_S (i : N) : N := at_ rfc1319_S (N.to_nat i).

(** 3.1 Append padding bytes: i bytes of value i. *)
Definition rfc1319_pad (m : list N) : list N :=
  let p := 16 - length m mod 16 in m ++ repeat (N.of_nat p) p.

(** 3.2 Checksum: for j = 0..15, C[j] := C[j] xor S[M[i*16+j] xor L]; L := C[j]. *)
Definition rfc1319_ck_block (CL : list N * N) (blk : list N) : list N * N :=
  fold_left (fun '(C, L) j =>
      let v := N.lxor (at_ C j) (rfc_S (N.lxor (at_ blk j) L)) in (upd C j v, v)) (seq 0 16) CL.
Definition rfc1319_checksum (m : list N) : list N :=
  fst (fold_left rfc1319_ck_block (chunks 16 m) (zeros 16, 0%N)).

(** 3.4 Process one block into X[0..47]. *)
Definition rfc1319_load (X blk : list N) : list N :=
  fold_left (fun X j =>
      let X' := upd X (16 + j) (at_ blk j) in
      upd X' (32 + j) (N.lxor (at_ X' (16 + j)) (at_ X' j))) (seq 0 16) X.
Definition rfc1319_sub (Xt : list N * N) (k : nat) : list N * N :=
  let v := N.lxor (at_ (fst Xt) k) (rfc_S (snd Xt)) in (upd (fst Xt) k v, v).
Definition rfc1319_pass (X : list N) (t : N) : list N * N :=
  fold_left rfc1319_sub (seq 0 48) (X, t).
Definition rfc1319_round (Xt : list N * N) (j : nat) : list N * N :=
  let '(X', t') := rfc1319_pass (fst Xt) (snd Xt) in (X', (t' + N.of_nat j) mod 256)%N.
Definition rfc1319_compress (X blk : list N) : list N :=
  fst (fold_left rfc1319_round (seq 0 18) (rfc1319_load X blk, 0%N)).

Definition rfc1319_md2 (m : list N) : list N :=
  let m1 := rfc1319_pad m in
  let m2 := m1 ++ rfc1319_checksum m1 in
  firstn 16 (fold_left rfc1319_compress (chunks 16 m2) (zeros 48)).
