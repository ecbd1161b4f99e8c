(** SpecWhirl.v -- Whirlpool, Whirlpool-T and Whirlpool-0, from the specification documents (Barreto, Rijmen).
    A state is the list of its 8 rows, each a list of 8 bytes.  Uses nothing of the model. *)
From Coq Require Import List NArith Arith.
Require Import Verif.Base Verif.Buf.
Import ListNotations.

(** GF(2^8) = GF(2)[x]/(x^8+x^4+x^3+x^2+1). *)
Definition wh_xtime (a : N) : N := if N.testbit a 7 then N.lxor (N.land (2 * a) 0xff) 0x1d else (2 * a)%N.
Fixpoint wh_mul_aux (k : nat) (a b : N) : N :=
  match k with O => 0%N | S k' => N.lxor (if N.odd b then a else 0%N) (wh_mul_aux k' (wh_xtime a) (N.div2 b)) end.
Definition wh_mul (a b : N) : N := wh_mul_aux 8 a b.
(** The S-box of Whirlpool and Whirlpool-T, from the 4-bit boxes E and R. *)
Definition wh_E : list N := [1; 11; 9; 12; 13; 6; 15; 3; 14; 8; 7; 4; 10; 2; 5; 0]%N.
Definition wh_Einv : list N := [15; 0; 13; 7; 11; 14; 5; 10; 9; 2; 12; 1; 3; 4; 8; 6]%N.
Definition wh_R : list N := [7; 12; 11; 13; 14; 4; 9; 15; 6; 3; 8; 10; 2; 5; 1; 0]%N.
Definition wh_at (l : list N) (x : N) : N := at_ l (N.to_nat x).
Definition wh_sbox (x : N) : N :=
  let u := wh_at wh_E (N.shiftr x 4) in
  let l := wh_at wh_Einv (N.land x 15) in
  let r := wh_at wh_R (N.lxor u l) in
  N.lor (N.shiftl (wh_at wh_E (N.lxor u r)) 4) (wh_at wh_Einv (N.lxor l r)).
(** The S-box of Whirlpool-0 was generated pseudo-randomly and is a table in its specification too. *)
Definition wh_sbox0_tab : list N := [
  104; 208; 235; 43; 72; 157; 106; 228; 227; 163; 86; 129; 125; 241; 133; 158;
  44; 142; 120; 202; 23; 169; 97; 213; 93; 11; 140; 60; 119; 81; 34; 66;
  63; 84; 65; 128; 204; 134; 179; 24; 46; 87; 6; 98; 244; 54; 209; 107;
  27; 101; 117; 16; 218; 73; 38; 249; 203; 102; 231; 186; 174; 80; 82; 171;
  5; 240; 13; 115; 59; 4; 32; 254; 221; 245; 180; 95; 10; 181; 192; 160;
  113; 165; 45; 96; 114; 147; 57; 8; 131; 33; 92; 135; 177; 224; 0; 195;
  18; 145; 138; 2; 28; 230; 69; 194; 196; 253; 191; 68; 161; 76; 51; 197;
  132; 35; 124; 176; 37; 21; 53; 105; 255; 148; 77; 112; 162; 175; 205; 214;
  108; 183; 248; 9; 243; 103; 164; 234; 236; 182; 212; 210; 20; 30; 225; 36;
  56; 198; 219; 75; 122; 58; 222; 94; 223; 149; 252; 170; 215; 206; 7; 15;
  61; 88; 154; 152; 156; 242; 167; 17; 126; 139; 67; 3; 226; 220; 229; 178;
  78; 199; 109; 233; 39; 64; 216; 55; 146; 143; 1; 29; 83; 62; 89; 193;
  79; 50; 22; 250; 116; 251; 99; 159; 52; 26; 42; 90; 141; 201; 207; 246;
  144; 40; 136; 155; 49; 14; 189; 74; 232; 150; 166; 12; 200; 121; 188; 190;
  239; 110; 70; 151; 91; 237; 25; 217; 172; 153; 168; 41; 100; 31; 173; 85;
  19; 187; 247; 111; 185; 71; 47; 238; 184; 123; 137; 48; 211; 127; 118; 130]%N.
Definition wh_sbox0 (x : N) : N := wh_at wh_sbox0_tab x.

(** S-box and first row of the circulant diffusion matrix. *)
Record wh_par : Type := mkwh { wh_s : N -> N; wh_cir : list N }.
Definition whirlpool_final : wh_par := mkwh wh_sbox [1; 1; 4; 1; 8; 5; 2; 9]%N.
Definition whirlpool_T : wh_par := mkwh wh_sbox [1; 1; 3; 1; 5; 8; 9; 5]%N.
Definition whirlpool_0 : wh_par := mkwh wh_sbox0 [1; 1; 3; 1; 5; 8; 9; 5]%N.

Section Spec.
Variable p : wh_par.
Definition wh_e (st : list (list N)) (i j : nat) : N := at_ (nth i st []) j.
Definition wh_build (f : nat -> nat -> N) : list (list N) := map (fun i => map (f i) (seq 0 8)) (seq 0 8).
(** gamma: the S-box on every byte; pi: column j moved down by j; theta: every row times the matrix. *)
Definition wh_gamma (st : list (list N)) : list (list N) := wh_build (fun i j => wh_s p (wh_e st i j)).
Definition wh_pi (st : list (list N)) : list (list N) := wh_build (fun i j => wh_e st ((i + 8 - j) mod 8) j).
Definition wh_theta (st : list (list N)) : list (list N) :=
  wh_build (fun i j => fold_left N.lxor (map (fun k => wh_mul (at_ (wh_cir p) ((j + 8 - k) mod 8)) (wh_e st i k)) (seq 0 8)) 0%N).
Definition wh_sigma (k st : list (list N)) : list (list N) := wh_build (fun i j => N.lxor (wh_e st i j) (wh_e k i j)).
Definition wh_rho (k st : list (list N)) : list (list N) := wh_sigma k (wh_theta (wh_pi (wh_gamma st))).
(** Round constants: the first row is the next 8 entries of the S-box. *)
Definition wh_rc (r : nat) : list (list N) := wh_build (fun i j => if i =? 0 then wh_s p (N.of_nat (8 * (r - 1) + j)) else 0%N).
(** The block cipher W: the key schedule runs along with the rounds. *)
Definition wh_W (K st : list (list N)) : list (list N) :=
  snd (fold_left (fun '(K, st) r => let K := wh_rho (wh_rc r) K in (K, wh_rho K st)) (seq 1 10) (K, wh_sigma K st)).
(** The compression function (Miyaguchi-Preneel) and the hash. *)
Definition wh_f (H : list (list N)) (m : list N) : list (list N) :=
  let m := chunks 8 m in wh_sigma (wh_sigma (wh_W H m) H) m.
Definition wh_pad (m : list N) : list N := md_pad 64 0x80 (be_bytes 32 (8 * N.of_nat (length m))) m.
Definition wh_hash (m : list N) : list N := concat (fold_left wh_f (chunks 64 (wh_pad m)) (wh_build (fun _ _ => 0%N))).
End Spec.
