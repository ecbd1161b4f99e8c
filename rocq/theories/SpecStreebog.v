(** SpecStreebog.v -- GOST R 34.11-2012 (Streebog), RFC 6986, on 64-byte vectors with the least
    significant byte first; and HMAC (RFC 2104), KDF_GOSTR3411_2012_256 (RFC 7836) and the two key
    trees built on it.  Independent of /repo. *)
From Coq Require Import String List NArith Arith.
From Verif Require Import Base.
Import ListNotations.

(** The substitution pi'. *)
Definition st_pi : list N := [
  252; 238; 221; 17; 207; 110; 49; 22; 251; 196; 250; 218; 35; 197; 4; 77;
  233; 119; 240; 219; 147; 46; 153; 186; 23; 54; 241; 187; 20; 205; 95; 193;
  249; 24; 101; 90; 226; 92; 239; 33; 129; 28; 60; 66; 139; 1; 142; 79;
  5; 132; 2; 174; 227; 106; 143; 160; 6; 11; 237; 152; 127; 212; 211; 31;
  235; 52; 44; 81; 234; 200; 72; 171; 242; 42; 104; 162; 253; 58; 206; 204;
  181; 112; 14; 86; 8; 12; 118; 18; 191; 114; 19; 71; 156; 183; 93; 135;
  21; 161; 150; 41; 16; 123; 154; 199; 243; 145; 120; 111; 157; 158; 178; 177;
  50; 117; 25; 61; 255; 53; 138; 126; 109; 84; 198; 128; 195; 189; 13; 87;
  223; 245; 36; 169; 62; 168; 67; 201; 215; 121; 214; 246; 124; 34; 185; 3;
  224; 15; 236; 222; 122; 148; 176; 188; 220; 232; 40; 80; 78; 51; 10; 74;
  167; 151; 96; 115; 30; 0; 98; 68; 26; 184; 56; 130; 100; 159; 38; 65;
  173; 69; 70; 146; 39; 94; 85; 47; 140; 163; 165; 125; 105; 213; 149; 59;
  7; 88; 179; 64; 134; 172; 29; 247; 48; 55; 107; 228; 136; 217; 231; 137;
  225; 27; 131; 73; 76; 63; 248; 254; 141; 83; 170; 144; 202; 216; 133; 97;
  32; 113; 103; 164; 45; 43; 9; 91; 203; 155; 37; 208; 190; 229; 108; 82;
  89; 166; 116; 210; 230; 244; 180; 192; 209; 102; 175; 194; 57; 75; 99; 182]%N.
(** The rows of the matrix A, row 0 first (it multiplies the most significant bit). *)
Definition st_A : list N := [
  0x8e20faa72ba0b470; 0x47107ddd9b505a38; 0xad08b0e0c3282d1c; 0xd8045870ef14980e;
  0x6c022c38f90a4c07; 0x3601161cf205268d; 0x1b8e0b0e798c13c8; 0x83478b07b2468764;
  0xa011d380818e8f40; 0x5086e740ce47c920; 0x2843fd2067adea10; 0x14aff010bdd87508;
  0x0ad97808d06cb404; 0x05e23c0468365a02; 0x8c711e02341b2d01; 0x46b60f011a83988e;
  0x90dab52a387ae76f; 0x486dd4151c3dfdb9; 0x24b86a840e90f0d2; 0x125c354207487869;
  0x092e94218d243cba; 0x8a174a9ec8121e5d; 0x4585254f64090fa0; 0xaccc9ca9328a8950;
  0x9d4df05d5f661451; 0xc0a878a0a1330aa6; 0x60543c50de970553; 0x302a1e286fc58ca7;
  0x18150f14b9ec46dd; 0x0c84890ad27623e0; 0x0642ca05693b9f70; 0x0321658cba93c138;
  0x86275df09ce8aaa8; 0x439da0784e745554; 0xafc0503c273aa42a; 0xd960281e9d1d5215;
  0xe230140fc0802984; 0x71180a8960409a42; 0xb60c05ca30204d21; 0x5b068c651810a89e;
  0x456c34887a3805b9; 0xac361a443d1c8cd2; 0x561b0d22900e4669; 0x2b838811480723ba;
  0x9bcf4486248d9f5d; 0xc3e9224312c8c1a0; 0xeffa11af0964ee50; 0xf97d86d98a327728;
  0xe4fa2054a80b329c; 0x727d102a548b194e; 0x39b008152acb8227; 0x9258048415eb419d;
  0x492c024284fbaec0; 0xaa16012142f35760; 0x550b8e9e21f7a530; 0xa48b474f9ef5dc18;
  0x70a6a56e2440598e; 0x3853dc371220a247; 0x1ca76e95091051ad; 0x0edd37c48a08a6d8;
  0x07e095624504536c; 0x8d70c431ac02a736; 0xc83862965601dd1b; 0x641c314b2b8ee083]%N.
(** The iteration constants C_1 .. C_12 (512-bit numbers). *)
Definition st_C : list N := [
  0xb1085bda1ecadae9ebcb2f81c0657c1f2f6a76432e45d016714eb88d7585c4fc4b7ce09192676901a2422a08a460d31505767436cc744d23dd806559f2a64507;
  0x6fa3b58aa99d2f1a4fe39d460f70b5d7f3feea720a232b9861d55e0f16b501319ab5176b12d699585cb561c2db0aa7ca55dda21bd7cbcd56e679047021b19bb7;
  0xf574dcac2bce2fc70a39fc286a3d843506f15e5f529c1f8bf2ea7514b1297b7bd3e20fe490359eb1c1c93a376062db09c2b6f443867adb31991e96f50aba0ab2;
  0xef1fdfb3e81566d2f948e1a05d71e4dd488e857e335c3c7d9d721cad685e353fa9d72c82ed03d675d8b71333935203be3453eaa193e837f1220cbebc84e3d12e;
  0x4bea6bacad4747999a3f410c6ca923637f151c1f1686104a359e35d7800fffbdbfcd1747253af5a3dfff00b723271a167a56a27ea9ea63f5601758fd7c6cfe57;
  0xae4faeae1d3ad3d96fa4c33b7a3039c02d66c4f95142a46c187f9ab49af08ec6cffaa6b71c9ab7b40af21f66c2bec6b6bf71c57236904f35fa68407a46647d6e;
  0xf4c70e16eeaac5ec51ac86febf240954399ec6c7e6bf87c9d3473e33197a93c90992abc52d822c3706476983284a05043517454ca23c4af38886564d3a14d493;
  0x9b1f5b424d93c9a703e7aa020c6e41414eb7f8719c36de1e89b4443b4ddbc49af4892bcb929b069069d18d2bd1a5c42f36acc2355951a8d9a47f0dd4bf02e71e;
  0x378f5a541631229b944c9ad8ec165fde3a7d3a1b258942243cd955b7e00d0984800a440bdbb2ceb17b2b8a9aa6079c540e38dc92cb1f2a607261445183235adb;
  0xabbedea680056f52382ae548b2e4f3f38941e71cff8a78db1fffe18a1b3361039fe76702af69334b7a1e6c303b7652f43698fad1153bb6c374b4c7fb98459ced;
  0x7bcd9ed0efc889fb3002c6cd635afe94d8fa6bbbebab076120018021148466798a1d71efea48b9caefbacd1d7d476e98dea2594ac06fd85d6bcaa4cd81f32d1b;
  0x378ee767f11631bad21380b00449b17acda43c32bcdf1d77f82012d430219f9b5d80ef9d1891cc86e71da4aa88e12852faf417d5d9b21b9948bc924af11bd720]%N.

(** S: pi on every byte.  P: transposition of the 8x8 byte matrix.  L: every 64-bit row times A. *)
Definition st_S (x : list N) : list N := map (fun b => at_ st_pi (N.to_nat b)) x.
Definition st_P (x : list N) : list N := map (fun j => at_ x (8 * (j mod 8) + j / 8)) (seq 0 64).
Definition st_mulA (v : N) : N :=
  fold_left (fun acc i => if N.testbit v (N.of_nat i) then N.lxor acc (at_ st_A (63 - i)) else acc) (seq 0 64) 0%N.
Definition st_L (x : list N) : list N := concat (map (fun r => le_bytes 8 (st_mulA (le_val r))) (chunks 8 x)).
Definition st_LPS (x : list N) : list N := st_L (st_P (st_S x)).
Definition st_xor (a b : list N) : list N := map (fun i => N.lxor (at_ a i) (at_ b i)) (seq 0 64).
Definition st_num (n : N) : list N := le_bytes 64 n.

(** E(K, m) = X[K_13] LPS X[K_12] ... LPS X[K_1] (m),  K_(i+1) = LPS (K_i xor C_i). *)
Definition st_E (k m : list N) : list N :=
  let '(k, m) := fold_left (fun '(k, m) c => (st_LPS (st_xor k (st_num c)), st_LPS (st_xor k m))) st_C (k, m) in
  st_xor k m.
(** g_N(h, m) = E(LPS(h xor N), m) xor h xor m *)
Definition st_g (n : N) (h m : list N) : list N :=
  st_xor (st_xor (st_E (st_LPS (st_xor h (st_num n))) m) h) m.

(** The addition used for the checksum: modulo 2^512. *)
Definition st_add (a b : list N) : list N := le_bytes 64 (le_val a + le_val b).

Section Hash.
(** The construction, with the checksum addition as a parameter (the standard uses [st_add]). *)
Variable add : list N -> list N -> list N.
Definition st_step (s : list N * N * list N) (m : list N) : list N * N * list N :=
  let '(h, n, sigma) := s in (st_g n h m, (n + 512)%N, add sigma m).
Definition st_hash_with (size : nat) (msg : list N) : list N :=
  let iv := repeat (if size =? 32 then 1%N else 0%N) 64 in
  let '(h, n, sigma) := fold_left st_step (chunks 64 msg) (iv, 0%N, zeros 64) in
  let r := rest 64 msg in
  let m := r ++ 1%N :: zeros (63 - length r) in
  let h := st_g n h m in
  let n := (n + 8 * N.of_nat (length r))%N in
  let sigma := add sigma m in
  let h := st_g 0 h (st_num n) in
  let h := st_g 0 h sigma in
  skipn (64 - size) h.
End Hash.
Definition streebog256 := st_hash_with st_add 32.
Definition streebog512 := st_hash_with st_add 64.

(** Test vectors (RFC 6986 M1; streebog_test.go; gost34112012/hash_test.go). *)
Definition st_M1 : list N := hex "303132333435363738393031323334353637383930313233343536373839303132333435363738393031323334353637383930313233343536373839303132".
Definition st_M2 : list N := hex "d1e520e2e5f2f0e82c20d1f2f0e8e1eee6e820e2edf3f6e82c20e2e5fef2fa20f120eceef0ff20f1f2f0e5ebe0ece820ede020f5f0e0e1f0fbff20efebfaeafb20c8e3eef0e5e2fb".
Example st_kat1 : streebog256 st_M1 = hex "9d151eefd8590b89daa6ba6cb74af9275dd051026bb149a452fd84e5e57b5500".
Proof. vm_compute. reflexivity. Qed.
Example st_kat2 : streebog512 st_M2 = hex "1e88e62226bfca6f9994f1f2d51569e0daf8475a3b0fe61a5300eee46d961376035fe83549ada2b8620fcd7c496ce5b33f0cb9dddc2b6460143b03dabac9fb28".
Proof. vm_compute. reflexivity. Qed.

(** HMAC with block size 64. *)
Definition hmac_spec (H : list N -> list N) (key msg : list N) : list N :=
  let k := if 64 <? length key then H key else key in
  let k := k ++ zeros (64 - length k) in
  H (map (fun b => N.lxor b 0x5c) k ++ H (map (fun b => N.lxor b 0x36) k ++ msg)).
(** KDF_GOSTR3411_2012_256: HMAC(K, 01 | label | 00 | seed | 01 00). *)
Definition kdf_spec (key label seed : list N) : list N :=
  hmac_spec streebog256 key ([1%N] ++ label ++ [0%N] ++ seed ++ [1%N; 0%N]).
(** TLSTREE (RFC 9189 8.1): three levels, each keyed by the sequence number masked with C_i. *)
Definition tlstree_spec (c1 c2 c3 : N) (root : list N) (i : N) : list N :=
  let lvl l k c := kdf_spec k l (be_bytes 8 (N.land i c)) in
  lvl (bytes_of_string "level3") (lvl (bytes_of_string "level2") (lvl (bytes_of_string "level1") root c1) c2) c3.
(** ESPTREE (RFC 9227): levels keyed by i1 (as two bytes), i2, i3. *)
Definition esptree_spec (root : list N) (i1 : N) (i2 i3 : list N) : list N :=
  kdf_spec (kdf_spec (kdf_spec root (bytes_of_string "level1") [0%N; i1]) (bytes_of_string "level2") i2) (bytes_of_string "level3") i3.

(** A faulty checksum addition: 64-bit words with a carry that is computed from the two words alone,
    ignoring the carry coming in (so a carry is lost when the words add up to 2^64 - 1). *)
Fixpoint lossy_words (c : N) (a b : list N) : list N :=
  match a, b with
  | x :: a, y :: b => ((x + y + c) mod 2 ^ 64)%N :: lossy_words (if (2 ^ 64 <=? x + y)%N then 1%N else 0%N) a b
  | _, _ => []
  end.
Definition words64 (x : list N) : list N := map le_val (chunks 8 x).
Definition lossy_add (a b : list N) : list N :=
  concat (map (le_bytes 8) (lossy_words 0 (words64 a) (words64 b))).
(** no word position where a carry comes in and the two words add up to exactly 2^64 - 1 *)
Fixpoint no_lost_carry (c : N) (a b : list N) : Prop :=
  match a, b with
  | x :: a, y :: b => (x + y + c <> 2 ^ 64 \/ c = 0)%N /\ no_lost_carry (if (2 ^ 64 <=? x + y)%N then 1%N else 0%N) a b
  | _, _ => True
  end.
(** ... in any of the checksum additions made while hashing the blocks [ms] starting from [sigma] *)
Fixpoint no_lost_carries (sigma : list N) (ms : list (list N)) : Prop :=
  match ms with
  | [] => True
  | m :: ms => no_lost_carry 0 (words64 sigma) (words64 m) /\ no_lost_carries (st_add sigma m) ms
  end.
(** the blocks whose sum is the checksum: the whole blocks and the padded rest *)
Definition st_blocks (msg : list N) : list (list N) :=
  chunks 64 msg ++ [rest 64 msg ++ 1%N :: zeros (63 - length (rest 64 msg))].
