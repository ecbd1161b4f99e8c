(** SpecFugue.v -- Fugue-224, -256, -384 and -512, written from "The Hash Function Fugue" (Halevi, Hall, Jutla; SHA-3 candidate, 2009).
    A state is the list of its 4-byte columns, each given by its big-endian value (row 0 is the most significant byte). *)
From Coq Require Import List NArith Arith.
Require Import Verif.Base Verif.SpecAes.
Import ListNotations.
Local Open Scope nat_scope.
(** ROR rc: column i moves to position i + rc, around. *)
Definition fg_rot (rc : nat) (S : list N) : list N := skipn (length S - rc) S ++ firstn (length S - rc) S.
(** S[d] += S[s] *)
Definition fg_add (S : list N) (d s : nat) : list N := upd S d (N.lxor (at_ S d) (at_ S s)).
Definition fg_adds (S : list N) (ds : list (nat * nat)) : list N := fold_left (fun S p => fg_add S (fst p) (snd p)) ds S.
(** SMIX on four columns: the S-box of AES on the 16 bytes, then Super-Mix: with the matrix M below and the substituted bytes s(i,j),
    the byte (i,j) becomes the entry (i,j) of M * s plus the entry of (the row sums of s without the diagonal entry) * M^T, and then row i is
    rotated left by i places. *)
Definition fg_M (i j : nat) : N := nth j (nth i [[1; 4; 7; 1]; [1; 1; 4; 7]; [7; 1; 1; 4]; [4; 7; 1; 1]]%N []) 0%N.
Definition fg_supermix (s : nat -> nat -> N) (i j : nat) : N :=
  N.lxor (fold_left (fun a k => N.lxor a (gf_mul (fg_M i k) (s k j))) [0; 1; 2; 3] 0%N)
         (gf_mul (fg_M j i) (fold_left (fun a k => if k =? i then a else N.lxor a (s i k)) [0; 1; 2; 3] 0%N)).
Definition fg_smix (w : list N) : list N :=
  let s := fun i j => aes_sbox (nth i (be_bytes 4 (at_ w j)) 0%N) in
  map (fun j => be_val (map (fun i => fg_supermix s i ((j + i) mod 4)) [0; 1; 2; 3])) [0; 1; 2; 3].
(** on the first four columns *)
Definition fg_SMIX (sm : list N -> list N) (S : list N) : list N := sm (firstn 4 S) ++ skipn 4 S.
Inductive fgv : Type := FG2 | FG384 | FG512.
(** the number of columns *)
Definition fg_n (v : fgv) : nat := match v with FG2 => 30 | _ => 36 end.
Definition fg_CMIX (v : fgv) (S : list N) : list N :=
  fg_adds S (match v with FG2 => [(0, 4); (1, 5); (2, 6); (15, 4); (16, 5); (17, 6)] | _ => [(0, 4); (1, 5); (2, 6); (18, 4); (19, 5); (20, 6)] end).
(** TIX: the input of a word *)
Definition fg_TIX (v : fgv) (S : list N) (w : N) : list N :=
  match v with
  | FG2 => fg_adds (upd (fg_add S 10 0) 0 w) [(8, 0); (1, 24)]
  | FG384 => fg_adds (upd (fg_add S 16 0) 0 w) [(8, 0); (1, 27); (4, 30)]
  | FG512 => fg_adds (upd (fg_add S 22 0) 0 w) [(8, 0); (1, 24); (4, 27); (7, 30)]
  end.
(** The subrounds: ROR3, CMIX, SMIX; [sm] is the map on four columns. *)
Definition fg_subround (sm : list N -> list N) (v : fgv) (S : list N) : list N := fg_SMIX sm (fg_CMIX v (fg_rot 3 S)).
Fixpoint fg_iter (n : nat) (f : list N -> list N) (S : list N) : list N := match n with O => S | Datatypes.S n => fg_iter n f (f S) end.
Definition fg_round (sm : list N -> list N) (v : fgv) (S : list N) (w : N) : list N :=
  fg_iter (match v with FG2 => 2 | FG384 => 3 | FG512 => 4 end) (fg_subround sm v) (fg_TIX v S w).
(** The final rounds: G1 (subrounds), then 13 times G2 (columns += S0; ROR; SMIX), then the last additions. *)
Definition fg_g2step (sm : list N -> list N) (S : list N) (st : list nat * nat) : list N :=
  fg_SMIX sm (fg_rot (snd st) (fg_adds S (map (fun d => (d, 0)) (fst st)))).
Definition fg_g2 (v : fgv) : list (list nat * nat) :=
  match v with
  | FG2 => [([4; 15], 15); ([4; 16], 14)]
  | FG384 => [([4; 12; 24], 12); ([4; 13; 24], 12); ([4; 13; 25], 11)]
  | FG512 => [([4; 9; 18; 27], 9); ([4; 10; 18; 27], 9); ([4; 10; 19; 27], 9); ([4; 10; 19; 28], 8)]
  end.
Definition fg_G (sm : list N -> list N) (v : fgv) (S : list N) : list N :=
  let S := fg_iter (match v with FG2 => 10 | FG384 => 18 | FG512 => 32 end) (fg_subround sm v) S in
  let S := fg_iter 13 (fun S => fold_left (fg_g2step sm) (fg_g2 v) S) S in
  fg_adds S (map (fun d => (d, 0)) (match v with FG2 => [4; 15] | FG384 => [4; 12; 24] | FG512 => [4; 9; 18; 27] end)).
(** the columns of the output *)
Definition fg_outcols (v : fgv) (hs : nat) : list nat :=
  match v with
  | FG2 => [1; 2; 3; 4; 15; 16; 17] ++ (if hs =? 32 then [18] else [])
  | FG384 => [1; 2; 3; 4; 12; 13; 14; 15; 24; 25; 26; 27]
  | FG512 => [1; 2; 3; 4; 9; 10; 11; 12; 18; 19; 20; 21; 27; 28; 29; 30]
  end.
(** The message is extended with zero bytes to a whole number of words and then with its length in bits (8 bytes, big-endian).
    The initial value of the size is at the end of the state. *)
Definition fg_iv (hs : nat) : list N :=
  match hs with
  | 28 => [0xf4c9120d; 0x6286f757; 0xee39e01c; 0xe074e3cb; 0xa1127c62; 0x9a43d215; 0xbd8d679a]%N
  | 32 => [0xe952bdde; 0x6671135f; 0xe0d4f668; 0xd2b0b594; 0xf96c621d; 0xfbf929de; 0x9149e899; 0x34f8c248]%N
  | 48 => [0xaa61ec0d; 0x31252e1f; 0xa01db4c7; 0x00600985; 0x215ef44a; 0x741b5e9c; 0xfa693e9a; 0x473eb040; 0xe502ae8a; 0xa99c25e0; 0xbc95517c; 0x5c1095a1]%N
  | _ => [0x8807a57e; 0xe616af75; 0xc5d3e4db; 0xac9ab027; 0xd915f117; 0xb6eecc54; 0x06e8020b; 0x4a92efd1; 0xaac6e2c9; 0xddb21398; 0xcae65838; 0x437f203f; 0x25ea78e7; 0x951fddd6; 0xda6ed11d; 0xe13e3567]%N
  end.
Definition fg_S0 (v : fgv) (hs : nat) : list N := zeros (fg_n v - length (fg_iv hs)) ++ fg_iv hs.
Definition fg_pad (m : list N) : list N := m ++ zeros ((4 - length m mod 4) mod 4) ++ be_bytes 8 (w64 (8 * N.of_nat (length m))).
Definition fg_hash (v : fgv) (hs : nat) (m : list N) : list N :=
  let S := fold_left (fg_round fg_smix v) (map be_val (chunks 4 (fg_pad m))) (fg_S0 v hs) in
  let S := fg_G fg_smix v S in
  flat_map (fun k => be_bytes 4 (at_ S k)) (fg_outcols v hs).
(** Known answers (fugue_test.go). *)
Example fugue_kat224 : fg_hash FG2 28 (be_bytes 6 0xc6f50bb74e29) = be_bytes 28 0x74b3eaf5370935cc997df0ff6b196906f582a951b546a3d38710e3c5.
Proof. vm_compute. reflexivity. Qed.
Example fugue_kat256 : fg_hash FG2 32 (be_bytes 1 0xcc) = be_bytes 32 0xb894eb2df58162f6c48d495f156e73bd086dd13db407ee38781177bb23d129bb.
Proof. vm_compute. reflexivity. Qed.
Example fugue_kat384 : fg_hash FG384 48 (be_bytes 1 0xcc) = be_bytes 48 0x436868cd6804b803dac432ed561bb40f91f624a10f2a368702359841cfda6909115628ca4977b3f8063a3b87fc7a0984.
Proof. vm_compute. reflexivity. Qed.
Example fugue_kat512 : fg_hash FG512 64 (be_bytes 1 0xcc) = be_bytes 64 0x2ef4115479b060fc64a4d6f6913a39e326afc81deb4e39d71c573df5ed132200e7c784bab1804930cad16847f16cbda59a865bbd928ebc17d33689fef233c10b.
Proof. vm_compute. reflexivity. Qed.
