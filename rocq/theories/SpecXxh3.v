(** SpecXxh3.v -- XXH3 with 64 and with 128 bits of output (Collet, "xxHash fast digest algorithm", section XXH3) on whole messages.
    Words are read little-endian. *)
From Coq Require Import String List NArith Arith.
From Verif Require Import Base.
Import ListNotations.
Definition X3P32_1 : N := 0x9E3779B1. Definition X3P32_2 : N := 0x85EBCA77. Definition X3P32_3 : N := 0xC2B2AE3D.
Definition X3P64_1 : N := 0x9E3779B185EBCA87. Definition X3P64_2 : N := 0xC2B2AE3D27D4EB4F. Definition X3P64_3 : N := 0x165667B19E3779F9.
Definition X3P64_4 : N := 0x85EBCA77C2B2AE63. Definition X3P64_5 : N := 0x27D4EB2F165667C5.
Definition X3MX1 : N := 0x165667919E3779F9. Definition X3MX2 : N := 0x9FB21C651E98DF25.
(** the default secret *)
Definition x3_secret : list N := hex (
  "b8fe6c3923a44bbe7c01812cf721ad1cded46de9839097db7240a4a4b7b3671f" ++
  "cb79e64eccc0e578825ad07dccff7221b8084674f743248ee03590e6813a264c" ++
  "3c2852bb91c300cb88d0658b1b532ea371644897a20df94e3819ef46a9deacd8" ++
  "a8fa763fe39c343ff9dcbbc7c70b4f1d8a51e04bcdb45931c89f7ec9d9787364" ++
  "eac5ac8334d3ebc3c581a0fffa1363eb170ddd51b7f0da49d316552629d4689e" ++
  "2b16be587d47a1fc8ff8b8d17ad031ce45cb3a8f95160428afd7fbcabb4b407e")%string.
(** words at a byte offset *)
Definition x3_rd4 (l : list N) (o : nat) : N := le_val (slice l o (o + 4)).
Definition x3_rd8 (l : list N) (o : nat) : N := le_val (slice l o (o + 8)).
(** the bytes of a k-byte word reversed *)
Definition x3_bswap (k : nat) (x : N) : N := be_val (le_bytes k x).
Definition x3_shx (x n : N) : N := N.lxor x (N.shiftr x n).
(** the avalanche of XXH64 and the one of XXH3 *)
Definition x3_av64 (h : N) : N :=
  let h := mul64 (x3_shx h 33) X3P64_2 in let h := mul64 (x3_shx h 29) X3P64_3 in x3_shx h 32.
Definition x3_av (h : N) : N := x3_shx (mul64 (x3_shx h 37) X3MX1) 32.
(** the two halves of the 128-bit product, xored *)
Definition x3_fold (a b : N) : N := N.lxor ((a * b) mod 2 ^ 64) ((a * b) / 2 ^ 64).
(** 16 bytes of message at i with 16 bytes of secret at j *)
Definition x3_mix (m : list N) (i : nat) (s : list N) (j : nat) (seed : N) : N :=
  x3_fold (N.lxor (x3_rd8 m i) (add64 (x3_rd8 s j) seed)) (N.lxor (x3_rd8 m (i + 8)) (sub64 (x3_rd8 s (j + 8)) seed)).
Definition x3_sum (f : nat -> N) (l : list nat) : N := fold_right (fun i a => (f i + a)%N) 0%N l.
(** ** Up to 16 bytes.  [av] is the final function for 0..3 bytes; XXH3 takes [x3_av64] there. *)
(** last byte, length, first byte, middle byte *)
Definition x3_comb (m : list N) : N :=
  let n := length m in (at_ m (n - 1) + 2 ^ 8 * N.of_nat n + 2 ^ 16 * at_ m 0 + 2 ^ 24 * at_ m (n / 2))%N.
(** the seed with its reversed low half xored into its high half *)
Definition x3_seed48 (seed : N) : N := N.lxor seed (2 ^ 32 * x3_bswap 4 (seed mod 2 ^ 32)).
Definition x3_small64 (av : N -> N) (s : list N) (seed : N) (m : list N) : N :=
  let n := length m in
  if n =? 0 then av (N.lxor seed (N.lxor (x3_rd8 s 56) (x3_rd8 s 64)))
  else if n <=? 3 then av (N.lxor (x3_comb m) (add64 (N.lxor (x3_rd4 s 0) (x3_rd4 s 4)) seed))
  else if n <=? 8 then
    let v := N.lxor (x3_rd4 m (n - 4) + 2 ^ 32 * x3_rd4 m 0) (sub64 (N.lxor (x3_rd8 s 8) (x3_rd8 s 16)) (x3_seed48 seed)) in
    let v := mul64 (N.lxor v (N.lxor (rotl64 v 49) (rotl64 v 24))) X3MX2 in
    let v := mul64 (N.lxor v (N.shiftr v 35 + N.of_nat n)) X3MX2 in
    x3_shx v 28
  else
    let lo := N.lxor (x3_rd8 m 0) (add64 (N.lxor (x3_rd8 s 24) (x3_rd8 s 32)) seed) in
    let hi := N.lxor (x3_rd8 m (n - 8)) (sub64 (N.lxor (x3_rd8 s 40) (x3_rd8 s 48)) seed) in
    x3_av (w64 (N.of_nat n + x3_bswap 8 lo + hi + x3_fold lo hi)).
Definition x3_small128 (av : N -> N) (s : list N) (seed : N) (m : list N) : N * N :=
  let n := length m in
  if n =? 0 then (av (N.lxor seed (N.lxor (x3_rd8 s 64) (x3_rd8 s 72))), av (N.lxor seed (N.lxor (x3_rd8 s 80) (x3_rd8 s 88))))
  else if n <=? 3 then
    (av (N.lxor (x3_comb m) (add64 (N.lxor (x3_rd4 s 0) (x3_rd4 s 4)) seed)),
     av (N.lxor (rotl32 (x3_bswap 4 (x3_comb m)) 13) (sub64 (N.lxor (x3_rd4 s 8) (x3_rd4 s 12)) seed)))
  else if n <=? 8 then
    let v := N.lxor (x3_rd4 m 0 + 2 ^ 32 * x3_rd4 m (n - 4)) (add64 (N.lxor (x3_rd8 s 16) (x3_rd8 s 24)) (x3_seed48 seed)) in
    let p := (v * (X3P64_1 + 4 * N.of_nat n))%N in
    let hi := w64 (p / 2 ^ 64 + 2 * (p mod 2 ^ 64)) in
    let lo := N.lxor (p mod 2 ^ 64) (N.shiftr hi 3) in
    (x3_shx (mul64 (x3_shx lo 35) X3MX2) 28, x3_av hi)
  else
    let p := (N.lxor (N.lxor (x3_rd8 m 0) (x3_rd8 m (n - 8))) (sub64 (N.lxor (x3_rd8 s 32) (x3_rd8 s 40)) seed) * X3P64_1)%N in
    let vh := N.lxor (x3_rd8 m (n - 8)) (add64 (N.lxor (x3_rd8 s 48) (x3_rd8 s 56)) seed) in
    let lo := w64 (p + 2 ^ 54 * N.of_nat (n - 1)) in
    let hi := w64 (p / 2 ^ 64 + vh + (vh mod 2 ^ 32) * (X3P32_2 - 1)) in
    let lo := N.lxor lo (x3_bswap 8 hi) in
    let q := ((lo + 2 ^ 64 * hi) * X3P64_2)%N in
    (x3_av (q mod 2 ^ 64), x3_av ((q / 2 ^ 64) mod 2 ^ 64)).
(** ** 17 to 128 bytes: up to 4 pairs of pieces, from both ends *)
Definition x3_mid64 (s : list N) (seed : N) (m : list N) : N :=
  let n := length m in
  x3_av (w64 (N.of_nat n * X3P64_1 + x3_sum (fun i => x3_mix m (16 * i) s (32 * i) seed + x3_mix m (n - 16 * (i + 1)) s (32 * i + 16) seed)%N (seq 0 ((n - 1) / 32 + 1)))).
(** two pieces of 16 bytes of message with 32 bytes of secret, on two accumulators *)
Definition x3_mix2 (m : list N) (s : list N) (seed : N) (a : N * N) (ijk : nat * nat * nat) : N * N :=
  let '(i, j, k) := ijk in
  (N.lxor (add64 (fst a) (x3_mix m i s k seed)) (add64 (x3_rd8 m j) (x3_rd8 m (j + 8))),
   N.lxor (add64 (snd a) (x3_mix m j s (k + 16) seed)) (add64 (x3_rd8 m i) (x3_rd8 m (i + 8)))).
Definition x3_end128 (n : nat) (seed : N) (a : N * N) : N * N :=
  (x3_av (add64 (fst a) (snd a)),
   sub64 0 (x3_av (w64 (fst a * X3P64_1 + snd a * X3P64_4 + sub64 (N.of_nat n) seed * X3P64_2)))).
Definition x3_mid128 (s : list N) (seed : N) (m : list N) : N * N :=
  let n := length m in
  x3_end128 n seed (fold_left (x3_mix2 m s seed) (map (fun i => (16 * i, n - 16 * (i + 1), 32 * i)) (rev (seq 0 ((n - 1) / 32 + 1)))) (mul64 (N.of_nat n) X3P64_1, 0%N)).
(** ** 129 to 240 bytes: 8 pieces, then the others with the secret from byte 3, and the last 16 bytes *)
Definition x3_large64 (s : list N) (seed : N) (m : list N) : N :=
  let n := length m in
  let a := x3_av (w64 (N.of_nat n * X3P64_1 + x3_sum (fun i => x3_mix m (16 * i) s (16 * i) seed) (seq 0 8))) in
  let b := x3_sum (fun i => x3_mix m (16 * i) s (16 * i - 125) seed) (seq 8 (n / 16 - 8)) in
  x3_av (w64 (a + b + x3_mix m (n - 16) s 119 seed)).
Definition x3_large128 (s : list N) (seed : N) (m : list N) : N * N :=
  let n := length m in
  let a := fold_left (x3_mix2 m s seed) (map (fun i => (32 * i, 32 * i + 16, 32 * i)) (seq 0 4)) (mul64 (N.of_nat n) X3P64_1, 0%N) in
  let a := (x3_av (fst a), x3_av (snd a)) in
  let a := fold_left (x3_mix2 m s seed) (map (fun i => (32 * i, 32 * i + 16, 32 * i - 125)) (seq 4 (n / 32 - 4))) a in
  x3_end128 n seed (x3_mix2 m s (sub64 0 seed) a (n - 16, n - 32, 103)).
(** ** More than 240 bytes *)
Definition x3_init : list N := [X3P32_3; X3P64_1; X3P64_2; X3P64_3; X3P64_4; X3P32_2; X3P64_5; X3P32_1].
(** one stripe of 64 bytes with 64 bytes of secret at o: every lane gets the data of its neighbour and the product of the halves of its
    keyed data *)
Definition x3_accum (s : list N) (o : nat) (acc stripe : list N) : list N :=
  map (fun i => let key := N.lxor (x3_rd8 stripe (8 * i)) (x3_rd8 s (o + 8 * i)) in
    w64 (at_ acc i + x3_rd8 stripe (8 * (if Nat.even i then i + 1 else i - 1)) + (key mod 2 ^ 32) * (key / 2 ^ 32))) (seq 0 8).
Definition x3_scramble (s : list N) (acc : list N) : list N :=
  map (fun i => mul64 (N.lxor (x3_shx (at_ acc i) 47) (x3_rd8 s (length s - 64 + 8 * i))) X3P32_1) (seq 0 8).
(** a block has (|s| - 64) / 8 stripes: the secret moves by 8 bytes from stripe to stripe, and the lanes are scrambled after the block *)
Definition x3_stripe (s : list N) (st : list N * nat) (stripe : list N) : list N * nat :=
  let acc := x3_accum s (8 * snd st) (fst st) stripe in
  if S (snd st) =? (length s - 64) / 8 then (x3_scramble s acc, 0) else (acc, S (snd st)).
(** all the stripes that end before the last byte of the message, then its last 64 bytes *)
Definition x3_lanes (s : list N) (m : list N) : list N :=
  let n := length m in
  let acc := fst (fold_left (x3_stripe s) (chunks 64 (firstn (n - 1) m)) (x3_init, 0)) in
  x3_accum s (length s - 71) acc (skipn (n - 64) m).
Definition x3_merge (s : list N) (o : nat) (init : N) (acc : list N) : N :=
  x3_av (w64 (init + x3_sum (fun i => x3_fold (N.lxor (at_ acc (2 * i)) (x3_rd8 s (o + 16 * i))) (N.lxor (at_ acc (2 * i + 1)) (x3_rd8 s (o + 16 * i + 8)))) (seq 0 4))).
Definition x3_long64 (s m : list N) : N := x3_merge s 11 (mul64 (N.of_nat (length m)) X3P64_1) (x3_lanes s m).
Definition x3_long128 (s m : list N) : N * N :=
  (x3_long64 s m, x3_merge s (length s - 75) (not64 (mul64 (N.of_nat (length m)) X3P64_2)) (x3_lanes s m)).
(** ** The hash: [s], [seed] are for short messages, [l] is the secret for long ones *)
Definition x3_64 (av : N -> N) (s : list N) (seed : N) (l m : list N) : N :=
  let n := length m in
  if n <=? 16 then x3_small64 av s seed m else if n <=? 128 then x3_mid64 s seed m else if n <=? 240 then x3_large64 s seed m else x3_long64 l m.
Definition x3_128 (av : N -> N) (s : list N) (seed : N) (l m : list N) : N * N :=
  let n := length m in
  if n <=? 16 then x3_small128 av s seed m else if n <=? 128 then x3_mid128 s seed m else if n <=? 240 then x3_large128 s seed m else x3_long128 l m.
(** the secret derived from a seed *)
Definition x3_derive (seed : N) : list N :=
  flat_map (fun i => le_bytes 8 (add64 (x3_rd8 x3_secret (16 * i)) seed) ++ le_bytes 8 (sub64 (x3_rd8 x3_secret (16 * i + 8)) seed)) (seq 0 12).
Definition x3_64_seed (av : N -> N) (seed : N) (m : list N) : N := x3_64 av x3_secret seed (x3_derive seed) m.
Definition x3_64_secret (av : N -> N) (s m : list N) : N := x3_64 av s 0 s m.
Definition x3_128_seed (av : N -> N) (seed : N) (m : list N) : N * N := x3_128 av x3_secret seed (x3_derive seed) m.
Definition x3_128_secret (av : N -> N) (s m : list N) : N * N := x3_128 av s 0 s m.
(** canonical representations: big-endian *)
Definition x3_bytes64 (h : N) : list N := be_bytes 8 h.
Definition x3_bytes128 (h : N * N) : list N := be_bytes 8 (snd h) ++ be_bytes 8 (fst h).
(** Known answers: the empty message (published), and xxh3_test.go for 13, 43 and 267 bytes. *)
Fixpoint x3_str (s : string) : list N := match s with EmptyString => [] | String a t => Ascii.N_of_ascii a :: x3_str t end.
Definition x3_fox : list N := x3_str "The quick brown fox jumps over the lazy dog".
Example x3_kat0 : x3_64_seed x3_av64 0 [] = 0x2d06800538d394c2%N /\ x3_bytes128 (x3_128_seed x3_av64 0 []) = be_bytes 16 0x99aa06d3014798d86001c324468d497f.
Proof. vm_compute. split; reflexivity. Qed.
Example x3_kat13 : x3_64_seed x3_av64 0 (x3_str "Hello World !") = 0x27e997346a1d82bf%N /\ x3_bytes128 (x3_128_seed x3_av64 0 (x3_str "Hello World !")) = be_bytes 16 0x8c52e3056b8541c2780aae38ba5d77fa
  /\ x3_64_seed x3_av64 0x0102030405060708 (x3_str "Hello World !") = 0x6ce9dcb902845315%N.
Proof. vm_compute. repeat split; reflexivity. Qed.
Example x3_kat43 : x3_64_seed x3_av64 0 x3_fox = 0xce7d19a5418fb365%N /\ x3_bytes128 (x3_128_seed x3_av64 0 x3_fox) = be_bytes 16 0xddd650205ca3e7fa24a1cc2e3a8a7651
  /\ x3_64_seed x3_av64 0x0102030405060708 x3_fox = 0xd95e3752ff73665c%N.
Proof. vm_compute. repeat split; reflexivity. Qed.
Example x3_kat267 : let m := x3_str "nonce-asdfg56d6dd148d3df5947b54f0a0fb5e5b0234680cd7b4614bf3005c86fffb45257419b3133c39e551347cd3ad26850bd9513877ee2b708829f3f8f902377720655f56d6dd148d3df5947b54f0a0fb5e5b0234680cd7b4614bf3005c86fffb45257419b3133c39e551347cd3ad26850bd9513877ee2b708829f3f8f902377720655f" in
  x3_64_seed x3_av64 0 m = 0x3ddf6d234465a3df%N /\ x3_bytes128 (x3_128_seed x3_av64 0 m) = be_bytes 16 0x4559a89aaeab6e363ddf6d234465a3df.
Proof. vm_compute. repeat split; reflexivity. Qed.
