(** SpecLsh.v -- the LSH family (KS X 3262; Kim, Lee, Lim, Kim, "LSH: A New Fast Secure Hash Function Family", ICISC 2014).
    Parameterised by the word length w (32 for LSH-256-n, 64 for LSH-512-n).  The step constants after the first eight
    and the initial values are generated by the rules of the specification, not listed. *)
From Coq Require Import List NArith Arith Bool.
From Verif Require Import Base.
Import ListNotations.

Record lsh_family := {
  l_w : N;                 (* word length in bits *)
  l_Ns : nat;              (* number of steps *)
  l_alpha : nat -> N; l_beta : nat -> N; l_gamma : list N;   (* rotation amounts (alpha, beta by parity of the step) *)
  l_SC0 : list N           (* the first eight step constants *)
}.
Definition LSH256 : lsh_family := {|
  l_w := 32; l_Ns := 26;
  l_alpha := fun j => if Nat.even j then 29%N else 5%N; l_beta := fun j => if Nat.even j then 1%N else 17%N;
  l_gamma := [0; 8; 16; 24; 24; 16; 8; 0]%N;
  l_SC0 := [0x917caf90; 0x6c1b10a2; 0x6f352943; 0xcf778243; 0x2ceb7472; 0x29e96ff2; 0x8a9ba428; 0x2eeb2642]%N |}.
Definition LSH512 : lsh_family := {|
  l_w := 64; l_Ns := 28;
  l_alpha := fun j => if Nat.even j then 23%N else 7%N; l_beta := fun j => if Nat.even j then 59%N else 3%N;
  l_gamma := [0; 16; 32; 48; 8; 24; 40; 56]%N;
  l_SC0 := [0x97884283c938982a; 0xba1fca93533e2355; 0xc519a2e87aeb1c03; 0x9a0fc95462af17b1;
            0xfc3dda8ab019a82b; 0x02825d079a895407; 0x79f2d0a7ee06a6f7; 0xd76d15eed9fdf5fe]%N |}.

Section LSH.
Variable F : lsh_family.
Definition l_add (x y : N) : N := ((x + y) mod 2 ^ l_w F)%N.
Definition l_rotl (x n : N) : N := N.lor ((x * 2 ^ n) mod 2 ^ l_w F) (N.shiftr x (l_w F - n)).
(** Step constants: SC_j[l] = SC_(j-1)[l] + (SC_(j-1)[l] <<< 8). *)
Fixpoint l_SC (j : nat) : list N := match j with O => l_SC0 F | S j => map (fun c => l_add c (l_rotl c 8)) (l_SC j) end.
(** The word permutation sigma and the message permutation tau. *)
Definition l_sigma : list nat := [6; 4; 5; 7; 12; 15; 14; 13; 2; 0; 1; 3; 8; 11; 10; 9].
Definition l_tau : list nat := [3; 2; 0; 1; 7; 4; 5; 6; 11; 10; 8; 9; 15; 12; 13; 14].
(** MsgAdd *)
Definition l_msgadd (T M : list N) : list N := map (fun i => N.lxor (at_ T i) (at_ M i)) (seq 0 16).
(** Mix_j on the pair of words l and l + 8 *)
Definition l_mix (j l : nat) (X Y : N) : N * N :=
  let X := l_add X Y in let X := l_rotl X (l_alpha F j) in let X := N.lxor X (at_ (l_SC j) l) in
  let Y := l_add X Y in let Y := l_rotl Y (l_beta F j) in
  let X := l_add X Y in let Y := l_rotl Y (at_ (l_gamma F) l) in (X, Y).
Definition l_Mix (j : nat) (T : list N) : list N :=
  let p l := l_mix j l (at_ T l) (at_ T (l + 8)) in map (fun l => fst (p l)) (seq 0 8) ++ map (fun l => snd (p l)) (seq 0 8).
(** Step_j = WordPerm o Mix_j o MsgAdd *)
Definition l_step (j : nat) (T M : list N) : list N := map (at_ (l_Mix j (l_msgadd T M))) l_sigma.
(** Message expansion: M_j[l] = M_(j-1)[l] + M_(j-2)[tau(l)] *)
Definition l_next (M0 M1 : list N) : list N := map (fun l => l_add (at_ M1 l) (at_ M0 (nth l l_tau 0))) (seq 0 16).
(** Steps j, j+1, ... (k of them), then the final MsgAdd. *)
Fixpoint l_steps (k j : nat) (T M0 M1 : list N) : list N :=
  match k with O => l_msgadd T M0 | S k => l_steps k (j + 1) (l_step j T M0) M1 (l_next M0 M1) end.
(** CF: the compression function on 16 chaining words and 32 message words *)
Definition l_CF (CV M : list N) : list N := l_steps (l_Ns F) 0 CV (firstn 16 M) (skipn 16 M).
(** IV of LSH-8w-n: CF((w, n, 0, ..., 0), 0) *)
Definition l_IV (n : N) : list N := l_CF (l_w F :: n :: zeros 14) (zeros 32).
(** One-zeros padding to a multiple of 4w bytes; words are little-endian *)
Definition l_bytes : nat := N.to_nat (l_w F / 8).
Definition l_pad (m : list N) : list N := let bs := 32 * l_bytes in m ++ 0x80%N :: zeros (bs - 1 - length m mod bs).
Definition l_words (b : list N) : list N := map le_val (chunks l_bytes b).
(** LSH-8w-n with n = 8 hs: the first hs bytes of (CV[0] ^ CV[8], ..., CV[7] ^ CV[15]) *)
Definition lsh (hs : nat) (m : list N) : list N :=
  let CV := fold_left l_CF (map l_words (chunks (32 * l_bytes) (l_pad m))) (l_IV (8 * N.of_nat hs)) in
  firstn hs (flat_map (fun l => le_bytes l_bytes (N.lxor (at_ CV l) (at_ CV (l + 8)))) (seq 0 8)).
End LSH.
