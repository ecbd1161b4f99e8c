(** SpecBlake3.v -- BLAKE3 (O'Connor, Aumasson, Neves, Wilcox-O'Hearn, "BLAKE3: one function, fast everywhere",
    section 2): the whole message is given, the tree is built recursively from the top. *)
From Coq Require Import List NArith Arith Bool.
From Verif Require Import Base.
Import ListNotations.

Definition b3_IV : list N := [0x6A09E667; 0xBB67AE85; 0x3C6EF372; 0xA54FF53A; 0x510E527F; 0x9B05688C; 0x1F83D9AB; 0x5BE0CD19]%N.
(** Flags *)
Definition B3_START : N := 1. Definition B3_END : N := 2. Definition B3_PARENT : N := 4. Definition B3_ROOT : N := 8.
Definition B3_KEYED : N := 16. Definition B3_CONTEXT : N := 32. Definition B3_MATERIAL : N := 64.

(** The permutation of the message words between rounds. *)
Definition b3_permute (m : list N) : list N := map (at_ m) [2; 6; 3; 10; 7; 0; 4; 13; 1; 11; 12; 5; 9; 14; 15; 8].
(** The quarter round on one column or diagonal. *)
Definition b3_G (a b c d mx my : N) : N * N * N * N :=
  let a := add32 (add32 a b) mx in
  let d := rotr32 (N.lxor d a) 16 in
  let c := add32 c d in
  let b := rotr32 (N.lxor b c) 12 in
  let a := add32 (add32 a b) my in
  let d := rotr32 (N.lxor d a) 8 in
  let c := add32 c d in
  let b := rotr32 (N.lxor b c) 7 in
  (a, b, c, d).
(** A round: columns, then diagonals. *)
Definition b3_round (v m : list N) : list N :=
  match v with
  | [v0; v1; v2; v3; v4; v5; v6; v7; v8; v9; v10; v11; v12; v13; v14; v15] =>
    let '(v0, v4, v8, v12) := b3_G v0 v4 v8 v12 (at_ m 0) (at_ m 1) in
    let '(v1, v5, v9, v13) := b3_G v1 v5 v9 v13 (at_ m 2) (at_ m 3) in
    let '(v2, v6, v10, v14) := b3_G v2 v6 v10 v14 (at_ m 4) (at_ m 5) in
    let '(v3, v7, v11, v15) := b3_G v3 v7 v11 v15 (at_ m 6) (at_ m 7) in
    let '(v0, v5, v10, v15) := b3_G v0 v5 v10 v15 (at_ m 8) (at_ m 9) in
    let '(v1, v6, v11, v12) := b3_G v1 v6 v11 v12 (at_ m 10) (at_ m 11) in
    let '(v2, v7, v8, v13) := b3_G v2 v7 v8 v13 (at_ m 12) (at_ m 13) in
    let '(v3, v4, v9, v14) := b3_G v3 v4 v9 v14 (at_ m 14) (at_ m 15) in
    [v0; v1; v2; v3; v4; v5; v6; v7; v8; v9; v10; v11; v12; v13; v14; v15]
  | _ => v
  end.
Fixpoint b3_rounds (n : nat) (v m : list N) : list N :=
  match n with O => v | S n => b3_rounds n (b3_round v m) (b3_permute m) end.
(** A compression input: chaining value (8 words), block (64 bytes), counter, number of bytes in the block, flags. *)
Record b3_node := mknode { n_cv : list N; n_block : list N; n_ctr : N; n_len : N; n_flags : N }.
(** The 16 output words. *)
Definition b3_compress (o : b3_node) : list N :=
  let v := b3_rounds 7 (n_cv o ++ firstn 4 b3_IV ++ [w32 (n_ctr o); w32 (N.shiftr (n_ctr o) 32); n_len o; n_flags o]) (map le_val (chunks 4 (n_block o))) in
  map (fun i => N.lxor (at_ v i) (at_ v (i + 8))) (seq 0 8) ++ map (fun i => N.lxor (at_ v (i + 8)) (at_ (n_cv o) i)) (seq 0 8).
(** Its chaining value, as words and as bytes. *)
Definition b3_cv (o : b3_node) : list N := firstn 8 (b3_compress o).
Definition b3_cvb (o : b3_node) : list N := concat (map (le_bytes 4) (b3_cv o)).

Section Tree.
Variable key : list N. (* the key words *)
Variable flags : N.    (* the mode flag *)
(** A chunk: its blocks are chained, the last one (1 to 64 bytes; 0 only in the empty chunk) is left to be compressed. *)
Fixpoint b3_blocks (fuel : nat) (cv : list N) (start : N) (c : N) (b : list N) : b3_node :=
  match fuel with
  | O => mknode [] [] 0 0 0
  | S f =>
    if length b <=? 64 then mknode cv (b ++ zeros (64 - length b)) c (N.of_nat (length b)) (N.lor (N.lor flags start) B3_END)
    else b3_blocks f (b3_cv (mknode cv (firstn 64 b) c 64 (N.lor flags start))) 0 c (skipn 64 b)
  end.
Definition b3_chunk (c : N) (b : list N) : b3_node := b3_blocks (S (length b)) key B3_START c b.
Definition b3_parent (l r : b3_node) : b3_node := mknode key (b3_cvb l ++ b3_cvb r) 0 64 (N.lor flags B3_PARENT).
(** A (sub)tree over [m], whose first chunk has number [c]: the left child gets the largest power of two of chunks that leaves
    at least one byte for the right child. *)
Fixpoint b3_tree (fuel : nat) (c : N) (m : list N) : b3_node :=
  match fuel with
  | O => mknode [] [] 0 0 0
  | S f =>
    if length m <=? 1024 then b3_chunk c m
    else let left := (2 ^ N.log2 (N.of_nat ((length m - 1) / 1024)))%N in
         let k := N.to_nat left * 1024 in
         b3_parent (b3_tree f c (firstn k m)) (b3_tree f (c + left) (skipn k m))
  end.
(** The root node of a message, and [n] bytes of output. *)
Definition b3_root (m : list N) : b3_node := b3_tree (S (length m)) 0 m.
Definition b3_output (o : b3_node) (n : nat) : list N :=
  firstn n (concat (map (fun i => concat (map (le_bytes 4) (b3_compress (mknode (n_cv o) (n_block o) (N.of_nat i) (n_len o) (N.lor (n_flags o) B3_ROOT))))) (seq 0 (n / 64 + 1)))).
Definition b3_hash (n : nat) (m : list N) : list N := b3_output (b3_root m) n.
End Tree.
Definition b3_words (k : list N) : list N := map le_val (chunks 4 k).
(** The three modes. *)
Definition blake3 (n : nat) (m : list N) : list N := b3_hash b3_IV 0 n m.
Definition blake3_keyed (k : list N) (n : nat) (m : list N) : list N := b3_hash (b3_words k) B3_KEYED n m.
Definition blake3_derive (context : list N) (n : nat) (m : list N) : list N := b3_hash (b3_words (b3_hash b3_IV B3_CONTEXT 32 context)) B3_MATERIAL n m.

Example blake3_empty : blake3 32 [] = be_bytes 32 0xaf1349b9f5f9a1a6a0404dea36dcc9499bcb25c9adc112b7cc9a93cae41f3262.
Proof. vm_compute. reflexivity. Qed.
