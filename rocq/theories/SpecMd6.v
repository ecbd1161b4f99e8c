(** SpecMd6.v -- MD6 (Rivest et al., "The MD6 hash function: a proposal to NIST for SHA-3", chapter 2), on 64-bit words,
    for byte messages.  Written from the report, without looking at how the Go code arranges its arrays. *)
From Coq Require Import List NArith Arith Bool.
From Verif Require Import Base.
Import ListNotations.

(** Q: the fractional part of sqrt 6, 15 words. *)
Definition md6_Q : list N :=
  [0x7311c2812425cfa0; 0x6432286434aac8e7; 0xb60450e9ef68b7c1; 0xe8fb23908d9f06f1; 0xdd2e76cba691e5bf;
   0x0cd0d63b2c30bc41; 0x1f8ccf6823058f8a; 0x54e5ed5b88e3775d; 0x4ad12aae0a6d6031; 0x3e7f16bb88222e0d;
   0x8af8671d3fb50c2c; 0x995ad1178bd25c31; 0xc878c1dd04c4b633; 0x3b72066c7a1552ac; 0x0d6f3522631effcb]%N.
(** The shift amounts (r_i, l_i) of the 16 steps of a round. *)
Definition md6_shifts : list (N * N) :=
  [(10, 11); (5, 24); (13, 9); (10, 16); (11, 15); (12, 9); (2, 27); (7, 15); (14, 6); (15, 2); (7, 29); (13, 8); (11, 15); (7, 5); (6, 31); (12, 9)]%N.

(** One step: [h] holds the words computed so far, the most recent first, so that the word t places back is
    [nth (t - 1) h]; the tap distances are 89; 17; 18, 21; 31, 67. *)
Definition md6_step (S : N) (h : list N) (rl : N * N) : list N :=
  let w t := nth (t - 1) h 0%N in
  let x := N.lxor (N.lxor (N.lxor (N.lxor S (w 89)) (w 17)) (N.land (w 18) (w 21))) (N.land (w 31) (w 67)) in
  let y := N.lxor x (N.shiftr x (fst rl)) in
  N.lxor y (shl64 y (snd rl)) :: h.
(** One round of 16 steps, with the round constant S and its successor. *)
Definition md6_round (sh : N * list N) : N * list N :=
  let '(K, h) := sh in
  (N.lxor (N.lxor (shl64 K 1) (N.shiftr K 63)) (N.land K 0x7311c2812425cfa0), fold_left (md6_step K) md6_shifts h).
(** The compression function: 89 words to 16 words, r rounds. *)
Definition md6_f (r : nat) (input : list N) : list N :=
  rev (firstn 16 (snd (Nat.iter r md6_round (0x0123456789abcdef%N, rev input)))).

(** The words of a byte string, big-endian. *)
Definition words64 (m : list N) : list N := map be_val (chunks 8 m).

(** Parameters: digest length in bits, key (at most 64 bytes), number of parallel levels, number of rounds. *)
Record md6_par := { md_d : nat; md_key : list N; md_L : nat; md_r : nat }.
(** The default number of rounds (at least 80 with a key). *)
Definition md6_rounds (d keylen : nat) : nat := let r := 40 + d / 4 in if 0 <? keylen then Nat.max 80 r else r.

(** One compression of the mode of operation: level, index, z (1 for the very last call), p padding bits. *)
Definition md6_call (P : md6_par) (level index z p : N) (data : list N) : list N :=
  let U := (level * 2 ^ 56 + index)%N in
  let V := (N.of_nat (md_r P) * 2 ^ 48 + N.of_nat (md_L P) * 2 ^ 40 + z * 2 ^ 36 + p * 2 ^ 20 + N.of_nat (length (md_key P)) * 2 ^ 12 + N.of_nat (md_d P))%N in
  md6_f (md_r P) (md6_Q ++ words64 (md_key P ++ zeros (64 - length (md_key P))) ++ [U; V] ++ data).

(** The blocks of a level: at least one; the last one padded with zeros; with its number of padding bits. *)
Definition md6_blocks (bs : nat) (m : list N) : list (list N) :=
  if (0 <? length (rest bs m)) || (length m =? 0) then chunks bs m ++ [rest bs m] else chunks bs m.
Definition md6_padded (bs : nat) (b : list N) : list N := b ++ zeros (bs - length b).
Definition md6_padbits (bs : nat) (b : list N) : N := N.of_nat (8 * (bs - length b)).

(** The parallel operation on a level (4-to-1 tree). *)
Definition md6_PAR (P : md6_par) (level : nat) (m : list N) : list N :=
  let bl := md6_blocks 512 m in
  let z := if length bl =? 1 then 1%N else 0%N in
  concat (map (fun ib : nat * list N => concat (map (be_bytes 8)
      (md6_call P (N.of_nat level) (N.of_nat (fst ib)) z (md6_padbits 512 (snd ib)) (words64 (md6_padded 512 (snd ib))))))
    (combine (seq 0 (length bl)) bl)).
(** The sequential operation (chaining value of 16 words, 48 words of data). *)
Definition md6_SEQ (P : md6_par) (level : nat) (m : list N) : list N :=
  let bl := md6_blocks 384 m in
  concat (map (be_bytes 8) (fold_left (fun (C : list N) (ib : nat * list N) =>
      md6_call P (N.of_nat level) (N.of_nat (fst ib)) (if (fst ib =? length bl - 1)%nat then 1 else 0)%N (md6_padbits 384 (snd ib)) (C ++ words64 (md6_padded 384 (snd ib))))
    (combine (seq 0 (length bl)) bl) (repeat 0%N 16))).
(** The levels of the tree, up to a single 128-byte value. *)
Fixpoint md6_tree (P : md6_par) (fuel level : nat) (m : list N) : list N :=
  match fuel with
  | O => m
  | S f => if level =? md_L P + 1 then md6_SEQ P level m
           else let m' := md6_PAR P level m in if length m' =? 128 then m' else md6_tree P f (level + 1) m'
  end.
(** The digest: the last d bits (d a multiple of 8). *)
Definition md6_last (d : nat) (c : list N) : list N := skipn (length c - d / 8) c.
Definition md6 (P : md6_par) (m : list N) : list N := md6_last (md_d P) (md6_tree P (S (length m)) 1 m).
Definition md6_default (d : nat) (key : list N) (L : nat) : md6_par := {| md_d := d; md_key := key; md_L := L; md_r := md6_rounds d (length key) |}.

(** md6_test.go: "md6 FTW". *)
Example md6_kat : md6 (md6_default 256 [] 64) [0x6d; 0x64; 0x36; 0x20; 0x46; 0x54; 0x57]%N = be_bytes 32 0x7bfaa624f661a683be2a3b2007493006a30a7845ee1670e499927861a8e74cce.
Proof. vm_compute. reflexivity. Qed.
