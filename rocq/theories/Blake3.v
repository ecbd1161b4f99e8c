(** Blake3.v -- model of /repo/blake3 (digest.go, chunk_state.go, compress.go, output.go, portable.go, utils.go, sbox.go, blake3.go). *)
From Coq Require Import List NArith Arith Lia Bool.
From Verif Require Import Base HashAPI.
Import ListNotations.

(** sbox.go:9-33 *)
Definition CHUNK_START : N := 1. Definition CHUNK_END : N := 2. Definition PARENT : N := 4. Definition ROOT : N := 8.
Definition KEYED_HASH : N := 16. Definition DERIVE_KEY_CONTEXT : N := 32. Definition DERIVE_KEY_MATERIAL : N := 64.
Definition b3_iv : list N := [0x6A09E667; 0xBB67AE85; 0x3C6EF372; 0xA54FF53A; 0x510E527F; 0x9B05688C; 0x1F83D9AB; 0x5BE0CD19]%N.
Definition MSG_SCHEDULE : list (list nat) :=
  [[0; 1; 2; 3; 4; 5; 6; 7; 8; 9; 10; 11; 12; 13; 14; 15];
   [2; 6; 3; 10; 7; 0; 4; 13; 1; 11; 12; 5; 9; 14; 15; 8];
   [3; 4; 10; 12; 13; 2; 7; 14; 6; 5; 9; 0; 11; 15; 8; 1];
   [10; 7; 12; 9; 14; 3; 13; 15; 4; 0; 11; 2; 5; 8; 1; 6];
   [12; 13; 9; 11; 15; 10; 14; 8; 7; 2; 5; 3; 0; 1; 6; 4];
   [9; 14; 11; 5; 8; 12; 15; 1; 13; 3; 0; 10; 2; 6; 4; 7];
   [11; 15; 5; 0; 1; 9; 8; 6; 14; 10; 2; 12; 3; 4; 7; 13]].

(** utils.go:97-106 g *)
Definition g3 (s : list N) (a b c d : nat) (x y : N) : list N :=
  let s := upd s a (add32 (add32 (at_ s a) (at_ s b)) x) in
  let s := upd s d (rotr32 (N.lxor (at_ s d) (at_ s a)) 16) in
  let s := upd s c (add32 (at_ s c) (at_ s d)) in
  let s := upd s b (rotr32 (N.lxor (at_ s b) (at_ s c)) 12) in
  let s := upd s a (add32 (add32 (at_ s a) (at_ s b)) y) in
  let s := upd s d (rotr32 (N.lxor (at_ s d) (at_ s a)) 8) in
  let s := upd s c (add32 (at_ s c) (at_ s d)) in
  upd s b (rotr32 (N.lxor (at_ s b) (at_ s c)) 7).
(** utils.go:108-125 round_fn *)
Definition round_fn (s msg : list N) (round : nat) : list N :=
  let sch := nth round MSG_SCHEDULE [] in
  let m i := at_ msg (nth i sch 0%nat) in
  let s := g3 s 0 4 8 12 (m 0%nat) (m 1%nat) in
  let s := g3 s 1 5 9 13 (m 2%nat) (m 3%nat) in
  let s := g3 s 2 6 10 14 (m 4%nat) (m 5%nat) in
  let s := g3 s 3 7 11 15 (m 6%nat) (m 7%nat) in
  let s := g3 s 0 5 10 15 (m 8%nat) (m 9%nat) in
  let s := g3 s 1 6 11 12 (m 10%nat) (m 11%nat) in
  let s := g3 s 2 7 8 13 (m 12%nat) (m 13%nat) in
  g3 s 3 4 9 14 (m 14%nat) (m 15%nat).
(** portable.go:3-54 compress_pre; getu32 (utils.go:8-10) is a little-endian load *)
Definition compress_pre (cv block : list N) (block_len counter flags : N) : list N :=
  let bw := map (fun i => le_val (firstn 4 (skipn (4 * i) block))) (seq 0 16) in
  let s := [at_ cv 0; at_ cv 1; at_ cv 2; at_ cv 3; at_ cv 4; at_ cv 5; at_ cv 6; at_ cv 7; at_ b3_iv 0; at_ b3_iv 1; at_ b3_iv 2; at_ b3_iv 3;
            w32 counter; w32 (N.shiftr counter 32); block_len; flags] in
  fold_left (fun s r => round_fn s bw r) (seq 0 7) s.
(** portable.go:56-74 blake3_compress_in_place *)
Definition compress_in_place (cv block : list N) (block_len counter flags : N) : list N :=
  let s := compress_pre cv block block_len counter flags in
  [N.lxor (at_ s 0) (at_ s 8); N.lxor (at_ s 1) (at_ s 9); N.lxor (at_ s 2) (at_ s 10); N.lxor (at_ s 3) (at_ s 11);
   N.lxor (at_ s 4) (at_ s 12); N.lxor (at_ s 5) (at_ s 13); N.lxor (at_ s 6) (at_ s 14); N.lxor (at_ s 7) (at_ s 15)].
(** portable.go:76-104 blake3_compress_xof; the sixteen putu32 fill the 64-byte array from left to right *)
Definition compress_xof (cv block : list N) (block_len counter flags : N) : list N :=
  let s := compress_pre cv block block_len counter flags in
  concat (map (le_bytes 4)
   [N.lxor (at_ s 0) (at_ s 8); N.lxor (at_ s 1) (at_ s 9); N.lxor (at_ s 2) (at_ s 10); N.lxor (at_ s 3) (at_ s 11);
    N.lxor (at_ s 4) (at_ s 12); N.lxor (at_ s 5) (at_ s 13); N.lxor (at_ s 6) (at_ s 14); N.lxor (at_ s 7) (at_ s 15);
    N.lxor (at_ s 8) (at_ cv 0); N.lxor (at_ s 9) (at_ cv 1); N.lxor (at_ s 10) (at_ cv 2); N.lxor (at_ s 11) (at_ cv 3);
    N.lxor (at_ s 12) (at_ cv 4); N.lxor (at_ s 13) (at_ cv 5); N.lxor (at_ s 14) (at_ cv 6); N.lxor (at_ s 15) (at_ cv 7)]).

(** output.go:3-29 *)
Record output := mkout { o_cv : list N; o_block : list N; o_len : N; o_ctr : N; o_flags : N }.
(** output.go:31-45 chainingValue *)
Definition chainingValue (o : output) : list N := concat (map (le_bytes 4) (compress_in_place (o_cv o) (o_block o) (o_len o) (o_ctr o) (o_flags o))).
(** output.go:47-77 rootBytes with seek = 0 (the only call): the bytes written to out *)
Fixpoint rootBytes (fuel : nat) (o : output) (ctr : N) (out_len : nat) : list N :=
  match fuel with
  | O => []
  | S f =>
    if 0 <? out_len then
      let wide := compress_xof (o_cv o) (o_block o) (o_len o) ctr (N.lor (o_flags o) ROOT) in
      let memcpy_len := if 64 <? out_len then 64 else out_len in
      firstn memcpy_len wide ++ rootBytes f o (add64 ctr 1) (out_len - memcpy_len)
    else []
  end.

(** chunk_state.go:5-33; buf_len and blocks_compressed are uint8 (they stay below 65 and 17) *)
Record chunkState := mkcs { k_cv : list N; k_ctr : N; k_buf : list N; k_blen : nat; k_blocks : nat; k_flags : N }.
Definition newChunkState (key : list N) (flags : N) : chunkState := mkcs key 0 (zeros 64) 0 0 flags.
Definition cs_reset (cs : chunkState) (key : list N) (counter : N) : chunkState := mkcs key counter (zeros 64) 0 0 (k_flags cs).
(** chunk_state.go:35-37 length *)
Definition cs_length (cs : chunkState) : nat := 64 * k_blocks cs + k_blen cs.
(** chunk_state.go:39-52 fillBuf *)
Definition fillBuf (cs : chunkState) (input : list N) : chunkState * nat :=
  let take := 64 - k_blen cs in
  let take := if length input <? take then length input else take in
  (mkcs (k_cv cs) (k_ctr cs) (copy_at (k_buf cs) (k_blen cs) (firstn take input)) (k_blen cs + take) (k_blocks cs) (k_flags cs), take).
(** chunk_state.go:54-60 maybeStartFlag *)
Definition maybeStartFlag (cs : chunkState) : N := if k_blocks cs =? 0 then CHUNK_START else 0%N.
(** chunk_state.go:62-104 update *)
Fixpoint update_loop (fuel : nat) (cs : chunkState) (input : list N) : chunkState * list N :=
  match fuel with
  | O => (cs, input)
  | S f =>
    if 64 <? length input then
      update_loop f (mkcs (compress_in_place (k_cv cs) (firstn 64 input) 64 (k_ctr cs) (N.lor (k_flags cs) (maybeStartFlag cs))) (k_ctr cs) (k_buf cs) (k_blen cs) (k_blocks cs + 1) (k_flags cs)) (skipn 64 input)
    else (cs, input)
  end.
Definition cs_update (cs : chunkState) (input : list N) : chunkState :=
  let '(cs, input) :=
    if 0 <? k_blen cs then
      let '(cs, take) := fillBuf cs input in
      let input := skipn take input in
      if 0 <? length input then
        (mkcs (compress_in_place (k_cv cs) (k_buf cs) 64 (k_ctr cs) (N.lor (k_flags cs) (maybeStartFlag cs))) (k_ctr cs) (zeros 64) 0 (k_blocks cs + 1) (k_flags cs), input)
      else (cs, input)
    else (cs, input) in
  let '(cs, input) := update_loop (S (length input)) cs input in
  fst (fillBuf cs input).
(** chunk_state.go:106-115 output *)
Definition cs_output (cs : chunkState) : output :=
  mkout (k_cv cs) (k_buf cs) (N.of_nat (k_blen cs)) (k_ctr cs) (N.lor (N.lor (k_flags cs) (maybeStartFlag cs)) CHUNK_END).

(** utils.go:43-72 highest_one *)
Definition highest_one (x : N) : N :=
  let c := 0%N in
  let '(x, c) := if negb (N.land x 0xffffffff00000000 =? 0)%N then (N.shiftr x 32, c + 32)%N else (x, c) in
  let '(x, c) := if negb (N.land x 0x00000000ffff0000 =? 0)%N then (N.shiftr x 16, c + 16)%N else (x, c) in
  let '(x, c) := if negb (N.land x 0x000000000000ff00 =? 0)%N then (N.shiftr x 8, c + 8)%N else (x, c) in
  let '(x, c) := if negb (N.land x 0x00000000000000f0 =? 0)%N then (N.shiftr x 4, c + 4)%N else (x, c) in
  let '(x, c) := if negb (N.land x 0x000000000000000c =? 0)%N then (N.shiftr x 2, c + 2)%N else (x, c) in
  if negb (N.land x 0x0000000000000002 =? 0)%N then (c + 1)%N else c.
(** utils.go:74-83 popcnt *)
Fixpoint popcnt_loop (fuel : nat) (x : N) (count : nat) : nat :=
  match fuel with O => count | S f => if (x =? 0)%N then count else popcnt_loop f (N.land x (x - 1)) (count + 1) end.
Definition popcnt (x : N) : nat := popcnt_loop 65 x 0.
(** utils.go:85-87 round_down_to_power_of_2 *)
Definition round_down (x : N) : N := shl64 1 (highest_one (N.lor x 1)).

(** compress.go:3-5 parent_output *)
Definition parent_output (block key : list N) (flags : N) : output := mkout key block 64 0 (N.lor flags PARENT).
(** compress.go:7-10 left_len *)
Definition left_len (content_len : nat) : nat := N.to_nat (round_down (N.of_nat ((content_len - 1) / 1024))) * 1024.
(** portable.go:106-150 hash_one *)
Fixpoint hash_one_loop (blocks : nat) (i : nat) (cv input : list N) (counter bflags flags flags_end : N) : list N :=
  match blocks with
  | O => cv
  | S b =>
    let bf := if b =? 0 then N.lor bflags flags_end else bflags in
    hash_one_loop b (i + 1) (compress_in_place cv (firstn 64 (skipn (i * 64) input)) 64 counter bf) input counter flags flags flags_end
  end.
Definition hash_one (input : list N) (blocks : nat) (key : list N) (counter flags flags_start flags_end : N) : list N :=
  concat (map (le_bytes 4) (hash_one_loop blocks 0 key input counter (N.lor flags flags_start) flags flags_end)).
(** portable.go:152-183 blake3_hash_many *)
Fixpoint hash_many (inputs : list (list N)) (blocks : nat) (key : list N) (counter : N) (incr : bool) (flags flags_start flags_end : N) : list N :=
  match inputs with
  | [] => []
  | x :: t => hash_one x blocks key counter flags flags_start flags_end ++ hash_many t blocks key (if incr then add64 counter 1 else counter) incr flags flags_start flags_end
  end.
(** compress.go:12-64 compress_chunks_parallel; it is called on at most 1024 bytes, so that chunks_array (one entry) is enough *)
Definition compress_chunks_parallel (input key : list N) (counter flags : N) : list N * nat :=
  let arr := chunks 1024 input in
  let out := hash_many arr 16 key counter true flags CHUNK_START CHUNK_END in
  let pos := 1024 * length arr in
  if pos <? length input then
    let cs := newChunkState key flags in
    let cs := mkcs (k_cv cs) (add64 counter (N.of_nat (length arr))) (k_buf cs) (k_blen cs) (k_blocks cs) (k_flags cs) in
    (out ++ chainingValue (cs_output (cs_update cs (skipn pos input))), length arr + 1)
  else (out, length arr).
(** compress.go:66-106 compress_parents_parallel; num <= 4, so that parents_array (two entries) is enough *)
Definition compress_parents_parallel (cvs : list N) (num : nat) (key : list N) (flags : N) : list N * nat :=
  let n := num / 2 in
  let arr := map (fun i => firstn 64 (skipn (64 * i) cvs)) (seq 0 n) in
  let out := hash_many arr 1 key 0 false (N.lor flags PARENT) 0 0 in
  if 2 * n <? num then (out ++ slice cvs (2 * n * 32) (2 * n * 32 + 32), n + 1) else (out, n).
(** compress.go:108-160 compress_subtree_wide *)
Fixpoint compress_subtree_wide (fuel : nat) (input key : list N) (counter flags : N) : list N * nat :=
  match fuel with
  | O => ([], 0)
  | S f =>
    if length input <=? 1024 then compress_chunks_parallel input key counter flags
    else
      let ll := left_len (length input) in
      let degree := if 1024 <? ll then 2 else 1 in
      let '(lc, ln) := compress_subtree_wide f (firstn ll input) key counter flags in
      let '(rc, rn) := compress_subtree_wide f (skipn ll input) key (add64 counter (N.of_nat (ll / 1024))) flags in
      let cv_array := copy_at (zeros 128) 0 lc in
      let cv_array := copy_at cv_array (degree * 32) rc in
      if ln =? 1 then (firstn 64 cv_array, 2)
      else compress_parents_parallel cv_array (ln + rn) key flags
  end.
(** compress.go:162-179 compress_subtree_to_parent_node *)
Definition compress_subtree_to_parent_node (input key : list N) (counter flags : N) : list N :=
  let '(cvs, _) := compress_subtree_wide (S (length input)) input key counter flags in
  copy_at (zeros 64) 0 cvs.

(** digest.go:11-18; cv_stack is an array of 55 * 32 bytes, cv_stack_len a uint8 *)
Record b3 := mkb3 { h_key : list N; h_chunk : chunkState; h_len : N; h_stack : list N; h_hs : nat }.
Definition stack_size : nat := 55 * 32.
(** digest.go:30-35 Reset *)
Definition b3_reset (d : b3) : b3 := mkb3 (h_key d) (cs_reset (h_chunk d) (h_key d) 0) 0 (zeros stack_size) (h_hs d).
(** digest.go:20-28 newDigest *)
Definition b3_new (key : list N) (flags : N) (hs : nat) : b3 := b3_reset (mkb3 key (newChunkState key flags) 0 (zeros stack_size) hs).
(** digest.go:186-203 mergeCvStack.  The index expressions are computed in uint8.  None: the slice expression cv_stack[a:b] panics because b < a *)
Fixpoint merge_loop (fuel : nat) (d : b3) (post : nat) : option b3 :=
  match fuel with
  | O => Some d
  | S f =>
    if N.of_nat post <? h_len d then
      let a := w8 (w8 (h_len d + 256 - 2) * 32) in
      let parent_node := firstn 64 (skipn (N.to_nat a) (h_stack d)) in
      let cv := chainingValue (parent_output parent_node (h_key d) (k_flags (h_chunk d))) in
      let b := w8 (a + 64) in
      if b <? a then None
      else merge_loop f (mkb3 (h_key d) (h_chunk d) (w8 (h_len d + 256 - 1)) (copy_at (h_stack d) (N.to_nat a) (firstn (N.to_nat (b - a)) cv)) (h_hs d)) post
    else Some d
  end%N.
Definition mergeCvStack (d : b3) (total : N) : option b3 := merge_loop 256 d (popcnt total).
(** digest.go:205-213 pushCV *)
Definition pushCV (d : b3) (cv : list N) (counter : N) : option b3 :=
  match mergeCvStack d counter with
  | None => None
  | Some d => Some (mkb3 (h_key d) (h_chunk d) (w8 (h_len d + 1)) (copy_at (h_stack d) (N.to_nat (w8 (h_len d * 32))) cv) (h_hs d))
  end.
Definition set_chunk (d : b3) (c : chunkState) : b3 := mkb3 (h_key d) c (h_len d) (h_stack d) (h_hs d).
Definition set_counter (c : chunkState) (n : N) : chunkState := mkcs (k_cv c) n (k_buf c) (k_blen c) (k_blocks c) (k_flags c).
(** digest.go:81-83: for ((uint64(subtree_len - 1)) & count_so_far) != 0 { subtree_len /= 2 } *)
Fixpoint shrink (fuel : nat) (subtree_len count : N) : N :=
  match fuel with O => subtree_len | S f => if (N.land (subtree_len - 1) count =? 0)%N then subtree_len else shrink f (subtree_len / 2)%N count end.
(** digest.go:75-118: the loop over subtrees *)
Fixpoint write_loop (fuel : nat) (d : b3) (input : list N) : option (b3 * list N) :=
  match fuel with
  | O => Some (d, input)
  | S f =>
    if 1024 <? length input then
      let ctr := k_ctr (h_chunk d) in
      let subtree_len := shrink 64 (round_down (N.of_nat (length input))) (mul64 ctr 1024) in
      let sl := N.to_nat subtree_len in
      let subtree_chunks := (subtree_len / 1024)%N in
      let r :=
        if (subtree_len <=? 1024)%N then
          let cs := set_counter (newChunkState (h_key d) (k_flags (h_chunk d))) ctr in
          let cs := cs_update cs (firstn sl input) in
          pushCV d (chainingValue (cs_output cs)) (k_ctr cs)
        else
          let pair := compress_subtree_to_parent_node (firstn sl input) (h_key d) ctr (k_flags (h_chunk d)) in
          match pushCV d (firstn 32 pair) ctr with
          | None => None
          | Some d => pushCV d (firstn 32 (skipn 32 pair)) (add64 ctr (subtree_chunks / 2))
          end in
      match r with
      | None => None
      | Some d => write_loop f (set_chunk d (set_counter (h_chunk d) (add64 ctr subtree_chunks))) (skipn sl input)
      end
    else Some (d, input)
  end.
(** digest.go:45-126 Write *)
Definition b3_tail (d : b3) (input : list N) : option b3 :=
  match write_loop (S (length input)) d input with
  | None => None
  | Some (d, input) =>
    if 0 <? length input then
      let d := set_chunk d (cs_update (h_chunk d) input) in
      mergeCvStack d (k_ctr (h_chunk d))
    else Some d
  end.
Definition b3_write (d : b3) (p : list N) : option b3 :=
  if length p =? 0 then Some d
  else if 0 <? cs_length (h_chunk d) then
    let take := 1024 - cs_length (h_chunk d) in
    let take := if length p <? take then length p else take in
    let d := set_chunk d (cs_update (h_chunk d) (firstn take p)) in
    let input := skipn take p in
    if 0 <? length input then
      match pushCV d (chainingValue (cs_output (h_chunk d))) (k_ctr (h_chunk d)) with
      | None => None
      | Some d => b3_tail (set_chunk d (cs_reset (h_chunk d) (h_key d) (add64 (k_ctr (h_chunk d)) 1))) input
      end
    else Some d
  else b3_tail d p.
(** digest.go:145-184 finalizeSeek(0, out) *)
Fixpoint final_loop (cvs_remaining : nat) (d : b3) (o : output) : output :=
  match cvs_remaining with
  | O => o
  | S r => final_loop r d (parent_output (slice (h_stack d) (r * 32) (r * 32 + 32) ++ chainingValue o) (h_key d) (k_flags (h_chunk d)))
  end.
Definition finalize (d : b3) (out_len : nat) : list N :=
  if out_len =? 0 then []
  else if (h_len d =? 0)%N then rootBytes (S out_len) (cs_output (h_chunk d)) 0 out_len
  else
    let '(rem, o) :=
      if 0 <? cs_length (h_chunk d) then (N.to_nat (h_len d), cs_output (h_chunk d))
      else let rem := (N.to_nat (h_len d) - 2)%nat in
           (rem, parent_output (firstn 64 (skipn (rem * 32) (h_stack d))) (h_key d) (k_flags (h_chunk d))) in
    rootBytes (S out_len) (final_loop rem d o) 0 out_len.
(** digest.go:128-143 Sum, checkSum: finalizeSeek only reads the copy of the object *)
Definition b3_sum (d : b3) (inp : list N) : list N := inp ++ finalize d (h_hs d).

(** A client's calls; None: the call panicked (nothing is observed after that) *)
Fixpoint b3_run (d : b3) (ops : list op) : list (option obs) :=
  match ops with
  | [] => []
  | Write p :: t => match b3_write d p with Some d' => Some (Wrote (length p)) :: b3_run d' t | None => [None] end
  | Sum i :: t => Some (Summed (b3_sum d i)) :: b3_run d t
  | Reset :: t => b3_run (b3_reset d) t
  end.
(** blake3.go:8-50 the constructors; bytesToUint32s (utils.go:16-27) *)
Definition bytesToUint32s (b : list N) : list N := map (fun i => le_val (firstn 4 (skipn (i * 4) b))) (seq 0 (length b / 4)).
Definition NewWithSize (size : nat) : b3 := b3_new b3_iv 0 size.
Definition NewWithKeyedAndSize (key : list N) (size : nat) : option b3 :=
  if length key =? 32 then Some (b3_new (bytesToUint32s key) KEYED_HASH size) else None.
Definition NewWithDeriveKeyAndSize (context : list N) (size : nat) : option b3 :=
  match b3_write (b3_new b3_iv DERIVE_KEY_CONTEXT 32) context with
  | None => None
  | Some h => Some (b3_new (bytesToUint32s (b3_sum h [])) DERIVE_KEY_MATERIAL size)
  end.
(** blake3.go:52-60 Sum *)
Definition b3_Sum (data : list N) : option (list N) :=
  match b3_write (NewWithSize 32) data with None => None | Some d => Some (b3_sum d []) end.
