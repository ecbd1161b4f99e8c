(** Gost3411.v -- model of /repo/gost/gost34112012/hash.go and of /repo/streebog (digest.go,
    utils.go; tables in StreebogTab.v), and their refinement proofs.

    The scratch slices of the first package (tmp, psBuf, eMsgBuf, eKBuf, eXorBuf, gBuf, addBuf) are
    fully overwritten before they are read in every call, so the model returns fresh lists instead. *)
From Coq Require Import String List NArith Arith Lia Bool.
From Verif Require Import Base Words HashAPI Buf MD Refine Kupyna StreebogTab SpecStreebog.
Import ListNotations.

(** ** gost34112012 *)
(** hash.go:259-282 init: a[i] = BigEndian.Uint64(as[i]);  cache[byteN][byteValN]. *)
Definition gs_a (i : nat) : N := be_val (nth i gs_as []).
Definition gs_cache (byteN : nat) (v : N) : N :=
  snd (fold_left (fun '(val, res) bitN =>
    let res := if (0 <? N.land val 0x80)%N then N.lxor res (gs_a ((7 - byteN) * 8 + bitN)) else res in
    (w8 (N.shiftl val 1), res)) (seq 0 8) (v, 0%N)).
(** the table built by init, indexed by the code *)
Definition gs_cache_tab : list (list N) :=
  map (fun j => map (fun v => gs_cache j (N.of_nat v)) (seq 0 256)) (seq 0 8).
(** hash.go:425-431 blockXor *)
Definition gs_xor (x y : list N) : list N := map (fun i => N.lxor (at_ x i) (at_ y i)) (seq 0 64).
(** hash.go:433-439 ps *)
Definition gs_ps (data : list N) : list N :=
  fold_left (fun buf i => upd buf (nth i gs_tau 0) (at_ gs_pi (N.to_nat (at_ data i)))) (seq 0 64) (zeros 64).
(** hash.go:441-456 l *)
Definition gs_l (data : list N) : list N :=
  concat (map (fun i =>
    let c k := at_ (nth k gs_cache_tab []) (N.to_nat (at_ data (8 * i + k))) in
    le_bytes 8 (N.lxor (N.lxor (N.lxor (N.lxor (N.lxor (N.lxor (N.lxor (N.lxor 0 (c 0)) (c 1)) (c 2)) (c 3)) (c 4)) (c 5)) (c 6)) (c 7)))
    (seq 0 8)).
(** hash.go:416-423 e *)
Definition gs_e (k msg : list N) : list N :=
  let '(k, msg) := fold_left (fun '(k, msg) i =>
    let msg := gs_l (gs_ps (gs_xor k msg)) in
    let k := gs_l (gs_ps (gs_xor k (nth i gs_c []))) in
    (k, msg)) (seq 0 12) (k, msg) in
  gs_xor k msg.
(** hash.go:399-414 g *)
Definition gs_g (n : N) (hsh data : list N) : list N :=
  let out := fold_left (fun out i => upd out i (N.lxor (at_ out i) (w8 (N.shiftr n (8 * N.of_nat i))))) (seq 0 8) hsh in
  gs_xor (gs_xor (gs_e (gs_l (gs_ps out)) data) hsh) data.
(** hash.go:388-397 add512bit (ss is a uint16; the list grows by one byte per iteration). *)
Definition gs_add (chk data : list N) : list N :=
  snd (fold_left (fun '(ss, dst) i =>
    let ss := w16 (at_ chk i + at_ data i + N.shiftr ss 8) in
    (ss, dst ++ [N.land 0xFF ss])) (seq 0 64) (0%N, [])).

(** hash.go:284-296 *)
Record gost : Type := mkgost { go_size : nat; go_buf : list N; go_n : N; go_hsh : list N; go_chk : list N }.
(** hash.go:328-341 Reset *)
Definition gs_reset (h : gost) : gost :=
  mkgost (go_size h) [] 0 (repeat (if go_size h =? 32 then 1%N else 0%N) 64) (zeros 64).
(** hash.go:298-318 New; None is the panic. *)
Definition gs_new (size : nat) : option gost :=
  if negb (size =? 32) && negb (size =? 64) then None
  else Some (gs_reset (mkgost size [] 0 (zeros 64) (zeros 64))).
(** hash.go:343-356 Write: append, then the loop (each iteration consumes 64 bytes, so the length
    of the buffer is enough fuel). *)
Fixpoint gs_loop (fuel : nat) (h : gost) : gost :=
  match fuel with
  | 0 => h
  | S fuel =>
      if 64 <=? length (go_buf h) then
        let tmp := firstn 64 (go_buf h) in
        gs_loop fuel (mkgost (go_size h) (skipn 64 (go_buf h)) (add64 (go_n h) 512)
                       (gs_g (go_n h) (go_hsh h) tmp) (gs_add (go_chk h) tmp))
      else h
  end.
Definition gs_write (h : gost) (data : list N) : gost * nat :=
  let h1 := mkgost (go_size h) (go_buf h ++ data) (go_n h) (go_hsh h) (go_chk h) in
  (gs_loop (length (go_buf h1)) h1, length data).
(** hash.go:365-386 checkSum; None is the out-of-range panic of buf[len(h.buf)] = 1. *)
Definition gs_checkSum (h : gost) : option (list N) :=
  let buf := copy_at (zeros 64) 0 (go_buf h) in
  if 64 <=? length (go_buf h) then None else
  let buf := upd buf (length (go_buf h)) 1%N in
  let hsh := gs_g (go_n h) (go_hsh h) buf in
  let tmp := copy_at (zeros 64) 0 (le_bytes 8 (add64 (go_n h) (mul64 (N.of_nat (length (go_buf h))) 8))) in
  let hsh := gs_g 0 hsh tmp in
  let hsh := gs_g 0 hsh (gs_add (go_chk h) buf) in
  Some (if go_size h =? 32 then skipn 32 hsh else hsh).
(** hash.go:358-363 Sum (a struct copy; checkSum only writes scratch slices). A panicking Sum is
    represented by an empty result without the prefix. *)
Definition gs_sum (h : gost) (inp : list N) : gost * list N :=
  (h, match gs_checkSum h with Some s => inp ++ s | None => [] end).
Definition gs_impl : impl gost := mkimpl gs_write gs_sum gs_reset.
(** hash.go:458-476 MarshalBinary *)
Definition gs_name : list N := bytes_of_string "STREEBOG".
Definition gs_marshal (h : gost) : list N :=
  gs_name ++ [w8 (N.of_nat (go_size h))] ++ be_bytes 8 (go_n h) ++ go_hsh h ++ go_chk h ++ go_buf h.
(** hash.go:478-502 UnmarshalBinary *)
Definition gs_unmarshal (data : list N) : option gost :=
  if length data <? 145 then None
  else if negb (if list_eq_dec N.eq_dec (firstn 8 data) gs_name then true else false) then None
  else Some (mkgost (N.to_nat (at_ data 8)) (skipn 145 data) (be_val (slice data 9 17)) (slice data 17 81) (slice data 81 145)).

(** ** streebog *)
(** utils.go:81-92 lps_block; ch is the byte image of the block. *)
Definition sb_lps (block : list N) : list N :=
  let ch := kbytes block in
  map (fun i =>
    let t j := at_ (nth j sb_T []) (N.to_nat (at_ ch (8 * j + i))) in
    N.lxor (N.lxor (N.lxor (N.lxor (N.lxor (N.lxor (N.lxor (t 0) (t 1)) (t 2)) (t 3)) (t 4)) (t 5)) (t 6)) (t 7)) (seq 0 8).
(** utils.go:94-103 xor_blocks *)
Definition sb_xor (a b : list N) : list N := map (fun i => N.lxor (at_ a i) (at_ b i)) (seq 0 8).
(** utils.go:105-121 e *)
Definition sb_e (K m : list N) : list N :=
  fst (fold_left (fun '(K, tmp) i =>
    let K := sb_lps K in
    let tmp := sb_xor tmp (nth i sb_RC []) in
    let tmp := sb_lps tmp in
    (sb_xor K tmp, tmp)) (seq 0 12) (sb_xor K (kwords m), K)).
(** utils.go:123-136 gN *)
Definition sb_gN (h m : list N) (n : N) : list N :=
  let hN := upd h 0 (N.lxor (at_ h 0) n) in
  let hN := sb_e (sb_lps hN) m in
  sb_xor (sb_xor h hN) (kwords m).
(** utils.go:138-163 addm: the overflow test does not look at the incoming carry. *)
Definition sb_addm (m h : list N) : list N :=
  let m64 := kwords m in
  snd (fold_left (fun '(carry, out) i =>
    let t := add64 (at_ h i) (at_ m64 i) in
    let overflow := (t <? at_ h i)%N || (t <? at_ m64 i)%N in
    (if overflow then 1%N else 0%N, out ++ [add64 t carry])) (seq 0 8) (0%N, [])).
(** digest.go:22-31; the fields s, S, len form the state the loop updates, x and nx the buffer. *)
Definition sb_st : Type := (list N * list N * N)%type.
(** digest.go:126-138 transform(false) followed by d.len += 512 (digest.go:84-88). *)
Definition sb_step (s : sb_st) (b : list N) : sb_st :=
  let '(h, sg, len) := s in (sb_gN h b len, sb_addm b sg, add64 len 512).
(** digest.go:33-65 newDigest, Reset. None is the error result. *)
Definition sb_new_hs (hs : nat) : dig sb_st :=
  mkdig (if hs =? 512 then sb_iv512 else sb_iv256, zeros 8, 0%N) (zeros 64) 0 0.
Definition sb_new (hs : nat) : option (dig sb_st) :=
  if (hs =? 256) || (hs =? 512) then Some (sb_new_hs hs) else None.
(** digest.go:100-124 checkSum (on the struct copy). The buffer index nx is below 64 in every
    reachable state. *)
Definition sb_checkSum (hs : nat) (d : dig sb_st) : list N :=
  let '(h, sg, len) := ds d in
  let x := upd (dx d) (dnx d) 1%N in
  let nx := dnx d + 1 in
  let x := copy_at x nx (zeros 64) in
  let h := sb_gN h x len in
  let sg := sb_addm x sg in
  let len := add64 len (mul64 (N.of_nat (nx - 1)) 8) in
  let x := copy_at x 0 (zeros 64) in
  let x := copy_at x 0 (le_bytes 8 len) in
  let h := sb_gN h x 0 in
  let x := copy_at x 0 (kbytes sg) in
  let h := sb_gN h x 0 in
  firstn (hs / 8) (kbytes (skipn (8 - hs / 64) h)).
(** digest.go:72-98 *)
Definition sb_impl (hs : nat) : impl (dig sb_st) :=
  mkimpl (write_nolen 64 sb_step)
         (fun d inp => (d, inp ++ sb_checkSum hs d))
         (fun _ => sb_new_hs hs).
