(** Vmac.v -- model of /repo/vmac/vmac.go, sbox.go and utils.go.  big.Int values are N; [x.Bytes()] copied to the end of a zeroed n-byte
    array is [be_bytes n x] (all such x are below 256^n).  None is a run-time panic. *)
From Coq Require Import List NArith ZArith Arith Bool.
From Verif Require Import Base HashAPI.
Import ListNotations.

(** sbox.go:7-22 *)
Definition m64 : N := N.shiftl 1 64.
Definition m126 : N := N.shiftl 1 126.
Definition m128 : N := N.shiftl 1 128.
Definition p64_ : N := be_val [0xFF; 0xFF; 0xFF; 0xFF; 0xFF; 0xFF; 0xFE; 0xFF]%N.
Definition p64p32 : N := be_val [0xFF; 0xFF; 0xFF; 0xFF; 0; 0; 0; 0]%N.
Definition p127_ : N := be_val [0x7F; 0xFF; 0xFF; 0xFF; 0xFF; 0xFF; 0xFF; 0xFF; 0xFF; 0xFF; 0xFF; 0xFF; 0xFF; 0xFF; 0xFF; 0xFF]%N.
(** utils.go:7-31 nh; the loop visits i = 0, 2, 4, ... below t *)
Definition vm_nh (k m : list N) : list N :=
  let t := length m / 8 in
  let y := fold_left (fun y i =>
    let mi := be_val (slice m (i * 8) ((i + 1) * 8)) in
    let ki := be_val (slice k (i * 8) ((i + 1) * 8)) in
    let mj := be_val (slice m ((i + 1) * 8) ((i + 2) * 8)) in
    let kj := be_val (slice k ((i + 1) * 8) ((i + 2) * 8)) in
    let sumi := ((mi + ki) mod m64)%N in
    let sumj := ((mj + kj) mod m64)%N in
    let prod := ((sumi * sumj) mod m128)%N in
    ((y + prod) mod m128)%N) (map (fun j => 2 * j) (seq 0 ((t + 1) / 2))) 0%N in
  be_bytes 16 (y mod m126)%N.
(** utils.go:37-45 zeroPad *)
Definition vm_zeroPad (s : list N) : list N :=
  let r := length s mod 16 in if negb (r =? 0) then copy_at (zeros (length s + 16 - r)) 0 s else s.
(** utils.go:47-61 endianSwap: t[i+c] = s[i+7-c] for i a multiple of 8, c = 0..7 *)
Definition vm_endianSwap (s : list N) : list N := map (fun j => at_ s (j / 8 * 8 + (7 - j mod 8))) (seq 0 (length s)).

(** vmac.go:19-25 digest; the cipher is the function E of the methods, blocklen = 128 *)
Record vm := mkvm { v_nonce : list N; v_size : Z; v_msg : list N }.
(** vmac.go:27-48 New; aes.NewCipher accepts keys of 16, 24 and 32 bytes.  None is an error. *)
Definition vm_New (key nonce : list N) (size : Z) : option vm :=
  if negb ((length key =? 16) || (length key =? 24) || (length key =? 32)) then None
  else if 16 <=? length nonce then None
  else if negb (Z.rem size 8 =? 0)%Z then None
  else Some (mkvm nonce size []).
(** vmac.go:58-64 Reset, Write *)
Definition vm_reset (h : vm) : vm := mkvm (v_nonce h) (v_size h) [].
Definition vm_write (h : vm) (p : list N) : vm * nat := (mkvm (v_nonce h) (v_size h) (v_msg h ++ p), length p).
(** vmac.go:89-96 SetNonce; the flag is "err == nil" *)
Definition vm_setNonce (h : vm) (n : list N) : vm * bool := if 16 <=? length n then (h, false) else (mkvm n (v_size h) (v_msg h), true).
Section M.
Variable E : list N -> list N.
(** vmac.go:110-122 kdf *)
Definition vm_kdf (index : N) (numbits : nat) : list N :=
  let n := (numbits + 128 - 1) / 128 in
  firstn (numbits / 8) (flat_map (fun i => E (upd (upd (zeros 16) 0 (w8 index)) 15 (w8 (N.of_nat i)))) (seq 0 n)).
(** vmac.go:124-135 pdf.  size = 0: division by zero; empty nonce: index -1; else the final slice must lie within the block. *)
Definition vm_pdf (h : vm) : option (list N) :=
  if (v_size h =? 0)%Z then None else
  let tagsPerBlock := Z.quot 16 (v_size h) in
  let mask := Z.to_N (Z.modulo (tagsPerBlock - 1) 256) in
  if length (v_nonce h) =? 0 then None else
  let index := N.land (at_ (v_nonce h) (length (v_nonce h) - 1)) mask in
  let pad := copy_at (zeros 16) (16 - length (v_nonce h)) (v_nonce h) in
  let pad := upd pad 15 (w8 (at_ pad 15 + 256 - index)) in
  let pad := E pad in
  let lo := (Z.of_N index * v_size h)%Z in
  let hi := (lo + v_size h)%Z in
  if (0 <=? lo)%Z && (lo <=? hi)%Z && (hi <=? 16)%Z then Some (slice pad (Z.to_nat lo) (Z.to_nat hi)) else None.
(** vmac.go:137-160 l1; y is filled left to right *)
Definition vm_l1 (msg : list N) (iter : nat) : list N :=
  let tmpk := vm_kdf 128 (1024 + 128 * iter) in
  let k := slice tmpk (16 * iter) (128 + 16 * iter) in
  let t := (length msg + 128 - 1) / 128 in
  flat_map (fun i =>
    let mi := if length msg <? (i + 1) * 128 then skipn (i * 128) msg else slice msg (i * 128) ((i + 1) * 128) in
    vm_nh k (vm_endianSwap (vm_zeroPad mi))) (seq 0 t).
(** vmac.go:162-188 l2; the length in bits is an int *)
Definition vm_l2 (m : list N) (len : N) (iter : nat) : list N :=
  let tmpt := vm_kdf 192 (128 * (iter + 1)) in
  let t := slice tmpt (16 * iter) (16 * (iter + 1)) in
  let t := fold_left (fun t i => upd t i (N.land (at_ t i) 31)) [0; 4; 8; 12] t in
  let k := be_val t in
  let n := length m / 16 in
  let y := if negb (n =? 0) then fold_left (fun y i => ((y * k + be_val (slice m (16 * i) (16 * (i + 1)))) mod p127_)%N) (seq 0 n) 1%N else k in
  be_bytes 16 ((y + N.shiftl (len mod 1024) 64) mod p127_)%N.
(** vmac.go:195-202 the key search of l3; None: more than [fuel] candidates were needed *)
Fixpoint vm_l3key (fuel i need : nat) (k1 k2 : N) : option (N * N) :=
  match need with
  | O => Some (k1, k2)
  | S need' =>
    match fuel with
    | O => None
    | S fuel =>
      let t := slice (vm_kdf 224 (128 * (i + 1))) (16 * i) (16 * (i + 1)) in
      let k1 := be_val (firstn 8 t) in let k2 := be_val (skipn 8 t) in
      if (k1 <? p64_)%N && (k2 <? p64_)%N then vm_l3key fuel (i + 1) need' k1 k2 else vm_l3key fuel (i + 1) need k1 k2
    end
  end.
(** vmac.go:190-216 l3 *)
Definition vm_l3 (m : list N) (iter : nat) : option (list N) :=
  match vm_l3key 256 0 (iter + 1) 0%N 0%N with
  | None => None
  | Some (k1, k2) =>
    let mint := be_val m in
    let m1 := (mint / p64p32)%N in
    let m2 := (mint mod p64p32)%N in
    let y := ((m1 + k1) * (m2 + k2))%N in
    Some (be_bytes 8 (y mod p64_)%N)
  end.
(** vmac.go:98-108 vhash; make([]byte, 0, size) panics for a negative size *)
Definition vm_vhash (h : vm) : option (list N) :=
  if (v_size h <? 0)%Z then None else
  fold_left (fun y i =>
    match y, vm_l3 (vm_l2 (vm_l1 (v_msg h) i) (N.of_nat (length (v_msg h)) * 8) i) i with
    | Some y, Some c => Some (y ++ c)
    | _, _ => None
    end) (seq 0 (Z.to_nat (v_size h) / 8)) (Some []).
(** vmac.go:73-87 checkSum *)
Definition vm_checkSum (h : vm) : option (list N) :=
  match vm_vhash h, vm_pdf h with
  | Some hashed, Some pad =>
    Some (flat_map (fun i => be_bytes 8 ((be_val (slice pad (8 * i) (8 * (i + 1))) + be_val (slice hashed (8 * i) (8 * (i + 1)))) mod m64)%N) (seq 0 (Z.to_nat (v_size h) / 8)))
  | _, _ => None
  end.
(** vmac.go:66-71 Sum *)
Definition vm_sum (h : vm) (inp : list N) : option (list N) :=
  match vm_checkSum h with Some s => Some (inp ++ s) | None => None end.
End M.
