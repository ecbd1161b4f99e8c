(** SpecRadio.v -- RadioGatun (Bertoni, Daemen, Peeters, Van Assche, 2006) with words of w bits, w = 32 or 64, written
    from the paper.  The belt is the list of its 13 stages of 3 words, flattened (word r of stage s is number 3 s + r);
    the mill is a list of 19 words.  Uses nothing of the model. *)
From Coq Require Import List NArith Arith Bool.
Require Import Verif.Base.
Import ListNotations.

Section Spec.
(** ws: bytes per word. *)
Variable ws : nat.
Definition rg_w : N := (8 * N.of_nat ws)%N.
Definition rg_not (x : N) : N := N.lxor x (2 ^ rg_w - 1).
Definition rg_rotr (x k : N) : N := N.lor (N.shiftr x k) (N.shiftl x (rg_w - k) mod 2 ^ rg_w).
(** The mill function: nonlinearity, dispersion, diffusion, asymmetry. *)
Definition rg_mill (a : list N) : list N :=
  let a := map (fun i => N.lxor (at_ a i) (N.lor (at_ a ((i + 1) mod 19)) (rg_not (at_ a ((i + 2) mod 19))))) (seq 0 19) in
  let a := map (fun i => rg_rotr (at_ a (7 * i mod 19)) (N.of_nat (i * (i + 1) / 2) mod rg_w)) (seq 0 19) in
  let a := map (fun i => N.lxor (N.lxor (at_ a i) (at_ a ((i + 1) mod 19))) (at_ a ((i + 4) mod 19))) (seq 0 19) in
  map (fun i => if i =? 0 then N.lxor (at_ a i) 1 else at_ a i) (seq 0 19).
(** The round function: belt rotation with mill-to-belt feedforward, mill function with belt-to-mill feedforward. *)
Definition rg_round (st : list N * list N) : list N * list N :=
  let '(b, a) := st in
  (map (fun k => let s := k / 3 in let r := k mod 3 in
         let old := at_ b (3 * ((s + 12) mod 13) + r) in
         if (1 <=? s) && (r =? (s - 1) mod 3) then N.lxor old (at_ a s) else old) (seq 0 39),
   let a' := rg_mill a in
   map (fun i => if (13 <=? i) && (i <? 16) then N.lxor (at_ a' i) (at_ b (36 + (i - 13))) else at_ a' i) (seq 0 19)).
(** Input of three words. *)
Definition rg_input (p : list N) (st : list N * list N) : list N * list N :=
  let '(b, a) := st in
  (map (fun k => if k <? 3 then N.lxor (at_ b k) (at_ p k) else at_ b k) (seq 0 39),
   map (fun i => if 16 <=? i then N.lxor (at_ a i) (at_ p (i - 16)) else at_ a i) (seq 0 19)).
Definition rg_words (block : list N) : list N := map le_val (chunks ws block).
Definition rg_absorb (st : list N * list N) (block : list N) : list N * list N := rg_round (rg_input (rg_words block) st).
(** Output: two words of the mill after every round. *)
Fixpoint rg_output (k : nat) (st : list N * list N) : list N :=
  match k with
  | O => []
  | S k => let st := rg_round st in le_bytes ws (at_ (snd st) 1) ++ le_bytes ws (at_ (snd st) 2) ++ rg_output k st
  end.
Definition rg_pad (m : list N) : list N := m ++ 1%N :: zeros ((3 * ws - (length m + 1) mod (3 * ws)) mod (3 * ws)).
(** The 256-bit hash: padding with a single one, absorption, 16 blank rounds, output. *)
Definition rg_hash (m : list N) : list N :=
  let st := fold_left rg_absorb (chunks (3 * ws) (rg_pad m)) (zeros 39, zeros 19) in
  rg_output (32 / (2 * ws)) (Nat.iter 16 rg_round st).
End Spec.
(** Published vectors: the messages "" and "0" with 32-bit words, "" with 64-bit words. *)
Example rg32_empty : be_val (rg_hash 4 []) = 0xF30028B54AFAB6B3E55355D277711109A19BEDA7091067E9A492FB5ED9F20117%N.
Proof. vm_compute. reflexivity. Qed.
Example rg32_0 : be_val (rg_hash 4 [48%N]) = 0xAF0D3F51B98E90EEEBAE86DD0B304A4003AC5F755FA2CAC2B6866A0A91C5C752%N.
Proof. vm_compute. reflexivity. Qed.
Example rg64_empty : be_val (rg_hash 8 []) = 0x64A9A7FA139905B57BDAB35D33AA216370D5EAE13E77BFCDD85513408311A584%N.
Proof. vm_compute. reflexivity. Qed.
