(** SpecSkn.v -- Skein-512 with its optional inputs and the stream of output bytes, from "The Skein Hash Function Family" 1.3,
    sections 3.5 and 4 (UBI and Threefish are those of SpecSkein.v). *)
From Coq Require Import List NArith Arith.
Require Import Verif.Base Verif.HashAPI Verif.SpecCmac Verif.SpecSkein.
Import ListNotations.
(** An optional input is absent or a byte string. *)
Record skn_args : Type := mkargs { a_key : option (list N); a_person : option (list N); a_pub : option (list N); a_kid : option (list N); a_nonce : option (list N) }.
Definition skn_noargs : skn_args := mkargs None None None None None.
(** configuration string: "SHA3", version 1, output length in bits *)
Definition skn_cfg (bits : N) : list N := [0x53; 0x48; 0x41; 0x33; 1; 0; 0; 0]%N ++ le_bytes 8 bits ++ zeros 16.
Definition skn_opt (typ : N) (a : option (list N)) (G : list N) : list N := match a with None => G | Some x => ubi V512 G x typ end.
(** "If K is the empty string, the starting value K' is 0; otherwise K' is the UBI of K" *)
Definition skn_key (key : option (list N)) : list N :=
  match key with None | Some [] => zeros 8 | Some k => ubi V512 (zeros 8) k 0 end.
(** the other inputs, from the value after the key *)
Definition skn_inputs (bits : N) (a : skn_args) (K : list N) : list N :=
  skn_opt 20 (a_nonce a) (skn_opt 16 (a_kid a) (skn_opt 12 (a_pub a) (skn_opt 8 (a_person a) (ubi V512 K (skn_cfg bits) 4)))).
Definition skn_chain (bits : N) (a : skn_args) : list N := skn_inputs bits a (skn_key (a_key a)).
(** Skein-512 with [outLen] bytes of output *)
Definition skn_hash (outLen : nat) (a : skn_args) (m : list N) : list N :=
  skein_output V512 (ubi V512 (skn_chain (8 * N.of_nat outLen) a) m 48) outLen.

(** Reading the output: [RRead n] asks for the next n bytes, [RXor src] for src xored with the next bytes. *)
Inductive rop : Type := RRead (n : nat) | RXor (src : list N).
Definition rop_len (o : rop) : nat := match o with RRead n => n | RXor src => length src end.
Definition rop_out (o : rop) (ks : list N) : list N := match o with RRead _ => ks | RXor src => map (fun p => N.lxor (fst p) (snd p)) (combine src ks) end.
Fixpoint ideal_reader (G : list N) (pos : nat) (ops : list rop) : list (list N) :=
  match ops with
  | [] => []
  | o :: ops => rop_out o (skipn pos (skein_output V512 G (pos + rop_len o))) :: ideal_reader G (pos + rop_len o) ops
  end.
(** the stream cipher: no message, output length 2^64 - 1 bits (section 4.9) *)
Definition skn_stream_args (key nonce : option (list N)) : skn_args := mkargs key None None None nonce.
Definition skn_stream (key nonce : option (list N)) : list N := skn_chain (2 ^ 64 - 1) (skn_stream_args key nonce).

(** The case without optional inputs is the Skein-512 of SpecSkein.v, whose known answers are checked there. *)
Lemma skn_hash_plain : forall outLen m, skn_hash outLen skn_noargs m = skein V512 outLen no_config m.
Proof. reflexivity. Qed.
