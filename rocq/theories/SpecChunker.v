(** SpecChunker.v -- what content-defined chunking of a byte stream is, without buffers or readers. *)
From Coq Require Import List NArith Arith Bool.
From Verif Require Import Base SpecGf2.
Import ListNotations.

Inductive rerr := EOF | Fail | ZeroRead.

Section C.
Variables (p : N) (w minB maxB : nat) (mask : N).

(** After [L] bytes of the current chunk there is a boundary when the chunk has its maximal size or
    the Rabin fingerprint (remainder modulo [p]) of the last [w] bytes has all the mask bits set. *)
Definition boundary (s : list N) (L : nat) : bool :=
  ((N.land (prem p (be_val (lastn w (firstn L s)))) mask =? mask)%N || (L =? maxB))%bool.

(** The first boundary of the stream [s] among the lengths minB .. maxB that the stream has. *)
Definition cut (s : list N) : option nat :=
  find (boundary s) (seq minB (S (Nat.min maxB (length s)) - minB)).

(** The results (length, error) of the first [n] calls of Next on the stream [s] that ends with the
    reader error [term].  The zero-length chunk in the case [w < minB] is what the code does when
    the stream ends exactly at a boundary. *)
Fixpoint chunk_results (term : rerr) (s : list N) (n : nat) : list (nat * option rerr) :=
  match n with
  | O => []
  | S n' =>
    match cut s with
    | Some L => (L, None) :: chunk_results term (skipn L s) n'
    | None =>
      match term with
      | EOF => if (0 <? length s) || (w <? minB)
               then (length s, None) :: repeat (0, Some EOF) n'
               else repeat (0, Some EOF) (S n')
      | e => repeat (0, Some e) (S n')
      end
    end
  end.
End C.
