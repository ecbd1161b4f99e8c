(** SpecGf2.v -- polynomials over GF(2) as numbers: bit i is the coefficient of x^i, addition is
    exclusive or, multiplication is carry-less. *)
From Coq Require Import List NArith Arith.
From Verif Require Import Base.
Import ListNotations.

Fixpoint clmul_pos (q : positive) (p : N) : N :=
  match q with
  | xH => p
  | xO q' => N.double (clmul_pos q' p)
  | xI q' => N.lxor p (N.double (clmul_pos q' p))
  end.
Definition clmul (q p : N) : N := match q with N0 => 0%N | Npos q' => clmul_pos q' p end.

(** [r] is the remainder of the division of [a] by [p] (of degree log2 p). *)
Definition is_rem (p a r : N) : Prop := (r < 2 ^ N.log2 p)%N /\ exists q, a = N.lxor r (clmul q p).

(** The remainder, computed by schoolbook division one bit at a time. *)
Definition reduce1 (p r : N) : N := if N.testbit r (N.log2 p) then N.lxor r p else r.
Fixpoint prem_pos (p : N) (a : positive) : N :=
  match a with
  | xH => reduce1 p 1
  | xO a' => reduce1 p (N.double (prem_pos p a'))
  | xI a' => reduce1 p (N.succ_double (prem_pos p a'))
  end.
Definition prem (p a : N) : N := match a with N0 => 0%N | Npos a' => prem_pos p a' end.

(** The last [w] elements of a list (all of it when it is shorter). *)
Definition lastn {A} (w : nat) (m : list A) : list A := skipn (length m - w) m.

(** Rabin fingerprint of the last [w] bytes ([w = 0]: of the whole message): bytes are coefficients,
    first byte most significant; serialised least significant byte first. *)
Definition rabin_spec (p : N) (w : nat) (m : list N) : list N :=
  le_bytes (N.to_nat ((N.log2 p + 8) / 8)) (prem p (be_val (if w =? 0 then m else lastn w m))).
