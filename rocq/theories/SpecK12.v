(** SpecK12.v -- Keccak-p[1600], TurboSHAKE-like sponge and KangarooTwelve, written from FIPS 202 and RFC 9861
    (draft-irtf-cfrg-kangarootwelve), independently of the code. *)
From Coq Require Import List NArith Arith Bool.
From Verif Require Import Base.
Import ListNotations.

(** ** The permutation.  Lane (x, y) of the state is word x + 5 y. *)
Definition lane (A : list N) (x y : nat) : N := at_ A (x + 5 * y).
Definition of_lanes (f : nat -> nat -> N) : list N := flat_map (fun y => map (fun x => f x y) (seq 0 5)) (seq 0 5).

Definition k_C (A : list N) (x : nat) : N :=
  N.lxor (N.lxor (N.lxor (N.lxor (lane A x 0) (lane A x 1)) (lane A x 2)) (lane A x 3)) (lane A x 4).
Definition k_D (A : list N) (x : nat) : N := N.lxor (k_C A ((x + 4) mod 5)) (rotl64 (k_C A ((x + 1) mod 5)) 1).
Definition k_theta (A : list N) : list N := of_lanes (fun x y => N.lxor (lane A x y) (k_D A x)).

(** rho: lane (0,0) is kept; starting from (1,0), lane number t on the walk (x,y) -> (y, 2x+3y) is rotated by
    (t+1)(t+2)/2. *)
Fixpoint rho_walk (n t x y : nat) (A : list N) : list N :=
  match n with
  | O => A
  | S n => rho_walk n (S t) y ((2 * x + 3 * y) mod 5)
             (upd A (x + 5 * y) (rotl64 (lane A x y) (N.of_nat (((t + 1) * (t + 2) / 2) mod 64))))
  end.
Definition k_rho (A : list N) : list N := rho_walk 24 0 1 0 A.
Definition k_pi (A : list N) : list N := of_lanes (fun x y => lane A ((x + 3 * y) mod 5) x).
Definition k_chi (A : list N) : list N :=
  of_lanes (fun x y => N.lxor (lane A x y) (N.ldiff (lane A ((x + 2) mod 5) y) (lane A ((x + 1) mod 5) y))).
Definition k_iota (k : N) (A : list N) : list N := upd A 0 (N.lxor (lane A 0 0) k).
Definition k_round (k : N) (A : list N) : list N := k_iota k (k_chi (k_pi (k_rho (k_theta A)))).

(** Round constants: bit 2^j - 1 of RC(i) is output j + 7 i of a shift register with feedback x^8+x^6+x^5+x^4+1. *)
Definition lfsr_step (r : N) : N := let r := N.double r in if N.testbit r 8 then N.lxor r 0x171 else r.
Definition lfsr_out (t : nat) : bool := N.testbit (Nat.iter t lfsr_step 1%N) 0.
Definition k_RC (i : nat) : N :=
  fold_left (fun rc j => if lfsr_out (j + 7 * i) then N.lor rc (N.shiftl 1 (2 ^ N.of_nat j - 1)) else rc) (seq 0 7) 0%N.
(** The last nr of the 24 rounds. *)
Definition keccak_p (nr : nat) (A : list N) : list N := fold_left (fun A i => k_round (k_RC i) A) (seq (24 - nr) nr) A.

(** ** The sponge with rate 168 over a permutation F: message, domain byte, stream of output bytes. *)
Definition sp_rate : nat := 168.
(** message, domain byte, zeros up to a whole number of blocks; the last bit is then set. *)
Definition sp_pad (ds : N) (m : list N) : list N :=
  let z := m ++ ds :: zeros (sp_rate - 1 - length m mod sp_rate) in
  removelast z ++ [N.lxor (last z 0%N) 0x80].
Definition sp_word (b : list N) (i : nat) : N := le_val (slice b (8 * i) (8 * i + 8)).
Definition sp_xor (A b : list N) : list N := map (fun i => N.lxor (at_ A i) (sp_word b i)) (seq 0 25).
Definition sp_absorb (F : list N -> list N) (A : list N) (bs : list (list N)) : list N :=
  fold_left (fun A b => F (sp_xor A b)) bs A.
Definition sp_bytes (A : list N) : list N := concat (map (le_bytes 8) A).
(** Byte j of the output. *)
Definition sponge (F : list N -> list N) (ds : N) (m : list N) (j : nat) : N :=
  at_ (sp_bytes (Nat.iter (j / sp_rate) F (sp_absorb F (zeros 25) (chunks sp_rate (sp_pad ds m))))) (j mod sp_rate).
Definition squeeze (h : nat -> N) (pos n : nat) : list N := map h (seq pos n).

(** ** KangarooTwelve *)
Definition byte_count (n : N) : nat := N.to_nat ((N.size n + 7) / 8).
Definition right_encode (n : N) : list N := be_bytes (byte_count n) n ++ [N.of_nat (byte_count n)].
Definition k12_B : nat := 64 * 128.
(** Number of chunks after the first one; chunk i. *)
Definition k12_n (s : list N) : nat := (length s - 1) / k12_B.
Definition k12_chunk (s : list N) (i : nat) : list N := firstn k12_B (skipn (i * k12_B) s).
Definition k12_cv (F : list N -> list N) (c : list N) : list N := squeeze (sponge F 0x0b c) 0 32.
Definition k12_tree (F : list N -> list N) (s : list N) : nat -> N :=
  if k12_n s =? 0 then sponge F 0x07 s
  else sponge F 0x06 (firstn k12_B s ++ [3; 0; 0; 0; 0; 0; 0; 0]%N
                      ++ flat_map (fun i => k12_cv F (k12_chunk s i)) (seq 1 (k12_n s))
                      ++ right_encode (N.of_nat (k12_n s)) ++ [255; 255]%N).
(** Output byte j of KangarooTwelve(M, C). *)
Definition k12_stream (F : list N -> list N) (C M : list N) : nat -> N :=
  k12_tree F (M ++ C ++ right_encode (N.of_nat (length C))).
Definition KangarooTwelve (C M : list N) (n : nat) : list N := squeeze (k12_stream (keccak_p 12) C M) 0 n.

(** ** What a client of an extendable-output object with Write, Sum, Read and Reset expects. *)
Inductive kop : Type := KWrite (p : list N) | KSum (inp : list N) | KRead (n : nat) | KReset.
Inductive kobs : Type := KWrote (n : nat) (failed : bool) | KSummed (out : list N) | KGot (out : list N).
(** [h m] is the output stream for message m; [pos] is None before the first Read and then the number of bytes read. *)
Fixpoint kideal (h : list N -> nat -> N) (size : nat) (m : list N) (pos : option nat) (ops : list kop) : list kobs :=
  let at0 := match pos with None => 0 | Some q => q end in
  match ops with
  | [] => []
  | KWrite p :: t =>
      match pos with
      | None => KWrote (length p) false :: kideal h size (m ++ p) None t
      | Some _ => KWrote 0 true :: kideal h size m pos t
      end
  | KSum i :: t => KSummed (i ++ squeeze (h m) at0 size) :: kideal h size m pos t
  | KRead n :: t => KGot (squeeze (h m) at0 n) :: kideal h size m (Some (at0 + n)) t
  | KReset :: t => kideal h size [] None t
  end.
(** Bytes written by a sequence of calls; bytes written plus the bytes appended by each Read (the customization string
    and its encoded length, at most nine bytes). *)
Fixpoint kops_total (ops : list kop) : N :=
  match ops with [] => 0 | KWrite p :: t => N.of_nat (length p) + kops_total t | _ :: t => kops_total t end%N.
Fixpoint kops_cost (c : list N) (ops : list kop) : nat :=
  match ops with
  | [] => 0
  | KWrite p :: t => length p + kops_cost c t
  | KRead _ :: t => length c + 9 + kops_cost c t
  | _ :: t => kops_cost c t
  end.
