(** PropEsch.v -- property C52: package esch. *)
From Coq Require Import List NArith Arith Lia Bool.
From Verif Require Import Base Words HashAPI Buf Refine SpecEsch Esch EschP.
Import ListNotations.

(** [l] is the part of the message that the specification has not absorbed yet: a block of 1 to 16 bytes.
    A Write that makes it exactly 16 bytes long makes the object absorb it as if it were not the last one;
    the object is right again as soon as one more byte is written. *)
Definition stale (e : bool) (m p : list N) : bool :=
  if e then length p =? 0 else negb (length m =? 0) && (length (es_last m) + length p =? 16).
(** What a stale object returns: the digest of m with one more, empty, last block. *)
Definition esch_stale (hs : nat) (m : list N) : list N :=
  es_squeeze hs (sparkle_p (es_big hs) (es_inject (0x80%N :: zeros 15) (es_mark 0x1000000 (fold_left (es_absorb hs) (chunks 16 m) (repeat (0, 0)%N (es_branches hs)))))).
Fixpoint esch_actual (hs : nat) (e : bool) (m : list N) (ops : list op) : list obs :=
  match ops with
  | [] => []
  | Write p :: t => Wrote (length p) :: esch_actual hs (stale e m p) (m ++ p) t
  | Sum i :: t => Summed (i ++ if e then esch_stale hs m else esch hs m) :: esch_actual hs e m t
  | Reset :: t => esch_actual hs false [] t
  end.
(** Exact behaviour for all histories. *)
Theorem C52_actual : forall hs, hs = 256 \/ hs = 384 -> forall ops, run (esch_impl hs) esch_new ops = esch_actual hs false [] ops.
Proof.
  intros hs Hh ops. set (R := fun (e : bool) d m => if e then eager_rel hs d m else erel hs d m).
  assert (G : forall ops e d m, R e d m -> run (esch_impl hs) d ops = esch_actual hs e m ops); [|apply G; exact (erel_new hs Hh)].
  clear ops. induction ops as [|[p|i|] ops IH]; intros e d m HR; [reflexivity| | |]; cbn [run esch_actual esch_impl i_write i_sum i_reset].
  - rewrite (surjective_pairing (esch_write hs d p)), write_count. f_equal. apply IH. unfold R in *. unfold stale. destruct e.
    + destruct (Nat.eqb_spec (length p) 0) as [E|E].
      * destruct p; [|discriminate E]. rewrite app_nil_r. now apply write_eager_nil.
      * apply write_eager; auto. intros ->. now apply E.
    + destruct (Nat.eqb_spec (length m) 0) as [E|E]; cbn [negb andb].
      * apply write_ok; auto. intros [NE _]. destruct m; [now apply NE|discriminate E].
      * destruct (Nat.eqb_spec (length (es_last m) + length p) 16) as [E2|E2].
        -- apply write_completes; auto. split; auto. intros ->. now apply E.
        -- apply write_ok; auto. intros [_ K]. now apply E2.
  - assert (K : esch_checkSum hs d = if e then esch_stale hs m else esch hs m) by (destruct e; unfold R in HR; [exact (checkSum_eager hs d m Hh HR)|exact (checkSum_ok hs d m Hh HR)]).
    unfold esch_sum at 1. cbv iota beta. rewrite K. clear K. rewrite (IH e d m HR). reflexivity.
  - apply IH. exact (erel_new hs Hh).
Qed.
(** So every history is right in which no Sum is called right after the last buffered block was completed. *)
Fixpoint no_stale_sum (e : bool) (m : list N) (ops : list op) : Prop :=
  match ops with
  | [] => True
  | Write p :: t => no_stale_sum (stale e m p) (m ++ p) t
  | Sum _ :: t => e = false /\ no_stale_sum e m t
  | Reset :: t => no_stale_sum false [] t
  end.
Theorem C52_contract_without_stale_sums : forall hs, hs = 256 \/ hs = 384 -> forall ops, no_stale_sum false [] ops -> run (esch_impl hs) esch_new ops = ideal_run (esch hs) [] ops.
Proof.
  intros hs Hh ops Ho. rewrite C52_actual by exact Hh.
  assert (G : forall ops e m, no_stale_sum e m ops -> esch_actual hs e m ops = ideal_run (esch hs) m ops); [|now apply G].
  clear. induction ops as [|[p|i|] ops IH]; intros e m Ho; [reflexivity| | |]; cbn [no_stale_sum esch_actual ideal_run] in *.
  - rewrite (IH _ _ Ho). reflexivity.
  - destruct Ho as [-> Ho]. rewrite (IH _ _ Ho). reflexivity.
  - now apply IH.
Qed.
Theorem C52_one_shot : forall hs, hs = 256 \/ hs = 384 -> forall m, esch_Sum hs m = esch hs m.
Proof.
  intros hs Hh m. pose proof (C52_contract_without_stale_sums hs Hh [Write m; Sum []] ltac:(split; [reflexivity|exact I])) as K.
  unfold esch_Sum. cbn [run ideal_run esch_impl i_write i_sum i_reset app] in K. set (h := esch hs m) in *. clearbody h. destruct (esch_write hs esch_new m) as [d n]. cbn [fst]. unfold esch_sum in K. cbn [app] in K. set (c := esch_checkSum hs d) in *. clearbody c. inversion K. reflexivity.
Qed.
Theorem C52_write_pieces_refuted : exists a b, isbytes a /\ isbytes b /\
  run (esch_impl 256) esch_new [Write a; Write b; Sum []] <> ideal_run (esch 256) [] [Write a; Write b; Sum []].
Proof. exists (zeros 5), (zeros 11). repeat split; [repeat constructor..|]. vm_compute. discriminate. Qed.
(** Even an empty Write changes the digest. *)
Theorem C52_write_empty_refuted : exists a, isbytes a /\
  run (esch_impl 256) esch_new [Write a; Write []; Sum []] <> ideal_run (esch 256) [] [Write a; Write []; Sum []].
Proof. exists (zeros 16). split; [repeat constructor|]. vm_compute. discriminate. Qed.
Theorem C52_sizes : forall n, esch_accepts n = true <-> n = 256%N \/ n = 384%N.
Proof.
  intros n. unfold esch_accepts. rewrite andb_true_iff, orb_true_iff, negb_true_iff, N.eqb_neq, !N.eqb_eq. split; [tauto|]. intros [-> | ->]; split; auto; discriminate.
Qed.
(** The published test vector for 7 bytes (esch_test.go), and a non-trivial history that meets the hypothesis. *)
Example esch_kat : esch 256 [0; 1; 2; 3; 4; 5; 6]%N = be_bytes 32 0x12E076105E60FD4080CA7546340E180AAA4C277C1495E958DF869CEAF0843F2E.
Proof. vm_compute. reflexivity. Qed.
Example esch_no_stale : no_stale_sum false [] [Write (zeros 5); Write (zeros 12); Sum []; Reset; Write (zeros 16); Sum [1%N]; Write (zeros 3); Write (zeros 13); Write [7%N]; Sum []].
Proof. vm_compute. auto. Qed.
