(** PropFluent.v -- call chains of package hash (C137, C138). *)
From Coq Require Import List NArith Arith Lia Bool.
From Verif Require Import Base HashAPI SpecMd2 Md2 SpecSm3 Sm3 SpecTiger Tiger SpecHas160 Has160.
From Verif Require Import SpecBlake Blake256 Blake512 SpecLsh Lsh PropHash PropBlake PropLsh Fluent.
Import ListNotations.

(** The methods X() / NewX() of package hash whose constructor meets the hash.Hash contract for every
    sequence of calls without any side condition. *)
Inductive meth :=
| MD2 | SM3 | HAS160 | Tiger | Tiger2 | Blake224 | Blake256 | Blake384 | Blake512
| LSH256 | LSH256_224 | LSH512 | LSH512_384 | LSH512_256 | LSH512_224.
(** The constructor each method calls: hash/md2.go, sm3.go, has160.go, tiger.go, blake256.go, blake512.go,
    lsh256.go, lsh512.go. *)
Definition lib (x : meth) : alg :=
  match x with
  | MD2 => mkalg _ md2_impl md2_new                                       (* md2.go:9, 19: md2.New() *)
  | SM3 => mkalg _ sm3_impl sm3_new                                       (* sm3.go:9, 19: sm3.New() *)
  | HAS160 => mkalg _ has160_impl has160_new                              (* has160.go:9, 19: has160.New() *)
  | Tiger => mkalg _ (tiger_impl 24 1) tiger_new                          (* tiger.go:9, 19: tiger.New() *)
  | Tiger2 => mkalg _ (tiger_impl 24 2) tiger_new                         (* tiger.go:28, 38: tiger.New2() *)
  | Blake224 => mkalg _ (b256_impl 224 b256_iv224) (b256_new b256_iv224)  (* blake256.go: blake256.New224() *)
  | Blake256 => mkalg _ (b256_impl 256 b256_iv256) (b256_new b256_iv256)  (* blake256.go: blake256.New() *)
  | Blake384 => mkalg _ (b512_impl 48 b512_iv384) (b512_new b512_iv384)   (* blake512.go: blake512.New384() *)
  | Blake512 => mkalg _ (b512_impl 64 b512_iv512) (b512_new b512_iv512)   (* blake512.go: blake512.New() *)
  | LSH256 => mkalg _ (lsh_impl lsh256_cfg 32 lsh256_iv256) (lsh_new lsh256_cfg lsh256_iv256)      (* lsh256.New() *)
  | LSH256_224 => mkalg _ (lsh_impl lsh256_cfg 28 lsh256_iv224) (lsh_new lsh256_cfg lsh256_iv224)  (* lsh256.New224() *)
  | LSH512 => mkalg _ (lsh_impl lsh512_cfg 64 lsh512_iv512) (lsh_new lsh512_cfg lsh512_iv512)      (* lsh512.New() *)
  | LSH512_384 => mkalg _ (lsh_impl lsh512_cfg 48 lsh512_iv384) (lsh_new lsh512_cfg lsh512_iv384)  (* lsh512.New384() *)
  | LSH512_256 => mkalg _ (lsh_impl lsh512_cfg 32 lsh512_iv256) (lsh_new lsh512_cfg lsh512_iv256)  (* lsh512.New256() *)
  | LSH512_224 => mkalg _ (lsh_impl lsh512_cfg 28 lsh512_iv224) (lsh_new lsh512_cfg lsh512_iv224)  (* lsh512.New224() *)
  end.
(** The hash function each method is named after. *)
Definition named (x : meth) : list N -> list N :=
  match x with
  | MD2 => rfc1319_md2 | SM3 => sm3_spec | HAS160 => has160_spec
  | Tiger => tiger_spec 0x01 24 | Tiger2 => tiger_spec 0x80 24
  | Blake224 => blake224_spec (zeros 16) | Blake256 => blake256_spec (zeros 16)
  | Blake384 => blake384_spec (zeros 32) | Blake512 => blake512_spec (zeros 32)
  | LSH256 => lsh SpecLsh.LSH256 32 | LSH256_224 => lsh SpecLsh.LSH256 28
  | LSH512 => lsh SpecLsh.LSH512 64 | LSH512_384 => lsh SpecLsh.LSH512 48
  | LSH512_256 => lsh SpecLsh.LSH512 32 | LSH512_224 => lsh SpecLsh.LSH512 28
  end.
Lemma lib_meets : forall x, meets (lib x) (named x).
Proof.
  intros x ops. destruct x; cbn [lib named a_impl a_new a_state].
  - exact (C01_md2_hash_contract ops).
  - exact (C04_sm3_hash_contract ops).
  - exact (C09_has160_hash_contract ops).
  - exact (proj1 (C08_tiger_hash_contract 24 ops)).
  - exact (proj2 (C08_tiger_hash_contract 24 ops)).
  - exact (C34_blake224_contract ops).
  - exact (C34_blake256_contract ops).
  - exact (C34_blake384_contract ops).
  - exact (C34_blake512_contract ops).
  - exact (C85_lsh256_histories 32 _ (or_intror (or_introl eq_refl)) ops).
  - exact (C85_lsh256_histories 28 _ (or_introl eq_refl) ops).
  - exact (C86_lsh512_histories 64 _ (or_intror (or_intror (or_intror (or_introl eq_refl)))) ops).
  - exact (C86_lsh512_histories 48 _ (or_intror (or_intror (or_introl eq_refl))) ops).
  - exact (C86_lsh512_histories 32 _ (or_intror (or_introl eq_refl)) ops).
  - exact (C86_lsh512_histories 28 _ (or_introl eq_refl) ops).
Qed.

(** ** C137.  Every value of every program, and whether it panics: for any constructors that meet the
    contract, and for those above. *)
Theorem C137_fluent_programs : forall (A : Type) (algs : A -> alg) (H : A -> list N -> list N),
  (forall a, meets (algs a) (H a)) -> forall p, prog_run algs [] [hv_new] p = spec_run H [] [] [hv_new] p.
Proof. exact fluent_lemma. Qed.
Theorem C137_fluent_library : forall p, prog_run lib [] [hv_new] p = spec_run named [] [] [hv_new] p.
Proof. exact (fluent_lemma meth lib named lib_meets). Qed.

(** A chain: each method is called on the result of the one before it. *)
Fixpoint chain_from {A} (n : nat) (cs : list (call A)) : list (nat * call A) :=
  match cs with [] => [] | c :: t => (n, c) :: chain_from (S n) t end.
Definition chain {A} (algs : A -> alg) (cs : list (call A)) : option hv :=
  option_map (fun vars => last vars hv_new) (prog_run algs [] [hv_new] (chain_from 0 cs)).
Definition op_call {A} (o : op) : call A := match o with Write p => CWrite p | Sum i => CSum i | Reset => CReset end.

Lemma spec_chain_hist : forall ops (H : meth -> list N -> list N) x log vars v i,
  nth (length vars) (vars ++ [v]) hv_new = v -> h_ref v = Some 0 ->
  option_map (fun vs => last vs hv_new)
    (spec_run H [H x] log (vars ++ [v]) (chain_from (length vars) (map op_call ops ++ [CSum i]))) =
  Some (mkhv (i ++ H x (history (absorbed 0 [] log) ops)) (Some 0) (h_err v)).
Proof.
  induction ops as [|o ops IH]; intros H x log vars v i Hv Hr.
  - cbn [map app chain_from spec_run history]. rewrite Hv. cbn [spec_step]. rewrite Hr. cbn [spec_run option_map nth].
    rewrite last_last. reflexivity.
  - cbn [map app chain_from spec_run]. rewrite Hv.
    assert (L : forall w, nth (S (length vars)) ((vars ++ [v]) ++ [w]) hv_new = w).
    { intros w. rewrite app_nth2; rewrite app_length; cbn [length]; [|lia].
      replace (S (length vars) - (length vars + 1)) with 0 by lia. reflexivity. }
    assert (L1 : length (vars ++ [v]) = S (length vars)) by (rewrite app_length; cbn; lia).
    destruct o as [p|j|]; cbn [op_call spec_step history]; rewrite Hr; cbn iota beta; rewrite <- L1.
    + rewrite IH by (rewrite ?L1; auto). rewrite absorbed_app. reflexivity.
    + rewrite IH by (rewrite ?L1; auto). reflexivity.
    + rewrite IH by (rewrite ?L1; auto). rewrite absorbed_app. reflexivity.
Qed.
(** NewX() followed by any Writes, Sums and Resets, then Sum(i): the bytes are [i] followed by the digest
    of what was written since NewX() or the last Reset. *)
Theorem C137_fluent_stream : forall x ops i,
  option_map h_data (chain lib (CNew x :: map op_call ops ++ [CSum i])) = Some (i ++ named x (history [] ops)).
Proof.
  intros x ops i. unfold chain. rewrite C137_fluent_library. cbn [chain_from spec_run spec_step nth app length hv_new h_ref h_data h_err].
  pose proof (spec_chain_hist ops named x [] [hv_new] (mkhv [] (Some 0) false) i eq_refl eq_refl) as K. cbn [length app h_err absorbed] in K.
  unfold hv_new in K at 1 |- * at 1. rewrite K. reflexivity.
Qed.
(** FromBytes(m).X() is the digest of [m]; so X() and NewX() with the message written in any pieces agree. *)
Theorem C137_fluent_oneshot : forall x m, chain lib [CFromBytes m; COne x] = Some (mkhv (named x m) None false).
Proof. intros x m. unfold chain. rewrite C137_fluent_library. reflexivity. Qed.
Theorem C137_fluent_stream_is_oneshot : forall x pieces,
  option_map h_data (chain lib (CNew x :: map (fun p => CWrite p) pieces ++ [CSum []])) =
  option_map h_data (chain lib [CFromBytes (concat pieces); COne x]).
Proof.
  intros x pieces. rewrite C137_fluent_oneshot.
  pose proof (C137_fluent_stream x (map Write pieces) []) as K. rewrite map_map in K. cbn [op_call] in K. rewrite K.
  cbn [option_map h_data app]. f_equal. f_equal.
  assert (G : forall ps h, history h (map Write ps) = h ++ concat ps).
  { induction ps as [|p t IH]; intros h; cbn [map history concat]; [now rewrite app_nil_r|]. rewrite IH. now rewrite app_assoc. }
  exact (G pieces []).
Qed.
(** A Checksum(h) call digests what [h] had absorbed before, then the data, and leaves the data in [h]. *)
Theorem C137_fluent_checksum : forall x p m i,
  prog_run lib [] [hv_new] [(0, CNew x); (1, CWrite p); (0, CFromBytes m); (3, CChecksum 2); (2, CSum i)] =
  Some [hv_new; mkhv [] (Some 0) false; mkhv [] (Some 0) false; mkhv m None false;
        mkhv (named x (p ++ m)) None false; mkhv (i ++ named x (p ++ m)) (Some 0) false].
Proof. intros. rewrite C137_fluent_library. reflexivity. Qed.
(** WriteReader: the bytes read before the error are hashed, and the error is reported. *)
Theorem C137_fluent_reader : forall x cs fails i,
  chain lib [CNew x; CWriteReader cs fails; CSum i] = Some (mkhv (i ++ named x (concat cs)) (Some 0) fails).
Proof. intros. unfold chain. rewrite C137_fluent_library. reflexivity. Qed.
Example C137_nonvacuous : chain lib [CNew MD2; CWrite [1]%N; CWrite [2; 3]%N; CSum [9]%N] =
    Some (mkhv (9%N :: rfc1319_md2 [1; 2; 3]%N) (Some 0) false) /\ length (rfc1319_md2 [1; 2; 3]%N) = 16.
Proof. split; [|reflexivity]. unfold chain. rewrite C137_fluent_library. reflexivity. Qed.

(** ** C138.  "A value is not affected by calls on a copy": false, the copies share the object. *)
Theorem C138_fluent_fork_actual : forall x p q,
  option_map (map h_data) (prog_run lib [] [hv_new] [(0, CNew x); (1, CWrite p); (1, CWrite q); (2, CSum []); (3, CSum [])]) =
  Some [[]; []; []; []; named x (p ++ q); named x (p ++ q)].
Proof. intros. rewrite C137_fluent_library. reflexivity. Qed.
Theorem C138_fluent_copies_refuted : exists x p q,
  option_map (map h_data) (prog_run lib [] [hv_new] [(0, CNew x); (1, CWrite p); (1, CWrite q); (2, CSum []); (3, CSum [])]) <>
  Some [[]; []; []; []; named x p; named x q].
Proof.
  exists MD2, [1]%N, [2]%N. rewrite C138_fluent_fork_actual. cbn [named]. intros E.
  assert (K : forall a b c : list N, Some [[]; []; []; []; a; a] = Some [[]; []; []; []; b; c] -> a = b)
    by (intros a b c Z; injection Z; auto).
  apply K in E. revert E. vm_compute. discriminate.
Qed.
(** Values whose objects differ do not affect each other. *)
Theorem C138_fluent_own_objects : forall x y p q,
  option_map (map h_data) (prog_run lib [] [hv_new] [(0, CNew x); (1, CNew y); (1, CWrite p); (2, CWrite q); (3, CSum []); (4, CSum [])]) =
  Some [[]; []; []; []; []; named x p; named y q].
Proof. intros. rewrite C137_fluent_library. reflexivity. Qed.
(** Calling Write, WriteReader, Sum or Reset before any NewX() panics. *)
Theorem C138_fluent_nil_panics : forall (c : call meth),
  chain lib [c] = None <-> match c with CWrite _ | CWriteReader _ _ | CSum _ | CReset | CChecksum _ => True | _ => False end.
Proof.
  intros c. unfold chain. rewrite C137_fluent_library.
  destruct c as [d|a|a|v|v|p|cs f|i|]; cbn [chain_from spec_run spec_step nth hv_new h_ref h_data h_err option_map]; try (split; [discriminate|contradiction]); try (split; auto; fail).
  destruct v as [|[|v]]; cbn; split; auto.
Qed.

Print Assumptions C137_fluent_programs.
Print Assumptions C137_fluent_library.
Print Assumptions C137_fluent_stream.
Print Assumptions C137_fluent_oneshot.
Print Assumptions C137_fluent_stream_is_oneshot.
Print Assumptions C137_fluent_checksum.
Print Assumptions C137_fluent_reader.
Print Assumptions C138_fluent_fork_actual.
Print Assumptions C138_fluent_copies_refuted.
Print Assumptions C138_fluent_own_objects.
Print Assumptions C138_fluent_nil_panics.
