(** SpecDeep.v -- what a Go value in memory is, for tool/deepcopy: the tree one sees by following its references. *)
From Coq Require Import List NArith Arith Bool.
From Verif Require Import DeepCopy.
Import ListNotations.

Inductive tree : Type :=
| TScalar (kind : nat) (n : N) | TNaN (kind : nat) | TTime (t : N)
| TNilPtr | TPtr (t : tree)
| TNilIface | TIface (ty : nat) (t : tree)
| TStruct (exported unexported : list tree)
| TNilSlice | TSlice (cap : nat) (ts : list tree)
| TNilMap | TMap (keys : list val) (ts : list tree)      (** entries in the order of the range; keys are compared by == *)
| TArray (ts : list tree).
(** [den H v t]: in memory H, following the references of v ends and shows t. *)
Inductive den (H : heap) : val -> tree -> Prop :=
| d_scalar k n : den H (VScalar k n) (TScalar k n)
| d_nan k : den H (VNaN k) (TNaN k)
| d_time t : den H (VTime t) (TTime t)
| d_nilptr : den H VNilPtr TNilPtr
| d_ptr l w t : nth_error H l = Some (CVal w) -> den H w t -> den H (VPtr l) (TPtr t)
| d_niliface : den H VNilIface TNilIface
| d_iface ty w t : den H w t -> den H (VIface ty w) (TIface ty t)
| d_struct es us ts ss : dens H es ts -> dens H us ss -> den H (VStruct es us) (TStruct ts ss)
| d_nilslice : den H VNilSlice TNilSlice
| d_slice l off len cap ws ts : nth_error H l = Some (CArr ws) -> len <= cap -> off + cap <= length ws ->
    dens H (firstn len (skipn off ws)) ts -> den H (VSlice l off len cap) (TSlice cap ts)
| d_nilmap : den H VNilMap TNilMap
| d_map l es ts : nth_error H l = Some (CMap es) -> ForallOrdPairs (fun a b => geq a b = false) (map fst es) ->
    dens H (map snd es) ts -> den H (VMap l) (TMap (map fst es) ts)
| d_array vs ts : dens H vs ts -> den H (VArray vs) (TArray ts)
with dens (H : heap) : list val -> list tree -> Prop :=
| ds_nil : dens H [] []
| ds_cons v t vs ts : den H v t -> dens H vs ts -> dens H (v :: vs) (t :: ts).

(** the zero value of the type of a tree *)
Fixpoint tzero (t : tree) : tree :=
  match t with
  | TScalar k _ => TScalar k 0
  | TNaN k => TScalar k 0
  | TTime _ => TTime 0
  | TNilPtr | TPtr _ => TNilPtr
  | TNilIface | TIface _ _ => TNilIface
  | TStruct es us => TStruct (map tzero es) (map tzero us)
  | TNilSlice | TSlice _ _ => TNilSlice
  | TNilMap | TMap _ _ => TNilMap
  | TArray ts => TArray (map tzero ts)
  end.
(** the tree with the unexported fields of its structs (those in arrays excepted) set to zero *)
Fixpoint blank (t : tree) : tree :=
  match t with
  | TPtr t => TPtr (blank t)
  | TIface ty t => TIface ty (blank t)
  | TStruct es us => TStruct (map blank es) (map tzero us)
  | TSlice cap ts => TSlice cap (map blank ts)
  | TMap ks ts => TMap ks (map blank ts)
  | t => t
  end.
(** no struct outside arrays has an unexported field *)
Fixpoint all_exported (t : tree) : bool :=
  match t with
  | TPtr t | TIface _ t => all_exported t
  | TStruct es us => forallb all_exported es && match us with [] => true | _ => false end
  | TSlice _ ts | TMap _ ts => forallb all_exported ts
  | _ => true
  end.
(** a map key without pointers, NaNs and unexported fields *)
Fixpoint plain (k : val) : bool :=
  match k with
  | VScalar _ _ | VTime _ | VNilPtr | VNilIface => true
  | VIface _ w => plain w
  | VStruct es us => forallb plain es && match us with [] => true | _ => false end
  | VArray vs => forallb plain vs
  | _ => false
  end.
Definition key_ok (k : val) : bool := plain k && match k with VNilIface => false | _ => true end.
(** every map of the tree (outside arrays) has such keys, none of them the nil interface *)
Fixpoint keys_ok (t : tree) : bool :=
  match t with
  | TPtr t | TIface _ t => keys_ok t
  | TStruct es _ => forallb keys_ok es
  | TSlice _ ts => forallb keys_ok ts
  | TMap ks ts => forallb key_ok ks && forallb keys_ok ts
  | _ => true
  end.
(** no pointer, slice or map at all *)
Fixpoint flat (t : tree) : bool :=
  match t with
  | TPtr _ | TSlice _ _ | TMap _ _ => false
  | TIface _ t => flat t
  | TStruct es us => forallb flat es && forallb flat us
  | TArray ts => forallb flat ts
  | _ => true
  end.
(** arrays hold no references *)
Fixpoint arrays_flat (t : tree) : bool :=
  match t with
  | TPtr t | TIface _ t => arrays_flat t
  | TStruct es _ => forallb arrays_flat es
  | TSlice _ ts | TMap _ ts => forallb arrays_flat ts
  | TArray ts => forallb flat ts
  | _ => true
  end.

(** [reach H v l]: the cell l can be read or written through v. *)
Inductive reach (H : heap) : val -> nat -> Prop :=
| r_ptr l : reach H (VPtr l) l
| r_ptr_in l w m : nth_error H l = Some (CVal w) -> reach H w m -> reach H (VPtr l) m
| r_iface ty w m : reach H w m -> reach H (VIface ty w) m
| r_struct es us w m : In w es \/ In w us -> reach H w m -> reach H (VStruct es us) m
| r_slice l off len cap : reach H (VSlice l off len cap) l
| r_slice_in l off len cap ws w m : nth_error H l = Some (CArr ws) -> In w ws -> reach H w m -> reach H (VSlice l off len cap) m
| r_map l : reach H (VMap l) l
| r_map_key l es w m : nth_error H l = Some (CMap es) -> In w (map fst es) -> reach H w m -> reach H (VMap l) m
| r_map_in l es w m : nth_error H l = Some (CMap es) -> In w (map snd es) -> reach H w m -> reach H (VMap l) m
| r_array vs w m : In w vs -> reach H w m -> reach H (VArray vs) m.

(** a ring of n nodes: node i is &struct{ Next *T }, its Next points to node i + 1, that of the last to node 0 *)
Definition ring (n : nat) : heap := map (fun i => CVal (VStruct [VPtr (S i mod n)] [])) (seq 0 n).
