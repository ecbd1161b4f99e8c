(** DeepCopy.v -- model of /repo/tool/deepcopy/deepcopy.go.

    A Go value is a [val]; memory is a list of cells and a reference is an index into it.  Simplifications:
    - a pointer points to a whole variable (no pointer into an array or a struct), a slice to a window of an array;
    - no type of the value has a DeepCopy method (deepcopy.go:25-30 is then skipped);
    - a map is the list of its entries in the order in which MapKeys returns them this time;
    - a new cell is allocated when its contents are complete (Go: before); nothing reads it in between, and the numbers
      of the locations are not observable. *)
From Coq Require Import List NArith Arith Bool.
Import ListNotations.

(** Values.  Types appear only as the tag of the dynamic type of an interface. *)
Inductive val : Type :=
| VScalar (kind : nat) (n : N)           (** booleans, numbers other than NaN, strings, funcs, chans; n = 0 is the zero value *)
| VNaN (kind : nat)                      (** a floating-point NaN *)
| VTime (t : N)                          (** a time.Time *)
| VNilPtr | VPtr (l : nat)
| VNilIface | VIface (ty : nat) (v : val)
| VStruct (exported unexported : list val)
| VNilSlice | VSlice (l off len cap : nat)
| VNilMap | VMap (l : nat)
| VArray (vs : list val).
Inductive cell : Type := CVal (v : val) | CArr (vs : list val) | CMap (es : list (val * val)).
Definition heap : Type := list cell.

(** the zero value of the type of v: what reflect.New(T).Elem() and reflect.MakeSlice hold *)
Fixpoint zero (v : val) : val :=
  match v with
  | VScalar k _ => VScalar k 0
  | VNaN k => VScalar k 0
  | VTime _ => VTime 0
  | VNilPtr | VPtr _ => VNilPtr
  | VNilIface | VIface _ _ => VNilIface
  | VStruct es us => VStruct (map zero es) (map zero us)
  | VNilSlice | VSlice _ _ _ _ => VNilSlice
  | VNilMap | VMap _ => VNilMap
  | VArray vs => VArray (map zero vs)
  end.
(** Go's == of two map keys *)
Fixpoint geq (a b : val) : bool :=
  let geqs := fix geqs (xs ys : list val) : bool :=
    match xs, ys with
    | [], [] => true
    | x :: xs, y :: ys => geq x y && geqs xs ys
    | _, _ => false
    end in
  match a, b with
  | VScalar k n, VScalar k' n' => (k =? k') && (n =? n')%N
  | VTime t, VTime t' => (t =? t')%N
  | VNilPtr, VNilPtr => true
  | VPtr l, VPtr l' => l =? l'
  | VNilIface, VNilIface => true
  | VIface ty v, VIface ty' v' => (ty =? ty') && geq v v'
  | VStruct es us, VStruct es' us' => geqs es es' && geqs us us'
  | VArray vs, VArray vs' => geqs vs vs'
  | _, _ => false
  end.

(** the outcome of a call: a result, a panic, or none within the fuel *)
Inductive res (A : Type) : Type := Ok (a : A) | Panic | Loop.
Arguments Ok {A} a. Arguments Panic {A}. Arguments Loop {A}.
Definition bind {A B} (r : res A) (f : A -> res B) : res B :=
  match r with Ok a => f a | Panic => Panic | Loop => Loop end.

(** deepcopy.go:59-65 and 73-75: the loops over fields and over elements *)
Fixpoint cp_list (f : heap -> val -> res (heap * val)) (H : heap) (vs : list val) : res (heap * list val) :=
  match vs with
  | [] => Ok (H, [])
  | v :: vs => bind (f H v) (fun p => bind (cp_list f (fst p) vs) (fun q => Ok (fst q, snd p :: snd q)))
  end.
(** SetMapIndex, deepcopy.go:89 *)
Fixpoint mput (es : list (val * val)) (k v : val) : list (val * val) :=
  match es with
  | [] => [(k, v)]
  | e :: es => if geq (fst e) k then (fst e, v) :: es else e :: mput es k v
  end.
(** deepcopy.go:88-89: Copy(key.Interface()), then reflect.ValueOf; for a nil interface that is the zero Value, on which
    SetMapIndex panics *)
Definition cp_key (f : heap -> val -> res (heap * val)) (H : heap) (k : val) : res (heap * val) :=
  match k with
  | VNilIface => Panic
  | VIface ty w => bind (f H w) (fun p => Ok (fst p, VIface ty (snd p)))
  | _ => f H k
  end.
(** deepcopy.go:84-90, the loop over MapKeys; MapIndex of a key that is not equal to itself is the zero Value, whose
    Type (deepcopy.go:86) panics *)
Fixpoint cp_map (f : heap -> val -> res (heap * val)) (all : list (val * val)) (H : heap) (acc ks : list (val * val)) : res (heap * list (val * val)) :=
  match ks with
  | [] => Ok (H, acc)
  | (k, _) :: ks =>
    match find (fun e => geq (fst e) k) all with
    | None => Panic
    | Some (_, v) => bind (f H v) (fun p => bind (cp_key f (fst p) k) (fun q => cp_map f all (fst q) (mput acc (snd q) (snd p)) ks))
    end
  end.
(** deepcopy.go:24-95, copyRecursive: the value the variable cpy, at first zero, holds afterwards.  A reference outside
    memory or to a cell of another kind does not occur. *)
Fixpoint cp (fuel : nat) (H : heap) (v : val) : res (heap * val) :=
  match fuel with
  | O => Loop
  | S n =>
    match v with
    | VScalar _ _ | VNaN _ | VTime _ | VArray _ | VNilPtr | VNilIface | VNilSlice | VNilMap => Ok (H, v)
    | VPtr l =>
      match nth_error H l with
      | Some (CVal w) => bind (cp n H w) (fun p => Ok (fst p ++ [CVal (snd p)], VPtr (length (fst p))))
      | _ => Panic
      end
    | VIface ty w => bind (cp n H w) (fun p => Ok (fst p, VIface ty (snd p)))
    | VStruct es us => bind (cp_list (cp n) H es) (fun p => Ok (fst p, VStruct (snd p) (map zero us)))
    | VSlice l off len cap =>
      match nth_error H l with
      | Some (CArr ws) =>
        bind (cp_list (cp n) H (firstn len (skipn off ws))) (fun p =>
          Ok (fst p ++ [CArr (snd p ++ map zero (firstn (cap - len) (skipn (off + len) ws)))], VSlice (length (fst p)) 0 len cap))
      | _ => Panic
      end
    | VMap l =>
      match nth_error H l with
      | Some (CMap es) => bind (cp_map (cp n) es H [] es) (fun p => Ok (fst p ++ [CMap (snd p)], VMap (length (fst p))))
      | _ => Panic
      end
    end
  end.
(** deepcopy.go:13-22, Copy; an [any] is None (nil) or a dynamic type and a value *)
Definition Copy (fuel : nat) (H : heap) (src : option (nat * val)) : res (heap * option (nat * val)) :=
  match src with
  | None => Ok (H, None)
  | Some (ty, v) => bind (cp fuel H v) (fun p => Ok (fst p, Some (ty, snd p)))
  end.
