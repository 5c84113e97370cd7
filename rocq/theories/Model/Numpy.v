(** The array functions the mesh code calls. *)
From Coq Require Import Arith Bool List.
From Verif Require Import Model.Py.
Import ListNotations.

(** a[i], a[[i, ...]] for valid or invalid non-negative indices (negative
    indices, which count from the end, are not modelled): _mesh.py:208-219 *)
Definition item {A} (a : list A) (i : nat) : res A :=
  match nth_error a i with Some x => Ok x | None => Err IndexError end.
Definition take {A} (a : list A) (is : list nat) : res (list A) := mapM (item a) is.   (* _mesh.py:208, 210, 217, 219 *)
(** a[i] = x inside the bounds: _properties.py:181-182 *)
Fixpoint set_nth {A} (i : nat) (x : A) (l : list A) : list A :=
  match l, i with
  | [], _ => []
  | _ :: r, O => x :: r
  | y :: r, S j => y :: set_nth j x r
  end.

(** numpy.cumsum: _mesh.py:243 *)
Fixpoint cumsum (acc : nat) (l : list nat) : list nat :=
  match l with [] => [] | n :: r => (acc + n) :: cumsum (acc + n) r end.
(** numpy.split(a, at): the pieces a[0:i0], a[i0:i1], ..., a[ik:] for increasing
    positions; _mesh.py:245 *)
Fixpoint split_from {A} (from : nat) (at_ : list nat) (a : list A) : list (list A) :=
  match at_ with
  | [] => [a]
  | i :: r => firstn (i - from) a :: split_from i r (skipn (i - from) a)
  end.
Definition np_split {A} (a : list A) (at_ : list nat) : list (list A) := split_from 0 at_ a.   (* _mesh.py:245 *)

(** Sorting with respect to an order: numpy.sort, _mesh.py:215, _properties.py:161 *)
Fixpoint insert {A} (leb : A -> A -> bool) (x : A) (l : list A) : list A :=
  match l with [] => [x] | y :: r => if leb x y then x :: y :: r else y :: insert leb x r end.
Fixpoint isort {A} (leb : A -> A -> bool) (l : list A) : list A :=   (* _mesh.py:215, _properties.py:161 *)
  match l with [] => [] | x :: r => insert leb x (isort leb r) end.
(** Rows in lexicographic order: numpy.unique(..., axis=0), _mesh.py:199-204 *)
Fixpoint lexb {A} (leb : A -> A -> bool) (a b : list A) : bool :=
  match a, b with
  | [], _ => true
  | _ :: _, [] => false
  | x :: a', y :: b' => if leb x y then if leb y x then lexb leb a' b' else true else false
  end.
Definition same {A} (leb : A -> A -> bool) (x y : A) : bool := leb x y && leb y x.   (* _mesh.py:199 *)
Fixpoint dedup {A} (leb : A -> A -> bool) (l : list A) : list A :=   (* _mesh.py:199 *)
  match l with
  | [] => []
  | x :: r => match r with [] => [x] | y :: _ => if same leb x y then dedup leb r else x :: dedup leb r end
  end.
Fixpoint position {A} (leb : A -> A -> bool) (x : A) (l : list A) : nat :=   (* _mesh.py:199 *)
  match l with [] => O | y :: r => if same leb x y then O else S (position leb x r) end.
(** numpy.unique: the sorted distinct values, the index of the first occurrence
    of each, and for each element the index of its value: _mesh.py:199-204, 216,
    _properties.py:166 *)
Definition unique {A} (leb : A -> A -> bool) (l : list A) : list A := dedup leb (isort leb l).
Definition unique_index {A} (leb : A -> A -> bool) (l : list A) : list nat :=   (* _mesh.py:199, 216 *)
  map (fun u => position leb u l) (unique leb l).
Definition unique_inverse {A} (leb : A -> A -> bool) (l : list A) : list nat :=   (* _mesh.py:199, _properties.py:166 *)
  map (fun x => position leb x (unique leb l)) l.
