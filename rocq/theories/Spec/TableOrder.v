(** Parameters whose tables list their records in another order. *)
From Coq Require Import String Ascii ZArith Bool Permutation List.
From Verif Require Import Base.Str Model.Py.
Import ListNotations.

(** The entry that says in which order the records of a table are written. *)
Definition order_name (k : key) : option key :=
  if key_eqb k #"elements" then Some #"elements_order"
  else if key_eqb k #"connections" then Some #"connections_order"
  else if key_eqb k #"initial_conditions" then Some #"initial_conditions_order"
  else None.
(** The same records in any order, if the order of writing is given. *)
Definition reordered (u : dict) (k : key) (v w : pyval) : Prop :=
  v = w \/
  exists o x d d', order_name k = Some o /\ dget o u = Some x /\ x <> PNone /\
    v = PDict d /\ w = PDict d' /\ NoDup (dkeys d) /\ Permutation d d'.
Definition all_reordered (u u' : dict) : Prop := Forall2 (fun a b => fst a = fst b /\ reordered u (fst a) (snd a) (snd b)) u u'.
