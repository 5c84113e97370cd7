(** Parameters whose rocks are listed in another order. *)
From Coq Require Import String Ascii ZArith Bool Permutation List.
From Verif Require Import Base.Str Model.Py.
Import ListNotations.

(** A rock is a dictionary; its initial condition, if it has one, is a sequence. *)
Definition rock_like (v : pyval) : Prop :=
  exists r, v = PDict r /\ match dget #"initial_condition" r with Some (PSeq _ _) | None => True | _ => False end.
(** Every rock is named in [l]. *)
Definition names_all (l : list pyval) (d : dict) : Prop := forall k, In k (dkeys d) -> exists s, k = KS s /\ In (PStr s) l.
(** The same parameters with the rocks in another order, and a list rocks_order that names them all. *)
Definition rocks_reordered (u u' : dict) : Prop :=
  exists a b d d' l, u = a ++ (#"rocks", PDict d) :: b /\ u' = a ++ (#"rocks", PDict d') :: b /\ NoDup (dkeys u) /\
    NoDup (dkeys d) /\ Permutation d d' /\ Forall (fun kv => rock_like (snd kv)) d /\
    dget #"rocks_order" u = Some (PSeq SList l) /\ names_all l d.
