(** Total orders and sorted lists. *)
From Coq Require Import Bool List.
Import ListNotations.

Definition total_order {A} (leb : A -> A -> bool) : Prop :=
  (forall x y, leb x y = true \/ leb y x = true) /\
  (forall x y z, leb x y = true -> leb y z = true -> leb x z = true) /\
  (forall x y, leb x y = true -> leb y x = true -> x = y).
