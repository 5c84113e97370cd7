(** Steps in time. *)
From Coq Require Import Arith Bool Permutation Sorted List.
Import ListNotations.

(** What numpy.argsort promises: all positions, in an order which sorts the values. *)
Definition sorts {T} (leb : T -> T -> bool) (argsort : list T -> list nat) : Prop :=
  forall l, Permutation (argsort l) (seq 0 (List.length l)) /\
    forall i j a b x y, i < j -> nth_error (argsort l) i = Some a -> nth_error (argsort l) j = Some b ->
      nth_error l a = Some x -> nth_error l b = Some y -> leb x y = true.
(** Three lists side by side. *)
Fixpoint triples {A B C} (a : list A) (b : list B) (c : list C) : list (A * B * C) :=
  match a, b, c with x :: a', y :: b', z :: c' => (x, y, z) :: triples a' b' c' | _, _, _ => [] end.
