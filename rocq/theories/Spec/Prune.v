(** Removing duplicated points and cells. *)
From Coq Require Import String Ascii Arith ZArith Bool Permutation List.
From Verif Require Import Base.Str.
Import ListNotations.
Local Open Scope nat_scope.

(** [out] lists the entries of [l] at the positions [is]. *)
Definition picked {A} (l : list A) (is : list nat) (out : list A) : Prop := Forall2 (fun i x => nth_error l i = Some x) is out.
(** No two cells with the same vertices. *)
Definition distinct_cells (rows : list (list nat)) : Prop :=
  forall i j c d, nth_error rows i = Some c -> nth_error rows j = Some d -> Permutation c d -> i = j.
(** The coordinates of the vertices of a cell. *)
Definition corners {C} (pts : list (list C)) (c : list nat) : list (option (list C)) := map (nth_error pts) c.
(** From one block of cells to another over other points: the kept cells are the
    cells at the positions [is], with the same corners in the same order; no two kept
    cells have the same vertices; and each cell has a kept cell with its corners. *)
Definition kept_cells {C} (pts pts' : list (list C)) (rows : list (list nat)) (is : list nat) (rows' : list (list nat)) : Prop :=
  NoDup is /\ distinct_cells rows' /\
  Forall2 (fun i c' => exists c, nth_error rows i = Some c /\ corners pts c = corners pts' c') is rows' /\
  forall c, In c rows -> exists c', In c' rows' /\ Permutation (corners pts c) (corners pts' c').
Inductive Forall3 {A B C} (R : A -> B -> C -> Prop) : list A -> list B -> list C -> Prop :=
| F3nil : Forall3 R [] [] []
| F3cons a b c l m n : R a b c -> Forall3 R l m n -> Forall3 R (a :: l) (b :: m) (c :: n).
