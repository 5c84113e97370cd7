(** What a generated label looks like. *)
From Coq Require Import String Ascii ZArith Bool List.
From Verif Require Import Base.Str Base.Digits.
Import ListNotations.
Local Open Scope Z_scope.

(** A letter, two letters or digits other than 0, then digits only. *)
Definition good_label (l : Z) (s : str) : Prop :=
  exists a b c ds, s = a :: b :: c :: ds /\ Z.of_nat (List.length s) = l /\
    is_upper a = true /\ (is_upper b || is_digit b && negb (Ascii.eqb b "0"))%bool = true /\
    (is_upper c || is_digit c && negb (Ascii.eqb c "0"))%bool = true /\ forallb is_digit ds = true.
(** How many labels of [l] characters there are. *)
Definition capacity (l : Z) : Z := 26 * 35 * 35 * 10 ^ (l - 3).
