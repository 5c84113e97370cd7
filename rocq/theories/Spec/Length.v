(** The label length in a line. *)
From Coq Require Import String Ascii Bool List.
From Verif Require Import Base.Str.
Import ListNotations.

(** The characters 6 to [n] are digits, and [n] is 9 or the next is none. *)
Definition found (line : str) (n : nat) : Prop :=
  5 <= n <= 9 /\ (forall i, 5 <= i < n -> exists c, nth_error line i = Some c /\ is_digit c = true) /\
  (n < 9 -> forall c, nth_error line n = Some c -> is_digit c = false).
