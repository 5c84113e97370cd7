(** Input files with other blanks at the ends of their lines. *)
From Coq Require Import Ascii List.
From Verif Require Import Base.Str.
Import ListNotations.

(** Spaces, tabs and the newline. *)
Definition end_blank (c : ascii) : Prop := c = sp \/ c = ascii_of_nat 9 \/ c = nl.
Definition same_but_end (l l' : str) : Prop :=
  exists b u v, l = b ++ u /\ l' = b ++ v /\ Forall end_blank u /\ Forall end_blank v.
(** The same lines, apart from the blanks at their ends. *)
Definition same_but_ends (t t' : str) : Prop := Forall2 same_but_end (lines t) (lines t').
(** Line by line, not shorter. *)
Definition not_shorter (t t' : str) : Prop := Forall2 (fun l l' => length l <= length l') (lines t) (lines t').
