(** What a restart from a SAVE file needs. *)
From Coq Require Import String Ascii Bool List.
From Verif Require Import Base.Str Model.Py.
Import ListNotations.

(** The line after which the restart data of a SAVE file stands. *)
Definition plus_line (l : str) : Prop := exists r, l = $"+++" ++ r.
