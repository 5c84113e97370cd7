(** A file read and written again, any number of times. *)
From Coq Require Import String Ascii ZArith Bool List.
From Verif Require Import Base.Str Model.Py Model.Write Model.Read.
Import ListNotations.

(** toughio.write_input(filename, toughio.read_input(filename, label_length)) on the text of a file. *)
Definition rewritten (fuel : nat) (ll : option Z) (t : str) : res str :=
  let* q := read_text fuel ll t in write_text q ($"all").
(** ... repeated [n] times. *)
Fixpoint rewritten_times (n : nat) (fuel : nat) (ll : option Z) (t : str) : res str :=
  match n with
  | O => Ok t
  | S n => let* t' := rewritten fuel ll t in rewritten_times n fuel ll t'
  end.
(** Lines of one text that are not in the other one. *)
Definition only_in (t t' : str) : list str := filter (fun l => negb (existsb (streqb l) (lines t'))) (lines t).
