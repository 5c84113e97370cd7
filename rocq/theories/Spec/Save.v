(** What the user sees of a SAVE file read as an output. *)
From Coq Require Import String Ascii ZArith Bool List.
From Verif Require Import Base.Str Base.Flt Model.Py Model.Dispatch Model.Output Model.Save.
From Verif Require Import Spec.Fields Spec.Values Spec.Rocks Spec.Simple Spec.Incon Spec.File.
Import ListNotations.

(** The conditions of an element, as the file holds them. *)
Definition conditions (p : dict) (s : str) : dict := rock_named (incons_of p) (PStr s).
Definition stored_values (e : dict) : list pyval := trim (map (sci 13) (values_of e)).
Definition stored_userx (e : dict) : list pyval := trim (map (sci 3) (userx_of e)).

(** Every element has a porosity, as many values as the others and as many user
    values as the others. *)
Definition complete (p : dict) (own : list str) : Prop :=
  (forall s, In s own -> absent (val #"porosity" (conditions p s)) = false) /\
  (forall s t, In s own -> In t own ->
     List.length (stored_values (conditions p s)) = List.length (stored_values (conditions p t)) /\
     List.length (stored_userx (conditions p s)) = List.length (stored_userx (conditions p t))).

(** The elements of the file. *)
Definition listed (p : dict) (own : list str) : Prop := incons_order_of p = map PStr own.

(** The cells of an element, with the name of their column. *)
Definition x_names : list str := [$"X1"; $"X2"; $"X3"; $"X4"; $"X5"; $"X6"; $"X7"; $"X8"].
Definition save_cells (e : dict) : list (str * pyval) :=
  combine x_names (stored_values e) ++ [($"porosity", sci 9 (val #"porosity" e))] ++
  match stored_userx e with [] => [] | l => [($"userx", PSeq SList l)] end.
(** Row [i] of an output. *)
Definition row_at (o : saved) (i : nat) : list (str * option pyval) :=
  map (fun kc => (fst kc, nth_error (snd kc) i)) (sv_data o).

(** The frame of a SAVE file: a first line that starts with INCON, and after the
    conditions a blank line or a line of plus signs, then anything that does not
    start a block. *)
Definition ended (l : str) : Prop := exists b, l = b ++ [nl] /\ one_line b = true.
Definition save_frame (title stop : str) (rest : list str) : Prop :=
  startswith $"INCON" title = true /\ ended title /\
  (strip stop = [] \/ startswith $"+++" stop = true) /\ ended stop /\
  Forall (fun l => starts_block l = false /\ ended l) rest.
