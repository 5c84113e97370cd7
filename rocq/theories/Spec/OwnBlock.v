(** Which block of the file an entry of the parameters governs. *)
From Coq Require Import String Ascii ZArith Bool List.
From Verif Require Import Base.Str Model.Py.
Import ListNotations.

Definition own_blocks : list (key * str) :=
  [(#"flac", $"FLAC "); (#"solver", $"SOLVR"); (#"start", $"START"); (#"options", $"PARAM"); (#"extra_options", $"PARAM"); (#"selections", $"SELEC"); (#"more_options", $"MOMOP");
   (#"times", $"TIMES"); (#"element_history", $"FOFT "); (#"connection_history", $"COFT "); (#"generator_history", $"GOFT "); (#"generators", $"GENER");
   (#"output", $"OUTPU"); (#"coordinates", $"COORD"); (#"connections", $"CONNE"); (#"connections_order", $"CONNE"); (#"initial_conditions", $"INCON");
   (#"initial_conditions_order", $"INCON"); (#"nover", $"NOVER")].
(** Parameters with the same entries but for [k]. *)
Definition same_but (k : key) (u u' : dict) : Prop := NoDup (dkeys u) /\ NoDup (dkeys u') /\ forall a, a <> k -> dget a u = dget a u'.
(** No text, or text that begins with the keyword. *)
Definition block_text (kw c : str) : Prop := c = [] \/ exists r, c = kw ++ r.
(** Two texts that differ by one stretch, which begins with the keyword in the one, in the other, or in both. *)
Definition differ_in (kw t t' : str) : Prop :=
  exists a c c' b, t = a ++ c ++ b /\ t' = a ++ c' ++ b /\ block_text kw c /\ block_text kw c'.
