(** Input files with the blocks in another order. *)
From Coq Require Import String Ascii ZArith Bool Permutation List.
From Verif Require Import Base.Str Model.Py Spec.Fields Spec.Values Spec.File.
Import ListNotations.

(** Equal as Python dictionaries, whatever the order of their entries: the parameters,
    the dictionaries in them, and the dictionaries in these. *)
Definition same_dict (R : pyval -> pyval -> Prop) (d d' : dict) : Prop :=
  forall k, match dget k d, dget k d' with Some v, Some w => R v w | None, None => True | _, _ => False end.
Definition deep (R : pyval -> pyval -> Prop) (v w : pyval) : Prop :=
  v = w \/ exists d d', v = PDict d /\ w = PDict d' /\ same_dict R d d'.
Definition same_parameters : dict -> dict -> Prop := same_dict (deep (deep eq)).

(** The blocks between ROCKS and ENDCY that a file holds. *)
Definition blocks_given (p : dict) : list str :=
  map fst (filter (fun b => snd b : bool)
    [($"RPCAP", rpcap_given p); ($"FLAC", given #"flac" p); ($"MULTI", multi_given p); ($"SOLVR", filled (val #"solver" p));
     ($"START", filled (val #"start" p)); ($"PARAM", true); ($"SELEC", filled (val #"selections" p)); ($"INDOM", indom_given p);
     ($"MOMOP", filled (val #"more_options" p)); ($"TIMES", given #"times" p); ($"FOFT", given #"element_history" p);
     ($"COFT", given #"connection_history" p); ($"GOFT", given #"generator_history" p); ($"GENER", filled (val #"generators" p));
     ($"DIFFU", given #"diffusion" p); ($"OUTPU", filled (val #"output" p)); ($"ELEME", filled (val #"elements" p));
     ($"COORD", filled (val #"coordinates" p)); ($"CONNE", filled (val #"connections" p));
     ($"INCON", filled (val #"initial_conditions" p)); ($"NOVER", filled (val #"nover" p))]).
Definition opened_by (kw : str) (ls : list str) : Prop := exists l r, ls = l :: r /\ startswith kw l = true.
Definition file_of (title rocks : list str) (parts : list (str * list str)) (last : str) : str :=
  concat (title ++ rocks ++ concat (map snd parts) ++ [last]).
Definition elements_first (kws : list str) : Prop := forall a b, kws = a ++ $"COORD" :: b -> In $"ELEME" a.
