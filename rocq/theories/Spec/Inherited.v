(** Rocks that repeat the values of the entry default, and default with default values. *)
From Coq Require Import String Ascii ZArith Bool List.
From Verif Require Import Base.Str Base.Flt Model.Py Spec.Defaults.
Import ListNotations.

(** Every dictionary has each of its keys once, as in Python. *)
Fixpoint once (v : pyval) : Prop :=
  match v with
  | PDict d => NoDup (dkeys d) /\ (fix all (d : dict) : Prop := match d with [] => True | (_, x) :: r => once x /\ all r end) d
  | _ => True
  end.

(** The values of the properties that neither the rock nor default gives, as documented. *)
Definition no_model (id : pyval) : pyval := PDict [(#"id", id); (#"parameters", PSeq SList [])].
Definition default_defaults : dict :=
  nothing [#"density"; #"porosity"; #"permeability"; #"conductivity"; #"specific_heat"; #"compressibility"; #"expansivity"; #"conductivity_dry"; #"tortuosity"; #"klinkenberg_parameter";
    #"distribution_coefficient_3"; #"distribution_coefficient_4"] ++
  [(#"initial_condition", PSeq SList (repeat PNone 6)); (#"relative_permeability", no_model PNone); (#"capillarity", no_model PNone); (#"permeability_model", no_model (PInt 1));
   (#"equivalent_pore_pressure", no_model (PInt 3))].
(** These are not inherited by the rocks: the file has its own records for them. *)
Definition own (k : key) : bool := existsb (key_eqb k) [#"initial_condition"; #"relative_permeability"; #"capillarity"].
(** What a rock inherits: the entries of default, then those above. *)
Definition given_default (u : dict) : dict := match dget #"default" u with Some (PDict d) => d | _ => [] end.
Definition inherited (u : dict) : dict := filter (fun kv => negb (own (fst kv))) (given_default u ++ default_defaults).

(** The same parameters, with inherited values spelled out in rocks and default values in default. *)
Definition respelled (t : dict) (k : key) (v w : pyval) : Prop :=
  if key_eqb k #"rocks" then rows_of (fun _ => longer t) v w
  else if key_eqb k #"default" then longer default_defaults v w
  else v = w.
Definition all_respelled (u u' : dict) : Prop := Forall2 (fun a b => fst a = fst b /\ respelled (inherited u) (fst a) (snd a) (snd b)) u u'.
