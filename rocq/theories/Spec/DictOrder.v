(** Parameters whose dictionaries list their entries in another order. *)
From Coq Require Import String Ascii ZArith Bool List.
From Verif Require Import Base.Str Model.Py.
Import ListNotations.

(** The same keys, each once, in any order, with values related by [R]. *)
Definition entries_alike (R : key -> pyval -> pyval -> Prop) (d d' : dict) : Prop :=
  NoDup (dkeys d) /\ NoDup (dkeys d') /\
  forall k, match dget k d, dget k d' with Some v, Some w => R k v w | None, None => True | _, _ => False end.
Definition mixed (R : key -> pyval -> pyval -> Prop) (v w : pyval) : Prop :=
  match v, w with PDict d, PDict d' => entries_alike R d d' | _, _ => v = w end.
(** The same keys in the same order (the order of the records in the file). *)
Definition rows (R : pyval -> pyval -> Prop) (v w : pyval) : Prop :=
  match v, w with PDict d, PDict d' => Forall2 (fun a b => fst a = fst b /\ R (snd a) (snd b)) d d' | _, _ => v = w end.

(** Dictionaries inside a rock, inside default and inside selections. *)
Definition model_names : list key :=
  [#"relative_permeability"; #"capillarity"; #"permeability_model"; #"equivalent_pore_pressure"; #"integers"].
Definition inside (k : key) (v w : pyval) : Prop :=
  if existsb (key_eqb k) model_names then mixed (fun _ => eq) v w else v = w.
(** The dictionaries of the parameters, those with one entry by record, and the other values. *)
Definition group_names : list key :=
  [#"options"; #"extra_options"; #"more_options"; #"selections"; #"solver"; #"flac"; #"default"; #"output"].
Definition table_names : list key :=
  [#"rocks"; #"generators"; #"elements"; #"connections"; #"initial_conditions"].
Definition parameter (k : key) (v w : pyval) : Prop :=
  if existsb (key_eqb k) group_names then mixed inside v w
  else if existsb (key_eqb k) table_names then rows (mixed inside) v w
  else v = w.
