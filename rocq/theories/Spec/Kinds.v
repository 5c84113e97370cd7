(** Parameters with other kinds of sequences and integers. *)
From Coq Require Import String Ascii ZArith Bool List.
From Verif Require Import Base.Str Model.Py.
Import ListNotations.

(** Lists, tuples and arrays as lists, the integers of numpy as integers. *)
Fixpoint listed (v : pyval) : pyval :=
  match v with PNpInt z => PInt z | PSeq _ l => PSeq SList (map listed l) | _ => v end.
Definition same_contents (v w : pyval) : Prop := listed v = listed w.

Definition no_array (v : pyval) : Prop := match v with PSeq SArray _ => False | _ => True end.
(** Tested for being true; lists of labels; kept as they are. *)
Definition flag_names : list key :=
  [#"eos"; #"n_component"; #"n_phase"; #"n_component_mass"; #"isothermal"; #"start"; #"nover"; #"coordinates"; #"diffusion"; #"creep"; #"format";
   #"variables"; #"integers"; #"solver"; #"selections"; #"more_options"; #"generators"; #"output"; #"elements"; #"connections"; #"initial_conditions"].
Definition order_names : list key := [#"elements_order"; #"connections_order"; #"initial_conditions_order"].
Definition kept_names : list key := [#"rocks_order"; #"material"].

(** The same entries at all levels, with sequences of other kinds, of the same contents. *)
Inductive other_kind (k : key) : pyval -> pyval -> Prop :=
| other_dict : forall d d', Forall2 (fun a b => fst a = fst b /\ other_kind (fst a) (snd a) (snd b)) d d' -> other_kind k (PDict d) (PDict d')
| other_value : forall v w, same_contents v w ->
    (In k flag_names -> v = w \/ no_array v /\ no_array w) ->
    (In k order_names -> v = w \/ exists s s' l, v = PSeq s l /\ w = PSeq s' l) ->
    (In k kept_names -> v = w) -> other_kind k v w.
Definition other_kinds (u u' : dict) : Prop := Forall2 (fun a b => fst a = fst b /\ other_kind (fst a) (snd a) (snd b)) u u'.
