(** What an input file merged with a mesh holds. *)
From Coq Require Import String Ascii Arith ZArith Bool List.
From Verif Require Import Base.Str Base.Digits Base.Flt Base.FltText Model.Py Model.MeshFile Spec.Fields Spec.Labels Spec.File Spec.Cli Spec.MeshBack Spec.InconBack.
Import ListNotations.
Local Open Scope nat_scope.

(** A mesh whose labels have [n] characters and whose numbers and names fit; [mt]
    is the material of each cell in the file; no two faces between the same cells. *)
Definition mesh_fits (n : nat) (names : list (mat * mat)) (coord : bool) (cs : list mcell) (ls : list (nat * nat * nat)) (me : nat * nat * nat -> measures)
  (mt : mcell -> mat) : Prop :=
  5 <= n <= 9 /\
  (forall c, In c cs -> cell_fits n coord c = true /\ called names (mc_mat c) (mt c) /\ mat_fits (mt c) = true) /\
  NoDup (map mc_label cs) /\ NoDup (map fst names) /\ ls <> [] /\
  (forall i f j, In (i, f, j) ls -> i < List.length cs /\ j < List.length cs /\ measures_fit (me (i, f, j)) = true) /\
  (forall i f f' j, In (i, f, j) ls -> In (i, f', j) ls -> f = f').
(** Initial conditions of [k] values with labels of [n] characters. *)
Definition conditions_fit (n k : nat) (cs : list icell) : Prop :=
  5 <= n <= 9 /\ cs <> [] /\
  (forall c, In c cs -> condition_fits n k c = true /\ not_all_negative c /\ (has_conditions c = true -> long_filled k c = true)) /\
  NoDup (map ic_label cs).
(** No line but the last looks like an end line. *)
Definition ends_once (text : str) : Prop := Forall (fun l => ~ end_line l) (removelast (lines text)).
(** What the INCON file gives, if there is one. *)
Definition conditions_if (ic : option (list icell)) : dict :=
  match ic with Some cs => conditions_read (filter has_conditions cs) | None => [] end.
(** The entries: those of the INCON file, then those of the MESH file, then those
    of the input file. *)
Definition merged_entry (p mesh conditions : dict) (k : key) : option pyval :=
  pick (dget k conditions) (pick (dget k mesh) (FILE_entry p k)).
Definition of_mesh (k : key) : bool :=
  existsb (key_eqb k) [#"elements"; #"elements_order"; #"coordinates"; #"connections"; #"connections_order"; #"initial_conditions"; #"initial_conditions_order"].
