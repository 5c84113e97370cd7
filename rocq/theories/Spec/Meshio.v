(** Meshes of meshio. *)
From Coq Require Import String Ascii Arith ZArith Bool List.
From Verif Require Import Base.Str Spec.MeshCells.
Import ListNotations.
Local Open Scope nat_scope.

(** The names under which formats keep materials. *)
Definition material_names : list str := [$"material"; $"gmsh:physical"; $"medit:ref"; $"avsucd:material"; $"flac3d:group"].
Definition names_material (k : str) : bool := existsb (streqb k) material_names.
(** A material array is called material. *)
Definition new_name (k : str) : str := if names_material k then $"material" else k.
Definition one_material {B} (d : list (str * B)) : Prop := forall k k', In k (map fst d) -> In k' (map fst d) -> names_material k = true -> names_material k' = true -> k = k'.
Definition has_material {B} (d : list (str * B)) : Prop := exists k, In k (map fst d) /\ names_material k = true.
(** One value for each cell, names all different. *)
Definition complete {V} (cells : list (str * list (list nat))) (d : list (str * list V)) : Prop :=
  NoDup (map fst d) /\ Forall (fun kv => List.length (snd kv) = List.length (flat cells)) d.
(** [i] is the number of a new material of dimension 3: 1 without names, and
    otherwise the one after the largest. *)
Definition new_number (f : list (str * (Z * Z))) (i : Z) : Prop :=
  (f = [] /\ i = 1%Z) \/
  ((exists name, In (name, ((i - 1)%Z, 3%Z)) f) /\ forall name j, In (name, (j, 3%Z)) f -> (j < i)%Z).
(** [f'] is [f] with [name] given [x]. *)
Definition with_name (name : str) (x : Z * Z) (f f' : list (str * (Z * Z))) : Prop :=
  In (name, x) f' /\ forall k y, k <> name -> (In (k, y) f' <-> In (k, y) f).
(** The values [v'] of the cells [b'] are those [v] of the cells [b], type by type. *)
Definition same_by_type {V} (b b' : list (str * list (list nat))) (v v' : list V) : Prop :=
  List.length v' = List.length (flat b') /\
  forall t, filter (has_type t) (combine (flat b') v') = filter (has_type t) (combine (flat b) v).
(** The data [d'] of [n] cells are the data [d], values related by [same], the
    material called so; without material, all the cells are of the new material
    [name], one more in the names [f']. *)
Definition kept_data {V} (num : Z -> V) (name : str) (n : nat) (same : list V -> list V -> Prop) (d d' : list (str * list V)) (f f' : list (str * (Z * Z))) : Prop :=
  NoDup (map fst d') /\
  (forall k v, In (k, v) d -> exists v', In (new_name k, v') d' /\ same v v') /\
  (forall k, In k (map fst d') -> k = $"material" \/ (In k (map fst d) /\ names_material k = false)) /\
  (has_material d -> f' = f) /\
  (~ has_material d -> exists i, new_number f i /\ In ($"material", repeat (num i) n) d' /\ with_name name (i, 3%Z) f f').
