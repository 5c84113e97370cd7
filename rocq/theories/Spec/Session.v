(** Meshes which hold together, and where cells and points come from. *)
From Coq Require Import String Ascii Arith ZArith QArith Qcanon Bool List.
From Verif Require Import Base.Str Model.MeshOps Model.Session Spec.MeshCells Spec.Extrude Spec.Prune Spec.Geometry.
Import ListNotations.
Local Open Scope nat_scope.

(** Number of nodes of the cells of each type. *)
Inductive has_nodes : str -> nat -> Prop :=
| nodes_vertex : has_nodes $"vertex" 1
| nodes_line : has_nodes $"line" 2
| nodes_triangle : has_nodes $"triangle" 3
| nodes_quad : has_nodes $"quad" 4
| nodes_tetra : has_nodes $"tetra" 4
| nodes_pyramid : has_nodes $"pyramid" 5
| nodes_wedge : has_nodes $"wedge" 6
| nodes_hexahedron : has_nodes $"hexahedron" 8.
(** One value per point, one value per cell, cells of the right number of nodes
    taken among the points, points of as many coordinates as dimensions, no name
    twice. *)
Record consistent (m : mesh Qc Qc) : Prop := Consistent {
  some_block : cells m <> [];
  right_points : forall p, In p (points m) -> List.length p = dim m;
  right_nodes : forall t c, In (t, c) (typed_cells (cells m)) -> has_nodes t (List.length c) /\ forall n, In n c -> n < List.length (points m);
  right_point_data : forall k v, In (k, v) (point_data m) -> List.length v = List.length (points m);
  right_cell_data : forall k v, In (k, v) (cell_data m) -> List.length v = List.length (typed_cells (cells m));
  names_once : NoDup (map fst (point_data m)) /\ NoDup (map fst (cell_data m)) /\ NoDup (map fst (field_data m))
}.
(** Meshes are extruded only if they have nothing but triangles and quads. *)
Fixpoint allowed (m : mesh Qc Qc) (ops : list op) : Prop :=
  match ops with
  | [] => True
  | o :: r => match o with Extrude _ _ => plane (cells m) | _ => True end /\ allowed (after m o) r
  end.

(** Calls which write the cell data, the point data, of this name. *)
Definition writes_cells (o : op) (k : str) : Prop :=
  match o with AddCellData k' _ => k = k' | SetMaterial _ _ => k = $"material" | CellsToPoints | PointsToCells => True | _ => False end.
Definition writes_points (o : op) (k : str) : Prop :=
  match o with AddPointData k' _ => k = k' | CellsToPoints | PointsToCells => True | _ => False end.
(** A cell stays of its type or becomes a prism. *)
Definition becomes (t t' : str) : Prop := t' = t \/ prism t t'.
(** Cell [i] of [m'] comes from cell number [nth i origin] of [m]. *)
Definition types_follow (origin : list nat) (m m' : mesh Qc Qc) : Prop :=
  Forall2 (fun i tc => exists tc0, nth_error (typed_cells (cells m)) i = Some tc0 /\ becomes (fst tc0) (fst tc)) origin (typed_cells (cells m')).
