(** A mesh and the methods called on it, one after the other;
    /repo/toughio/_mesh/_mesh.py. *)
From Coq Require Import String Ascii Arith ZArith QArith Qcanon Bool List.
From Verif Require Import Base.Str Model.Py Model.Numpy Model.Mesh Model.MeshOps Model.Grid Model.Geometry.
Import ListNotations.
Local Open Scope nat_scope.

(** The calls, with values which are single numbers, exact *)
Inductive op :=
| AddPointData (k : str) (v : list Qc)           (* add_point_data, _mesh.py:511-529 *)
| AddCellData (k : str) (v : list Qc)            (* add_cell_data, _mesh.py:531-549 *)
| SetMaterial (name : str) (s : selection)       (* set_material, _mesh.py:551-586 *)
| Extrude (heights : list Qc) (axis : nat)       (* extrude_to_3d, _mesh.py:98-174 *)
| Prune                                          (* prune_duplicates, _mesh.py:176-224 *)
| CellsToPoints                                  (* cell_data_to_point_data, _mesh.py:588-606 *)
| PointsToCells.                                 (* point_data_to_cell_data, _mesh.py:608-616 *)

(** An array of integers, data of set_material, _mesh.py:578; other numbers are not
    modelled *)
Definition integer (x : Qc) : res Z := if Pos.eqb (Qden (this x)) 1 then Ok (Qnum (this x)) else Err Unmodelled.
Definition of_integer (z : Z) : Qc := Q2Qc (inject_Z z).   (* _mesh.py:584 *)
(** add_point_data, _mesh.py:511-529, of a list or an array *)
Definition add_point_data (k : str) (v : list Qc) (m : mesh Qc Qc) : res (mesh Qc Qc) :=
  let* _ := guard (List.length v =? List.length (points m)) ValueError in
  Ok (Mesh (dim m) (points m) (cells m) (put k v (point_data m)) (cell_data m) (field_data m)).
(** add_cell_data, _mesh.py:531-549 *)
Definition add_cell_data (k : str) (v : list Qc) (m : mesh Qc Qc) : res (mesh Qc Qc) :=
  let* _ := guard (List.length v =? n_cells (cells m)) ValueError in
  Ok (Mesh (dim m) (points m) (cells m) (point_data m) (put k v (cell_data m)) (field_data m)).
(** set_material on a mesh, _mesh.py:551-586: the cells selected, then the array of
    numbers, then the number of the name.  An array which has not one value per cell
    is not modelled. *)
Definition assign (name : str) (s : selection) (m : mesh Qc Qc) : res (mesh Qc Qc) :=
  let n := n_cells (cells m) in
  let* is := selected n s in
  match s, is with
  | NpBools _, [] => Ok m
  | _, _ =>
      let* data := assoc $"material" (cell_data m) in
      let* _ := guard (List.length data =? n) Unmodelled in
      let* data := mapM integer data in
      let* st := set_material name s (data, map (fun kv => (fst kv, fst (snd kv))) (field_data m)) in
      let* imat := assoc name (snd st) in
      let* m := add_cell_data $"material" (map of_integer (fst st)) m in
      Ok (Mesh (dim m) (points m) (cells m) (point_data m) (cell_data m) (put name (imat, 3%Z) (field_data m)))
  end.
(** One call *)
Definition step (m : mesh Qc Qc) (o : op) : res (mesh Qc Qc) :=
  match o with
  | AddPointData k v => add_point_data k v m   (* _mesh.py:511-529 *)
  | AddCellData k v => add_cell_data k v m     (* _mesh.py:531-549 *)
  | SetMaterial name s => assign name s m      (* _mesh.py:551-586 *)
  | Extrude hs axis => extrude Qcplus Qc_eq_bool 0%Qc hs axis m   (* _mesh.py:98-174 *)
  | Prune => prune qleb m                      (* _mesh.py:176-224 *)
  | CellsToPoints => cell_data_to_point_data m (* _mesh.py:588-606 *)
  | PointsToCells => point_data_to_cell_data m (* _mesh.py:608-616 *)
  end.
(** The mesh after a call, as the caller has it if the exception is caught: every
    check comes before the first change (_mesh.py:117-125, 523-528, 543-548, 567-575,
    588-616), but for arrays which do not fit the mesh in extrude_to_3d and
    prune_duplicates (_mesh.py:147, 213). *)
Definition after (m : mesh Qc Qc) (o : op) : mesh Qc Qc := match step m o with Ok m' => m' | Err _ => m end.
Definition run (m : mesh Qc Qc) (ops : list op) : mesh Qc Qc := fold_left after ops m.   (* _mesh.py:98-616 *)
(** The property materials, _mesh.py:763-766 and _properties.py:7-28; numbers which
    are not integers are not modelled *)
Definition mesh_materials (m : mesh Qc Qc) : res shown :=
  match assoc $"material" (cell_data m) with
  | Ok data => let* data := mapM integer data in Ok (materials (data, map (fun kv => (fst kv, fst (snd kv))) (field_data m)))
  | Err _ => Ok (Numbers (repeat 1%Z (n_cells (cells m))))
  end.
