(** C73: conversion to and from grids of pyvista. *)
From Coq Require Import String Ascii Arith ZArith Bool Lia List.
From Verif Require Import Base.Str Model.Py Model.Mesh Model.MeshOps Model.Pyvista Spec.MeshCells Spec.Pyvista Proofs.PyvistaProof.
Import ListNotations.
Local Open Scope nat_scope.

(** C73.  With VTK 8, a mesh whose blocks have cells of known types, made a grid and
    back, has the same cells in the same order, in the same blocks but that
    neighbouring blocks of one type become one, the same points and data; cells get
    material 1 when they had none. *)
Theorem C73_back : forall (C V : Type) (num : Z -> V) (zero : C) material (m : mesh C V), filled (cells m) -> plain_names (point_data m) -> plain_names (cell_data m) ->
  exists g m', to_pyvista zero false m = Ok g /\ from_pyvista num false material g = Ok m' /\ flat (cells m') = flat (cells m) /\ (alternate (cells m) -> cells m' = cells m) /\
    points m' = (if dim m =? 2 then map (fun p => p ++ [zero]) (points m) else points m) /\ point_data m' = point_data m /\
    cell_data m' = with_material num (List.length (flat (cells m))) (cell_data m).
Proof. exact @grid_back. Qed.
Print Assumptions C73_back.
(** C73.  With VTK 8, the mesh of a grid has its cells in the same order, those with
    corners numbered by coordinates (pixels and voxels) renumbered as quads and
    hexahedra. *)
Theorem C73_grid : forall (C V : Type) (num : Z -> V) material (g : grid C V) l, vtk_ok l -> g_types g = map fst l -> g_cells g = packed l -> g_offset g = starts 0 l ->
  plain_names (g_point_arrays g) -> plain_names (g_cell_arrays g) ->
  exists m, from_pyvista num false material g = Ok m /\ flat (cells m) = map (fun c => (vtk_names (fst c), in_mesh (fst c) (snd c))) l /\ alternate (cells m) /\
    dim m = 3 /\ points m = g_points g /\ point_data m = g_point_arrays g /\ cell_data m = with_material num (List.length l) (g_cell_arrays g) /\
    field_data m = (if has_material (g_cell_arrays g) then [] else [(material, (1%Z, 3%Z))]).
Proof. exact @grid_cells. Qed.
Print Assumptions C73_grid.

(** Two tetrahedra, a pyramid and a third tetrahedron, with pressures. *)
Definition solids : mesh Z Z := Mesh 3 (repeat [0; 0; 0]%Z 7) [($"tetra", [[0; 1; 2; 3]; [1; 2; 3; 4]]); ($"pyramid", [[0; 1; 2; 3; 5]]); ($"tetra", [[2; 3; 4; 6]])]
  [] [($"pressure", [10; 20; 30; 40]%Z)] [].
Example C73_back_case : filled (cells solids) /\ plain_names (cell_data solids) /\ exists g, to_pyvista 0%Z false solids = Ok g /\
  g_offset g = [0; 5; 10; 16] /\ g_types g = [10; 10; 14; 10] /\ from_pyvista id false $"dfalt" g =
    Ok (Mesh 3 (points solids) (cells solids) [] [($"pressure", [10; 20; 30; 40]%Z); ($"material", [1; 1; 1; 1]%Z)] [($"dfalt", (1, 3)%Z)]).
Proof.
  split; [|split].
  - split; [discriminate|]. repeat constructor; try discriminate.
    + exists 10, 4. repeat constructor; discriminate.
    + exists 14, 5. repeat constructor; discriminate.
    + exists 10, 4. repeat constructor; discriminate.
  - split; repeat constructor. intros [].
  - eexists. split; [vm_compute; reflexivity|]. repeat split.
Qed.
(** A voxel, a pixel and a hexahedron. *)
Example C73_grid_case : let l := [(11, [0; 1; 2; 3; 4; 5; 6; 7]); (8, [0; 1; 2; 3]); (12, [8; 9; 10; 11; 4; 5; 6; 7])] in vtk_ok l /\
  from_pyvista (C := Z) id false $"dfalt" (Grid (starts 0 l) (packed l) (map fst l) [] [] [($"material", [3; 4; 5]%Z)]) =
    Ok (Mesh 3 [] [($"hexahedron", [[0; 1; 3; 2; 4; 5; 7; 6]]); ($"quad", [[0; 1; 3; 2]]); ($"hexahedron", [[8; 9; 10; 11; 4; 5; 6; 7]])] [] [($"material", [3; 4; 5]%Z)] []).
Proof. split; [repeat constructor; do 2 eexists; split; reflexivity|vm_compute; reflexivity]. Qed.

(** C73 fails with VTK 9: the number of nodes of each cell after the first is read
    at the wrong place, so that cells lose nodes without notice. *)
Theorem C73_vtk9_refuted : exists (m m' : mesh Z Z) g, filled (cells m) /\ alternate (cells m) /\ to_pyvista 0%Z true m = Ok g /\ from_pyvista id true $"dfalt" g = Ok m' /\
  cells m = [($"tetra", [[0; 1; 2; 3]]); ($"pyramid", [[0; 1; 2; 3; 4]])] /\ cells m' = [($"tetra", [[0; 1; 2; 3]]); ($"pyramid", [[0; 1; 2]])].
Proof.
  exists (Mesh 3 (repeat [0; 0; 0]%Z 5) [($"tetra", [[0; 1; 2; 3]]); ($"pyramid", [[0; 1; 2; 3; 4]])] [] [] []). do 2 eexists. split; [|split; [|split; [|split]]].
  - split; [discriminate|]. repeat constructor; try discriminate.
    + exists 10, 4. repeat constructor; discriminate.
    + exists 14, 5. repeat constructor; discriminate.
  - split; [discriminate|exact I].
  - vm_compute. reflexivity.
  - vm_compute. reflexivity.
  - split; reflexivity.
Qed.
Print Assumptions C73_vtk9_refuted.
(** C73 fails with an empty block: an error when it is the first, and otherwise the
    cells after it are read at the wrong places. *)
Theorem C73_empty_refuted : exists (m m' : mesh Z Z) g, cells m = [($"tetra", [[0; 1; 2; 4]]); ($"triangle", []); ($"tetra", [[1; 3; 5; 6]])] /\
  to_pyvista 0%Z false m = Ok g /\ from_pyvista id false $"dfalt" g = Ok m' /\ cells m' = [($"tetra", [[0; 1; 2; 4]; [4; 1; 3; 5]])] /\
  to_pyvista (V := Z) 0%Z false (Mesh 3 (points m) (($"triangle", []) :: cells m) [] [] []) = Err IndexError.
Proof.
  exists (Mesh 3 (repeat [0; 0; 0]%Z 7) [($"tetra", [[0; 1; 2; 4]]); ($"triangle", []); ($"tetra", [[1; 3; 5; 6]])] [] [] []). do 2 eexists. split; [reflexivity|].
  split; [vm_compute; reflexivity|]. split; [vm_compute; reflexivity|]. split; reflexivity.
Qed.
Print Assumptions C73_empty_refuted.
(** C73 fails for names of data that differ by a blank and an underscore: one of the
    two is lost. *)
Theorem C73_blank_refuted : exists (m m' : mesh Z Z) g, filled (cells m) /\ NoDup (map fst (cell_data m)) /\ cell_data m = [($"a b", [1]%Z); ($"a_b", [2]%Z); ($"material", [7]%Z)] /\
  to_pyvista 0%Z false m = Ok g /\ from_pyvista id false $"dfalt" g = Ok m' /\ cell_data m' = [($"a_b", [2]%Z); ($"material", [7]%Z)].
Proof.
  exists (Mesh 3 (repeat [0; 0; 0]%Z 4) [($"tetra", [[0; 1; 2; 3]])] [] [($"a b", [1]%Z); ($"a_b", [2]%Z); ($"material", [7]%Z)] []). do 2 eexists. split.
  - split; [discriminate|]. repeat constructor; try discriminate. exists 10, 4. repeat constructor; discriminate.
  - split; [repeat constructor; cbn; intuition discriminate|]. split; [reflexivity|]. split; [vm_compute; reflexivity|]. split; [vm_compute; reflexivity|reflexivity].
Qed.
Print Assumptions C73_blank_refuted.
(** C73.  The names of materials are not kept: cells come back with numbers that have
    no name. *)
Theorem C73_names_refuted : exists (m m' : mesh Z Z) g, filled (cells m) /\ materials ([7; 7]%Z, [($"sand", 7%Z)]) = Names [$"sand"; $"sand"] /\
  cell_data m = [($"material", [7; 7]%Z)] /\ field_data m = [($"sand", (7, 3)%Z)] /\ to_pyvista 0%Z false m = Ok g /\ from_pyvista id false $"dfalt" g = Ok m' /\
  cell_data m' = [($"material", [7; 7]%Z)] /\ field_data m' = [].
Proof.
  exists (Mesh 3 (repeat [0; 0; 0]%Z 5) [($"tetra", [[0; 1; 2; 3]; [1; 2; 3; 4]])] [] [($"material", [7; 7]%Z)] [($"sand", (7, 3)%Z)]). do 2 eexists. split.
  - split; [discriminate|]. repeat constructor; try discriminate. exists 10, 4. repeat constructor; discriminate.
  - split; [reflexivity|]. split; [reflexivity|]. split; [reflexivity|]. split; [vm_compute; reflexivity|]. split; [vm_compute; reflexivity|]. split; reflexivity.
Qed.
Print Assumptions C73_names_refuted.
