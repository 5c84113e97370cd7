(** C74: conversion to and from meshes of meshio. *)
From Coq Require Import String Ascii Arith ZArith Bool List.
From Verif Require Import Base.Str Model.Py Model.Numpy Model.Mesh Model.MeshOps Model.Meshio Spec.MeshCells Spec.Meshio Proofs.MeshioProof.
Import ListNotations.
Local Open Scope nat_scope.

(** Two triangles, a quad and again a triangle; pressures and materials of medit. *)
Definition shapes : list cellblock := [($"triangle", [[0; 1; 2]; [1; 3; 2]]); ($"quad", [[3; 4; 5; 6]]); ($"triangle", [[2; 3; 7]])].
Definition corners : list (list nat) := map (fun i => [i; i]) (seq 0 8).
Definition marked : mesh nat Z := Mesh 2 corners shapes [] [($"P", [10; 11; 12; 13]%Z); ($"medit:ref", [1; 2; 1; 2]%Z)] [($"sand", (1, 2)%Z)].
Definition unmarked : mesh nat Z := Mesh 2 corners shapes [] [($"P", [10; 11; 12; 13]%Z)] [($"rock", (5, 3)%Z); ($"side", (8, 2)%Z)].
Definition keep (z : Z) : Z := z.

(** C74.  Since version 4 of meshio: the same points, blocks of cells and point
    data, the same values under the same names, the material called so; a mesh
    without material is given a new one. *)
Theorem C74_new : forall (C V : Type) (num : Z -> V) (name : str) (m : mesh C V),
  cells m <> [] -> complete (cells m) (cell_data m) -> one_material (cell_data m) -> NoDup (map fst (field_data m)) ->
  (has_material (cell_data m) \/ field_data m = [] \/ exists n j, In (n, (j, 3%Z)) (field_data m)) ->
  exists io m' io', to_meshio true m = Ok io /\ from_meshio num name (dim m) io = Ok (m', io') /\
    dim m' = dim m /\ points m' = points m /\ cells m' = cells m /\ point_data m' = point_data m /\
    kept_data num name (List.length (flat (cells m))) eq (cell_data m) (cell_data m') (field_data m) (field_data m').
Proof. exact @back_new. Qed.
Print Assumptions C74_new.
Example C74_new_case :
  (let* io := to_meshio true marked in let* r := from_meshio keep $"dfalt" 2 io in Ok (cell_data (fst r), field_data (fst r))) =
    Ok ([($"P", [10; 11; 12; 13]%Z); ($"material", [1; 2; 1; 2]%Z)], [($"sand", (1, 2)%Z)]) /\
  (let* io := to_meshio true unmarked in let* r := from_meshio keep $"dfalt" 2 io in Ok (cell_data (fst r), field_data (fst r))) =
    Ok ([($"P", [10; 11; 12; 13]%Z); ($"material", [6; 6; 6; 6]%Z)], [($"rock", (5, 3)%Z); ($"side", (8, 2)%Z); ($"dfalt", (6, 3)%Z)]) /\
  complete (cells marked) (cell_data marked) /\ one_material (cell_data marked) /\ has_material (cell_data marked).
Proof.
  split; [vm_compute; reflexivity|]. split; [vm_compute; reflexivity|]. split; [|split].
  - split; [|repeat constructor]. constructor; [intros [E|[]]; discriminate E|]. constructor; [intros []|constructor].
  - intros k k' [<-|[<-|[]]] [<-|[<-|[]]] M M'; try reflexivity; discriminate.
  - exists $"medit:ref". split; [right; now left|reflexivity].
Qed.

(** C74.  Before version 4: one block for each type, its cells in the same order,
    and the values follow the cells. *)
Theorem C74_old : forall (C V : Type) (num : Z -> V) (name : str) (m : mesh C V),
  cells m <> [] -> complete (cells m) (cell_data m) -> one_material (cell_data m) -> NoDup (map fst (field_data m)) ->
  (has_material (cell_data m) \/ field_data m = [] \/ exists n j, In (n, (j, 3%Z)) (field_data m)) ->
  exists io m' io', to_meshio false m = Ok io /\ from_meshio num name (dim m) io = Ok (m', io') /\
    dim m' = dim m /\ points m' = points m /\ point_data m' = point_data m /\
    NoDup (map fst (cells m')) /\ (forall t, filter (fun x => streqb t (fst x)) (flat (cells m')) = filter (fun x => streqb t (fst x)) (flat (cells m))) /\
    kept_data num name (List.length (flat (cells m'))) (same_by_type (cells m) (cells m')) (cell_data m) (cell_data m') (field_data m) (field_data m').
Proof. exact @back_old. Qed.
Print Assumptions C74_old.
Example C74_old_case :
  (let* io := to_meshio false marked in let* r := from_meshio keep $"dfalt" 2 io in Ok (cells (fst r), cell_data (fst r))) =
    Ok ([($"triangle", [[0; 1; 2]; [1; 3; 2]; [2; 3; 7]]); ($"quad", [[3; 4; 5; 6]])], [($"P", [10; 11; 13; 12]%Z); ($"material", [1; 2; 2; 1]%Z)]).
Proof. vm_compute. reflexivity. Qed.

(** C74.  With two arrays of materials the first takes the place of the other: the
    materials of the mesh are lost. *)
Theorem C74_two_materials_refuted : ~ (forall (num : Z -> Z) (m : mesh nat Z), cells m <> [] -> complete (cells m) (cell_data m) -> field_data m = [] ->
  forall io m' io', to_meshio true m = Ok io -> from_meshio num $"dfalt" (dim m) io = Ok (m', io') ->
  forall v, In ($"material", v) (cell_data m) -> In ($"material", v) (cell_data m')).
Proof.
  intros H. specialize (H keep (Mesh 2 corners [($"triangle", [[0; 1; 2]; [1; 3; 2]])] [] [($"gmsh:physical", [7; 7]%Z); ($"material", [1; 2]%Z)] [])).
  cbn [cells cell_data field_data dim] in H. assert (X : complete [($"triangle", [[0; 1; 2]; [1; 3; 2]])] [($"gmsh:physical", [7; 7]%Z); ($"material", [1; 2]%Z)]).
  { split; [|repeat constructor]. constructor; [intros [E|[]]; discriminate E|]. constructor; [intros []|constructor]. }
  specialize (H ltac:(discriminate) X eq_refl). specialize (H _ _ _ eq_refl eq_refl [1; 2]%Z (or_intror (or_introl eq_refl))). cbn in H. destruct H as [E|[]]. discriminate E.
Qed.
Print Assumptions C74_two_materials_refuted.

(** C74.  A mesh without material whose names are all of another dimension is not
    converted. *)
Theorem C74_names_refuted : exists (m : mesh nat Z) io, cells m <> [] /\ complete (cells m) (cell_data m) /\ one_material (cell_data m) /\
  NoDup (map fst (field_data m)) /\ to_meshio true m = Ok io /\ from_meshio keep $"dfalt" (dim m) io = Err ValueError.
Proof.
  exists (Mesh 2 corners shapes [] [] [($"sand", (1, 2)%Z)]). eexists. split; [discriminate|]. split; [repeat constructor|]. split; [intros k k' []|]. split; [repeat constructor; intros []|]. split; [vm_compute; reflexivity|]. vm_compute. reflexivity.
Qed.
Print Assumptions C74_names_refuted.

(** C74.  The call changes its argument: a second call gives another number to the
    default material, and the names, shared, no longer have the number of the
    first. *)
Theorem C74_argument_refuted : exists (io io1 io2 : mio nat Z) m1 m2,
  from_meshio keep $"dfalt" 2 io = Ok (m1, io1) /\ from_meshio keep $"dfalt" 2 io1 = Ok (m2, io2) /\
  io1 <> io /\ In ($"material", [6; 6; 6; 6]%Z) (cell_data m1) /\ forall name, ~ In (name, (6, 3)%Z) (mi_field_data io2).
Proof.
  exists (Mio corners (Blocks shapes []) [] [($"rock", (5, 3)%Z)]). do 4 eexists. split; [vm_compute; reflexivity|]. split; [vm_compute; reflexivity|]. split; [discriminate|]. split; [now left|].
  intros name [E|[E|[]]]; discriminate E.
Qed.
Print Assumptions C74_argument_refuted.
