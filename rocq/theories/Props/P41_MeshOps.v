(** C41-C43: extrusion, pruning and materials of meshes. *)
From Coq Require Import String Ascii Arith ZArith Bool Lia Permutation List.
From Verif Require Import Base.Str Model.Py Model.Numpy Model.Mesh Model.MeshOps Spec.Order Spec.MeshCells Spec.Extrude Spec.Prune Spec.Materials
  Proofs.NumpyProof Proofs.ExtrudeProof Proofs.PruneProof Proofs.MaterialProof.
Import ListNotations.
Local Open Scope nat_scope.

(** A triangle and a quad with data on points and cells. *)
Definition flatland : mesh nat nat :=
  Mesh 2 [[0; 0]; [1; 0]; [1; 1]; [0; 1]; [2; 2]] [($"triangle", [[1; 4; 2]]); ($"quad", [[0; 1; 2; 3]])]
    [($"T", [5; 6; 7; 8; 9])] [($"porosity", [30; 40])] [($"SAND", (1, 2)%Z)].
(** The same with a segment on the border, as mesh generators leave them. *)
Definition bordered : mesh nat nat :=
  Mesh 2 [[0; 0]; [1; 0]; [1; 1]; [0; 1]] [($"line", [[0; 1]]); ($"quad", [[0; 1; 2; 3]])] [] [($"porosity", [30; 40])] [].

(** C41.  For a mesh of triangles and quads: layer [l] of the points is the plane
    raised by the first [l] heights, each block becomes the block of the prisms
    between consecutive layers, and the data of a cell are those of all its prisms. *)
Theorem C41_extrude : forall (C V : Type) (add : C -> C -> C) (eqb : C -> C -> bool) (zero : C) heights axis (m m' : mesh C V),
  extrude add eqb zero heights axis m = Ok m' ->
  cells m <> [] -> plane (cells m) -> Forall (fun p => List.length p = dim m) (points m) ->
  let npts := List.length (points m) in let nh := List.length heights in
  axis < 3 /\ dim m' = 3 /\ List.length (points m') = (nh + 1) * npts /\
  (forall l p b, l <= nh -> nth_error (points m) p = Some b ->
     exists q, nth_error (points m') (l * npts + p) = Some q /\
       ((exists x y, b = [x; y] /\ q = placed axis x y (level add zero heights l)) \/
        (exists h, nth_error b axis = Some h /\ nth_error q axis = Some (level add h heights l) /\ List.length b = 3 /\ List.length q = 3 /\
           forall j, j <> axis -> nth_error q j = nth_error b j))) /\
  Forall2 (prisms_over npts nh) (cells m) (cells m') /\
  Forall2 (fun kv kv' => fst kv' = fst kv /\ repeats (nh + 1) (snd kv) (snd kv')) (point_data m) (point_data m') /\
  Forall2 (fun kv kv' => fst kv' = fst kv /\ exists ps ps', concat ps = snd kv /\ map (@List.length V) ps = sizes (cells m) /\
    concat ps' = snd kv' /\ map (@List.length V) ps' = sizes (cells m') /\ Forall2 (repeats nh) ps ps') (cell_data m) (cell_data m') /\
  Forall2 (fun kv kv' => fst kv' = fst kv /\ snd kv' = (fst (snd kv), 3%Z)) (field_data m) (field_data m').
Proof. exact @extrude_ok. Qed.
Print Assumptions C41_extrude.
(** C41.  Plane meshes are extruded along any of the three axes. *)
Theorem C41_total : forall (C V : Type) (add : C -> C -> C) (eqb : C -> C -> bool) (zero : C) heights axis (m : mesh C V),
  axis < 3 -> dim m = 2 -> cells m <> [] -> Forall (fun kv => List.length (snd kv) = n_cells (cells m)) (cell_data m) ->
  exists m', extrude add eqb zero heights axis m = Ok m'.
Proof. exact @extrude_total. Qed.
Print Assumptions C41_total.
Example C41_extrude_case : plane (cells flatland) /\ Forall (fun p => List.length p = dim flatland) (points flatland) /\
  exists m', extrude Nat.add Nat.eqb 0 [3; 4] 2 flatland = Ok m' /\
    nth_error (points m') 11 = Some [1; 0; 7] /\
    cells m' = [($"wedge", [[1; 4; 2; 6; 9; 7]; [6; 9; 7; 11; 14; 12]]); ($"hexahedron", [[0; 1; 2; 3; 5; 6; 7; 8]; [5; 6; 7; 8; 10; 11; 12; 13]])] /\
    cell_data m' = [($"porosity", [30; 30; 40; 40])].
Proof.
  split; [apply Forall_cons; [now left|]; apply Forall_cons; [now right|constructor]|]. split; [repeat constructor|].
  eexists. split; [vm_compute; reflexivity|]. vm_compute. repeat split.
Qed.
(** C41 needs the hypothesis on the blocks: the segments disappear but not their
    data, and the data no longer have one value per cell. *)
Theorem C41_extrude_refuted : ~ (forall (m m' : mesh nat nat), extrude Nat.add Nat.eqb 0 [1] 2 m = Ok m' ->
  Forall (fun kv => List.length (snd kv) = n_cells (cells m)) (cell_data m) ->
  Forall (fun kv => List.length (snd kv) = n_cells (cells m')) (cell_data m')).
Proof.
  intros H. destruct (extrude Nat.add Nat.eqb 0 [1] 2 bordered) as [m'|] eqn:E; [|vm_compute in E; discriminate].
  specialize (H bordered m' E). vm_compute in E. injection E as <-. assert (X : Forall (fun kv : str * list nat => List.length (snd kv) = n_cells (cells bordered)) (cell_data bordered)) by (repeat constructor).
  specialize (H X). inversion H as [|? ? B]. vm_compute in B. discriminate.
Qed.
Print Assumptions C41_extrude_refuted.

(** Two squares cut in triangles; points 1 and 4 are the same, the second triangle
    of the first block is the first with other corners first. *)
Definition doubled : mesh nat nat :=
  Mesh 2 [[1; 1]; [0; 1]; [0; 0]; [1; 0]; [0; 1]] [($"triangle", [[0; 1; 2]; [2; 4; 0]; [0; 2; 3]]); ($"triangle", [[3; 2; 0]])]
    [($"T", [5; 6; 7; 8; 6])] [($"porosity", [30; 40; 50; 60])] [].

(** C42.  After pruning, the points are the same without duplicates, with the data
    of one of the duplicates; each block has the same cells at the same corners,
    no two with the same vertices, each with the data of the cell kept. *)
Theorem C42_prune : forall (C V : Type) (leb : C -> C -> bool), total_order leb -> forall (m m' : mesh C V),
  prune leb m = Ok m' -> cells m <> [] ->
  NoDup (points m') /\ (forall p, In p (points m') <-> In p (points m)) /\
  (exists js, picked (points m) js (points m') /\
     (Forall (fun kv => List.length (snd kv) = List.length (points m)) (point_data m) ->
      Forall2 (fun kv kv' => fst kv' = fst kv /\ picked (snd kv) js (snd kv')) (point_data m) (point_data m'))) /\
  exists orders,
    Forall3 (fun b is b' => fst b' = fst b /\ kept_cells (points m) (points m') (snd b) is (snd b')) (cells m) orders (cells m') /\
    Forall2 (fun kv kv' => fst kv' = fst kv /\ exists ps ps', concat ps = snd kv /\ map (@List.length V) ps = sizes (cells m) /\
      concat ps' = snd kv' /\ map (@List.length V) ps' = sizes (cells m') /\ Forall3 picked ps orders ps') (cell_data m) (cell_data m') /\
    field_data m' = field_data m.
Proof. exact @prune_ok. Qed.
Print Assumptions C42_prune.
(** C42.  Pruning again changes nothing. *)
Theorem C42_again : forall (C V : Type) (leb : C -> C -> bool), total_order leb -> forall (m m' : mesh C V),
  prune leb m = Ok m' -> cells m <> [] -> prune leb m' = Ok m'.
Proof. exact @prune_again. Qed.
Print Assumptions C42_again.
(** C42.  Every well-formed mesh can be pruned. *)
Theorem C42_total : forall (C V : Type) (leb : C -> C -> bool), total_order leb -> forall (m : mesh C V), cells m <> [] ->
  Forall (fun b : cellblock => Forall (Forall (fun i => i < List.length (points m))) (snd b)) (cells m) ->
  Forall (fun kv => List.length (snd kv) = List.length (points m)) (point_data m) ->
  Forall (fun kv => List.length (snd kv) = n_cells (cells m)) (cell_data m) -> exists m', prune leb m = Ok m'.
Proof. exact @prune_total. Qed.
Print Assumptions C42_total.
Example C42_prune_case : total_order Nat.leb /\ prune Nat.leb doubled =
  Ok (Mesh 2 [[0; 0]; [0; 1]; [1; 0]; [1; 1]] [($"triangle", [[3; 1; 0]; [3; 0; 2]]); ($"triangle", [[2; 0; 3]])]
        [($"T", [7; 6; 8; 5])] [($"porosity", [30; 50; 60])] []).
Proof. split; [exact nat_order|vm_compute; reflexivity]. Qed.
(** C42 holds block by block only: the last cells of both blocks are one triangle,
    and both remain. *)
Theorem C42_blocks_refuted : ~ (forall m m' : mesh nat nat, prune Nat.leb m = Ok m' ->
  forall t rows t' rows' i j c d, nth_error (cells m') i = Some (t, rows) -> nth_error (cells m') j = Some (t', rows') ->
    In c rows -> In d rows' -> Permutation c d -> i = j).
Proof.
  intros H. pose proof (H doubled _ (proj2 C42_prune_case)) as X. clear H. cbn [cells] in X.
  specialize (X $"triangle" [[3; 1; 0]; [3; 0; 2]] $"triangle" [[2; 0; 3]] 0 1 [3; 0; 2] [2; 0; 3] eq_refl eq_refl).
  assert (E : 0 = 1); [|discriminate]. apply X; [right; now left|now left|].
  apply (isort_perm_eq Nat.leb nat_order). reflexivity.
Qed.
Print Assumptions C42_blocks_refuted.

(** C43.  After any history of assignments, the materials shown are those last
    assigned, as long as a new name is introduced only while every known name is in
    use. *)
Theorem C43_materials : forall data field before calls after,
  NoDup (map fst field) -> NoDup (map snd field) -> data <> [] -> materials (data, field) = Names before ->
  history (map fst field) before calls after ->
  exists st, foldM (fun st c => set_material (fst c) (snd c) st) (data, field) calls = Ok st /\ materials st = Names after.
Proof. exact materials_follow. Qed.
Print Assumptions C43_materials.
Definition three : materials_state := ([1; 1; 1]%Z, [($"dfalt", 1%Z)]).
Example C43_materials_case :
  materials three = Names [$"dfalt"; $"dfalt"; $"dfalt"] /\
  history [$"dfalt"] [$"dfalt"; $"dfalt"; $"dfalt"] [($"SAND", Ints [2%Z; 0%Z]); ($"CLAY", NpBools [true; false; false])] [$"CLAY"; $"dfalt"; $"SAND"].
Proof.
  split; [reflexivity|].
  apply (one _ _ _ _ _ [$"SAND"; $"dfalt"; $"SAND"]).
  - cbn [valid]. split; [discriminate|]. apply Forall_cons; [cbn; lia|]. apply Forall_cons; [cbn; lia|constructor].
  - exists 0. right. now left.
  - split; [reflexivity|]. intros [|[|[|k]]] L; cbn [chosen nth_error In List.length] in *; (split; [intros X; try reflexivity; try lia|intros X; try reflexivity; try (exfalso; apply X; tauto); try lia]).
  - right. intros n I. destruct I as [<- | []]. now left.
  - apply (one _ _ _ _ _ [$"CLAY"; $"dfalt"; $"SAND"]).
    + split; [reflexivity|cbn; lia].
    + exists 0. reflexivity.
    + split; [reflexivity|]. intros [|[|[|k]]] L; cbn [chosen nth_error List.length] in *; (split; [intros X; try reflexivity; try discriminate; try lia|intros X; try reflexivity; try (exfalso; apply X; reflexivity); try lia]).
    + right. intros n I. destruct I as [<- | [<- | []]]; [now left|right; now left].
    + constructor.
Qed.
(** C43.  Any other selection is refused (Python booleans in a mesh of one cell
    apart: they may be taken for indices). *)
Theorem C43_refused : forall m s st, ~ valid (List.length (fst st)) s -> (forall l, s = PyBools l -> List.length (fst st) <> 1) ->
  exists e, set_material m s st = Err e.
Proof. exact selection_refused. Qed.
Print Assumptions C43_refused.
Example C43_refused_case : set_material $"SAND" (Ints [3%Z]) three = Err ValueError /\ set_material $"SAND" (Ints [(-1)%Z]) three = Err ValueError /\
  set_material $"SAND" (Ints []) three = Err ValueError /\ set_material $"SAND" (NpBools [true]) three = Err ValueError /\
  set_material $"SAND" (PyBools [true]) three = Err IndexError.
Proof. vm_compute. repeat split. Qed.
(** C43 fails otherwise: the number of a material assigned to no cell is given to
    the next new one, and the first is shown under the name of the second. *)
Theorem C43_reused_refuted : ~ (forall calls m k st l n,
  foldM (fun st c => set_material (fst c) (snd c) st) ([1; 1]%Z, [($"dfalt", 1%Z)]) (calls ++ [(m, Ints [Z.of_nat k])]) = Ok st ->
  materials st = Names l -> nth_error l k = Some n -> n = m).
Proof.
  intros H. set (calls := [($"B", Ints [0; 1]%Z); ($"C", Ints [0; 1]%Z); ($"B", Ints [0; 1]%Z); ($"D", Ints [0]%Z)]).
  specialize (H calls $"C" 1 ([3; 3]%Z, [($"dfalt", 1%Z); ($"B", 2%Z); ($"C", 3%Z); ($"D", 3%Z)]) [$"D"; $"D"] $"D").
  assert (E : $"D" = $"C"); [|discriminate]. apply H; vm_compute; reflexivity.
Qed.
Print Assumptions C43_reused_refuted.
(** C43.  In a mesh of one cell, the list [True] is taken for the index 1. *)
Theorem C43_one_cell_refuted : ~ (forall m l st, List.length l = List.length (fst st) -> fst st <> [] -> exists st', set_material m (PyBools l) st = Ok st').
Proof.
  intros H. destruct (H $"SAND" [true] ([1%Z], [($"dfalt", 1%Z)])) as (st' & E); [reflexivity|discriminate|]. vm_compute in E. discriminate.
Qed.
Print Assumptions C43_one_cell_refuted.
