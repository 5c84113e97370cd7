(** C76: a mesh through any history of calls. *)
From Coq Require Import String Ascii Arith ZArith QArith Qcanon Bool Lia List.
From Verif Require Import Base.Str Model.Py Model.Numpy Model.Mesh Model.MeshOps Model.Grid Model.Geometry Model.Session
  Spec.Order Spec.MeshCells Spec.Extrude Spec.Prune Spec.Geometry Spec.Materials Spec.Session Proofs.SessionProof.
Import ListNotations.
Local Open Scope nat_scope.

(** C76.  Whatever is called on a mesh which holds together, succeeding or not, it
    holds together afterwards, if only meshes of triangles and quads are extruded. *)
Theorem C76_consistent : forall ops m, consistent m -> allowed m ops -> consistent (run m ops).
Proof. exact run_consistent. Qed.
Print Assumptions C76_consistent.
(** C76.  Each cell comes from one cell of the first mesh, and all the arrays not
    written since have for it the values of that cell; so do the arrays of points. *)
Theorem C76_follow : forall ops m, consistent m -> allowed m ops -> exists co po,
  types_follow co m (run m ops) /\ List.length po = List.length (points (run m ops)) /\ Forall (fun i => i < List.length (points m)) po /\
  (forall k vals, value k (cell_data m) = Some vals -> Forall (fun o => ~ writes_cells o k) ops ->
     exists out, value k (cell_data (run m ops)) = Some out /\ picked vals co out) /\
  (forall k vals, value k (point_data m) = Some vals -> Forall (fun o => ~ writes_points o k) ops ->
     exists out, value k (point_data (run m ops)) = Some out /\ picked vals po out).
Proof. exact run_follows. Qed.
Print Assumptions C76_follow.
(** C76.  What succeeds on a mesh which holds together. *)
Theorem C76_prune : forall m, consistent m -> exists m', step m Prune = Ok m'.
Proof. exact always_prune. Qed.
Print Assumptions C76_prune.
Theorem C76_to_cells : forall m, consistent m -> exists m', step m PointsToCells = Ok m'.
Proof. exact always_to_cells. Qed.
Print Assumptions C76_to_cells.
Theorem C76_extrude : forall m hs axis, consistent m -> dim m = 2 -> axis < 3 -> exists m', step m (Extrude hs axis) = Ok m'.
Proof. exact always_extrude. Qed.
Print Assumptions C76_extrude.
(** C76.  Data are accepted when there is one value per cell, per point, and only
    then; the array is then the data of that name. *)
Theorem C76_cell_data : forall m k v, (exists m', step m (AddCellData k v) = Ok m') <-> List.length v = List.length (typed_cells (cells m)).
Proof. exact added_cells. Qed.
Print Assumptions C76_cell_data.
Theorem C76_point_data : forall m k v, (exists m', step m (AddPointData k v) = Ok m') <-> List.length v = List.length (points m).
Proof. exact added_points. Qed.
Print Assumptions C76_point_data.
Theorem C76_stored : forall m k v m',
  (step m (AddCellData k v) = Ok m' -> value k (cell_data m') = Some v /\ (forall j, j <> k -> value j (cell_data m') = value j (cell_data m)) /\
     cells m' = cells m /\ points m' = points m /\ point_data m' = point_data m) /\
  (step m (AddPointData k v) = Ok m' -> value k (point_data m') = Some v /\ (forall j, j <> k -> value j (point_data m') = value j (point_data m)) /\
     cells m' = cells m /\ points m' = points m /\ cell_data m' = cell_data m).
Proof. exact stored. Qed.
Print Assumptions C76_stored.
(** C76.  The materials of the mesh are those last assigned. *)
Theorem C76_materials : forall m before calls after, consistent m -> typed_cells (cells m) <> [] -> NoDup (map (fun kv => fst (snd kv)) (field_data m)) ->
  value $"material" (cell_data m) <> None ->
  mesh_materials m = Ok (Names before) -> history (map fst (field_data m)) before calls after ->
  mesh_materials (run m (map (fun c => SetMaterial (fst c) (snd c)) calls)) = Ok (Names after).
Proof. exact run_materials. Qed.
Print Assumptions C76_materials.
(** C76.  A mesh without materials: number one for each cell. *)
Theorem C76_no_materials : forall m, value $"material" (cell_data m) = None -> exists l, mesh_materials m = Ok (Numbers l) /\
  List.length l = list_sum (map (fun b => List.length (snd b)) (cells m)) /\ Forall (fun z => z = 1%Z) l.
Proof. exact no_materials. Qed.
Print Assumptions C76_no_materials.
Example C76_none : mesh_materials (Mesh 2 [] [($"quad", [[0; 1; 2; 3]; [0; 1; 5; 3]]); ($"triangle", [[1; 4; 2]])] [] [] []) = Ok (Numbers [1; 1; 1]%Z).
Proof. reflexivity. Qed.

(** A square and a triangle, twice. *)
Definition C76_q (z : Z) : Qc := of_integer z.
Definition C76_mesh : mesh Qc Qc :=
  Mesh 2 (map (map C76_q) [[0; 0]; [1; 0]; [1; 1]; [0; 1]; [2; 0]; [1; 1]]%Z) [($"quad", [[0; 1; 2; 3]; [0; 1; 5; 3]]); ($"triangle", [[1; 4; 2]])]
    [($"T", map C76_q [5; 6; 7; 8; 9; 7]%Z)] [($"material", map C76_q [1; 1; 1]%Z); ($"porosity", map C76_q [30; 30; 40]%Z)] [($"dfalt", (1, 2)%Z)].
Definition C76_ops : list op :=
  [SetMaterial $"SAND" (Ints [2]%Z); AddCellData $"wrong" [C76_q 1]; Prune; Extrude [C76_q 2; C76_q 3] 2; AddCellData $"k" (map C76_q [1; 2; 3; 4]%Z); CellsToPoints; PointsToCells].
Example C76_case : consistent C76_mesh /\ allowed C76_mesh C76_ops /\
  mesh_materials (run C76_mesh (firstn 4 C76_ops)) = Ok (Names [$"dfalt"; $"dfalt"; $"SAND"; $"SAND"]) /\
  map (fun kv => (fst kv, map this (snd kv))) (cell_data (run C76_mesh (firstn 5 C76_ops))) =
    [($"material", [1; 1; 2; 2]%Q); ($"porosity", [30; 30; 40; 40]%Q); ($"k", [1; 2; 3; 4]%Q)] /\
  map fst (cell_data (run C76_mesh C76_ops)) = [$"T"; $"material"; $"porosity"; $"k"] /\ map fst (cells (run C76_mesh C76_ops)) = [$"hexahedron"; $"wedge"].
Proof.
  split.
  { constructor.
    - discriminate.
    - intros p I. cbn in I. repeat (destruct I as [<- | I]; [reflexivity|]). destruct I.
    - intros t c I. cbn in I. repeat (destruct I as [E | I]; [injection E as <- <-; split; [constructor|]; intros n J; cbn in J; repeat (destruct J as [<- | J]; [cbn; lia|]); destruct J|]). destruct I.
    - intros k v I. cbn in I. destruct I as [E | []]. injection E as <- <-. reflexivity.
    - intros k v I. cbn in I. destruct I as [E | [E | []]]; injection E as <- <-; reflexivity.
    - split; [|split]; cbn; repeat constructor; intros I; cbn in I; repeat (destruct I as [I | I]; [discriminate I|]); destruct I. }
  split.
  { cbn [allowed C76_ops]. split; [exact I|]. split; [exact I|]. split; [exact I|]. split; [|repeat split].
    match goal with |- plane ?c => let x := eval vm_compute in c in change (plane c); replace c with x by (vm_compute; reflexivity) end.
    apply Forall_cons; [now right|]. apply Forall_cons; [now left|apply Forall_nil]. }
  split; [vm_compute; reflexivity|]. split; [vm_compute; reflexivity|]. split; vm_compute; reflexivity.
Qed.

(** C76 needs the condition on extrusions: next to a segment, the data no longer
    fit the cells. *)
Definition C76_bordered : mesh Qc Qc :=
  Mesh 2 (map (map C76_q) [[0; 0]; [1; 0]; [1; 1]; [0; 1]]%Z) [($"line", [[0; 1]]); ($"quad", [[0; 1; 2; 3]])] [] [($"porosity", map C76_q [30; 40]%Z)] [].
Theorem C76_extrude_refuted : consistent C76_bordered /\ ~ consistent (run C76_bordered [Extrude [C76_q 1] 2]) /\
  step (run C76_bordered [Extrude [C76_q 1] 2]) Prune = Err ValueError.
Proof.
  split; [|split].
  - constructor.
    + discriminate.
    + intros p I. cbn in I. repeat (destruct I as [<- | I]; [reflexivity|]). destruct I.
    + intros t c I. cbn in I. repeat (destruct I as [E | I]; [injection E as <- <-; split; [constructor|]; intros n J; cbn in J; repeat (destruct J as [<- | J]; [cbn; lia|]); destruct J|]). destruct I.
    + intros k v [].
    + intros k v I. cbn in I. destruct I as [E | []]; injection E as <- <-; reflexivity.
    + split; [|split]; cbn; repeat constructor; intros [].
  - intros K. pose proof (right_cell_data _ K $"porosity" (map C76_q [30; 40]%Z)) as X.
    assert (Y : In ($"porosity", map C76_q [30; 40]%Z) (cell_data (run C76_bordered [Extrude [C76_q 1] 2]))) by (vm_compute; now left).
    specialize (X Y). vm_compute in X. discriminate.
  - vm_compute. reflexivity.
Qed.
Print Assumptions C76_extrude_refuted.
