(** C71: reading back the MESH file of a mesh. *)
From Coq Require Import String Ascii Arith ZArith QArith Bool Lia Permutation List.
From Verif Require Import Base.Str Base.Digits Base.Flt Base.FltText Model.Py Model.Records Model.Numpy Model.Mesh Model.MeshFile Model.Read Model.MeshRead
  Model.Labeler Spec.Labels Spec.Labeler Spec.MeshCells Spec.MeshBack Proofs.MeshBackProof.
Import ListNotations.
Local Open Scope nat_scope.

(** C71.  Labels of 5 to 9 characters, numbers and names that fit, no two faces
    between the same cells: the file of a mesh, read as a mesh, has exactly its
    cells with their materials, volumes and centres, and exactly its interfaces. *)
Theorem C71_mesh : forall n names ending coord blocks cs conn me mt, connections 3 blocks = Ok conn -> List.length cs = n_cells blocks -> 5 <= n <= 9 ->
  (forall c, In c cs -> cell_fits n coord c = true /\ called names (mc_mat c) (mt c) /\ mat_fits (mt c) = true) ->
  NoDup (map mc_label cs) -> NoDup (map fst names) -> (forall l, measures_fit (me l) = true) ->
  exists F, surfaces blocks F /\ ((exists p q, interface F p q) ->
    (forall i f f' j g g', interface F (i, f) (j, g) -> interface F (i, f') (j, g') -> f = f') ->
  exists order ls text, Permutation order cs /\ NoDup ls /\
    (forall i f j, In (i, f, j) ls <-> i <= j /\ exists g, interface F (i, f) (j, g)) /\
    write_mesh names ending coord cs conn me = Ok text /\
    forall ll fuel, length_told ll n (map mc_label cs) -> read_mesh fuel ll text = Ok (mesh_read coord (map (fun c => (c, mt c)) order)
      (map (fun l => (nth (fst (fst l)) (map mc_label cs) [], nth (snd l) (map mc_label cs) [], me l)) ls))).
Proof. exact mesh_blocks_back. Qed.
Print Assumptions C71_mesh.
(** C71.  The same from the connections themselves; the order is that of the mesh
    but for the materials to move to the end. *)
Theorem C71_file : forall n names ending coord cs conn me mt, 5 <= n <= 9 ->
  (forall c, In c cs -> cell_fits n coord c = true /\ called names (mc_mat c) (mt c) /\ mat_fits (mt c) = true) ->
  NoDup (map mc_label cs) -> NoDup (map fst names) -> links conn <> [] ->
  (forall i f j, In (i, f, j) (links conn) -> i < List.length cs /\ j < List.length cs /\ measures_fit (me (i, f, j)) = true) ->
  (forall i f f' j, In (i, f, j) (links conn) -> In (i, f', j) (links conn) -> f = f') ->
  exists text, write_mesh names ending coord cs conn me = Ok text /\
    forall ll fuel, length_told ll n (map mc_label cs) -> read_mesh fuel ll text = Ok (mesh_read coord (map (fun c => (c, mt c)) (ending_last ending cs))
      (map (fun l => (nth (fst (fst l)) (map mc_label cs) [], nth (snd l) (map mc_label cs) [], me l)) (links conn))).
Proof. exact mesh_back. Qed.
Print Assumptions C71_file.
(** C71.  The labels given by the mesh meet these conditions. *)
Theorem C71_labels : forall m n ls, 5 <= n <= 9 -> (0 <= m <= capacity (Z.of_nat n))%Z -> labeler m (Some (Z.of_nat n)) = Ok ls ->
  NoDup ls /\ Forall (fun s => label_ok s = true /\ startswith $"+++" s = false /\ List.length s = n /\ plain_label s = true) ls.
Proof. exact generated_labels. Qed.
Print Assumptions C71_labels.
Example C71_labels_case : labeler 2 (Some 6%Z) = Ok [$"A11000"; $"A11001"] /\ (0 <= 2 <= capacity 6)%Z.
Proof. vm_compute. repeat split; discriminate. Qed.

(** Three tetrahedra in a row, two materials, one of them renamed and moved, one cell fixed. *)
Definition three_tetra : list (str * list (list nat)) := [($"tetra", [[0; 1; 2; 3]; [1; 2; 3; 4]; [2; 3; 4; 5]])].
Definition third : flt := flt_of_dec false 333333333333 (-12).
Definition three_cells : list mcell :=
  [MCell $"A1100" (MName $"SAND") (flt_of_Z 2) false third third third; MCell $"A1101" (MName $"CLAYS") (flt_of_Z 3) true third (flt_of_Z (-1)) third;
   MCell $"A1102" (MNum 7) (flt_of_Z 4) false (flt_of_Z 5) third third].
Definition new_names : list (mat * mat) := [(MName $"CLAYS", MName $"BOUND")].
Definition material_of (c : mcell) : mat := match mc_mat c with MName s => if streqb s $"CLAYS" then MName $"BOUND" else MName $"SAND " | m => m end.
Definition some_links (l : nat * nat * nat) : measures := Measures 3 third third (flt_of_Z 2) (flt_of_Z (-1)).
Example C71_case : exists conn text, connections 3 three_tetra = Ok conn /\ links conn = [(0, 0, 1); (1, 0, 2)] /\
  write_mesh new_names [MName $"CLAYS"] true three_cells conn some_links = Ok text /\
  forallb (fun c => cell_fits 5 true c && mat_fits (material_of c)) three_cells = true /\
  (forall c, In c three_cells -> called new_names (mc_mat c) (material_of c)) /\ (forall l, measures_fit (some_links l) = true) /\
  length_told None 5 (map mc_label three_cells) /\
  read_mesh 0 None text = Ok (mesh_read true (map (fun c => (c, material_of c)) [nth 0 three_cells (hd (MCell [] (MNum 0) third false third third third) three_cells); nth 2 three_cells (MCell [] (MNum 0) third false third third third); nth 1 three_cells (MCell [] (MNum 0) third false third third third)])
    [($"A1100", $"A1101", some_links (0, 0, 1)); ($"A1101", $"A1102", some_links (1, 0, 2))]).
Proof.
  do 2 eexists. split; [vm_compute; reflexivity|]. split; [vm_compute; reflexivity|]. split; [vm_compute; reflexivity|]. split; [vm_compute; reflexivity|]. split; [|split; [|split]].
  - intros c [<- | [<- | [<- | []]]].
    + right. split; [|reflexivity]. intros [X | []]. discriminate X.
    + left. left. reflexivity.
    + right. split; [|reflexivity]. intros [X | []]. discriminate X.
  - intros l. vm_compute. reflexivity.
  - right. split; [reflexivity|]. repeat constructor.
  - vm_compute. reflexivity.
Qed.

(** C71 fails for names of more than five characters, cut without notice, so that
    two materials become one. *)
Theorem C71_names_refuted : exists c1 c2 conn text els e1 e2, mc_mat c1 <> mc_mat c2 /\ cell_fits 5 false c1 = true /\ cell_fits 5 false c2 = true /\
  write_mesh [] [] false [c1; c2] conn some_links = Ok text /\ read_mesh 0 None text = Ok els /\
  dget #"elements" els = Some (PDict [(KS (mc_label c1), PDict e1); (KS (mc_label c2), PDict e2)]) /\ dget #"material" e1 = dget #"material" e2.
Proof.
  exists (MCell $"A1100" (MName $"sandstone") third false third third third), (MCell $"A1101" (MName $"sands1") third false third third third), [[1%Z]; [0%Z]].
  do 4 eexists. split; [discriminate|]. split; [vm_compute; reflexivity|]. split; [vm_compute; reflexivity|]. split; [vm_compute; reflexivity|].
  split; [vm_compute; reflexivity|]. split; reflexivity.
Qed.
Print Assumptions C71_names_refuted.
(** C71 fails for two faces between the same cells: one of them is lost. *)
Theorem C71_faces_refuted : exists cs conn text els d, forallb (cell_fits 5 false) cs = true /\ List.length (links conn) = 2 /\
  write_mesh [] [] false cs conn some_links = Ok text /\ read_mesh 0 None text = Ok els /\
  dget #"connections" els = Some (PDict d) /\ List.length d = 1.
Proof.
  exists [MCell $"A1100" (MNum 1) third false third third third; MCell $"A1101" (MNum 1) third false third third third], [[1%Z; 1%Z]; [0%Z; 0%Z]].
  do 3 eexists. split; [vm_compute; reflexivity|]. split; [vm_compute; reflexivity|]. split; [vm_compute; reflexivity|]. split; [vm_compute; reflexivity|]. split; reflexivity.
Qed.
Print Assumptions C71_faces_refuted.
