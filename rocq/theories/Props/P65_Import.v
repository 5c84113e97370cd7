(** C65: results imported in a mesh. *)
From Coq Require Import String Ascii Arith ZArith QArith Qcanon Reals Bool Lia Permutation List.
From Verif Require Import Base.Str Base.Flt Model.Py Model.Dispatch Model.Numpy Model.Mesh Model.MeshOps Model.Geometry Model.Labeler Model.Output Model.Import.
From Verif Require Import Spec.Output Spec.Geometry Spec.Import.
From Verif Require Import Proofs.Samples Proofs.OutputSamples Proofs.ImportProof.
Import ListNotations.
Local Open Scope nat_scope.

(** C65.  Each cell receives the values of the row with its label; nothing else of
    the mesh changes. *)
Theorem C65_elements : forall ll o own labels m, o_type o = Element -> o_labels o = Some (map single own) -> NoDup own ->
  labeler (Z.of_nat (n_cells (cells m))) ll = Ok labels -> List.length labels = n_cells (cells m) -> Permutation own labels ->
  NoDup (map fst (o_data o)) -> (forall k c, In (k, c) (o_data o) -> List.length c = List.length own) ->
  exists m' o', import_one ll o m = Ok (m', o') /\ geometry_kept m m' /\
    (forall k, ~ In k (map fst (o_data o)) -> find_column k (cell_data m') = find_column k (cell_data m)) /\
    forall k c, In (k, c) (o_data o) -> exists c', find_column k (cell_data m') = Some c' /\ List.length c' = n_cells (cells m) /\
      forall i j l, nth_error own i = Some l -> nth_error labels j = Some l -> nth_error c' j = option_map Num (nth_error c i).
Proof. exact import_elements. Qed.
Print Assumptions C65_elements.

(** C65.  Another number of rows, or a cell without a row, is refused. *)
Theorem C65_refuses : forall ll o own labels m, o_type o = Element -> o_labels o = Some (map single own) ->
  labeler (Z.of_nat (n_cells (cells m))) ll = Ok labels -> List.length labels = n_cells (cells m) ->
  (List.length own <> n_cells (cells m) -> import_one ll o m = Err ValueError) /\
  (List.length own = n_cells (cells m) -> (exists l, In l labels /\ ~ In l own) -> import_one ll o m = Err KeyError).
Proof. exact import_refuses. Qed.
Print Assumptions C65_refuses.

(** C65.  Of flows between cells, each cell receives the sum of the vectors of those
    which enter it. *)
Theorem C65_flows : forall ll o pairs labels m, o_type o = Connection -> o_labels o = Some (map pair_labels pairs) ->
  dim m = 3 -> cells m <> [] -> sound 3 (points m) (cells m) ->
  labeler (Z.of_nat (n_cells (cells m))) ll = Ok labels -> List.length labels = n_cells (cells m) -> NoDup labels ->
  Forall (connected (cell_place (points m) (cells m) labels) labels) pairs ->
  NoDup (map fst (o_data o)) -> (forall k c, In (k, c) (o_data o) -> List.length c = List.length pairs /\ Forall finite c) ->
  exists m', import_one ll o m = Ok (m', o) /\ geometry_kept m m' /\
    (forall k, ~ In k (map fst (o_data o)) -> find_column k (cell_data m') = find_column k (cell_data m)) /\
    forall k c, In (k, c) (o_data o) -> exists c', find_column k (cell_data m') = Some c' /\ List.length c' = n_cells (cells m) /\
      forall j l, nth_error labels j = Some l -> exists s, nth_error c' j = Some (Arrow s) /\
        inflow (cell_place (points m) (cells m) labels) l (combine pairs (map amount c)) s.
Proof. exact import_flows. Qed.
Print Assumptions C65_flows.

(** C65.  It does not matter which of two cells a connection names first. *)
Theorem C65_orientation : forall ll o1 o2 pairs1 pairs2 labels m,
  o_type o1 = Connection -> o_labels o1 = Some (map pair_labels pairs1) -> o_type o2 = Connection -> o_labels o2 = Some (map pair_labels pairs2) ->
  dim m = 3 -> cells m <> [] -> sound 3 (points m) (cells m) ->
  labeler (Z.of_nat (n_cells (cells m))) ll = Ok labels -> List.length labels = n_cells (cells m) -> NoDup labels ->
  Forall (connected (cell_place (points m) (cells m) labels) labels) pairs1 ->
  Forall (connected (cell_place (points m) (cells m) labels) labels) pairs2 ->
  NoDup (map fst (o_data o1)) -> (forall k c, In (k, c) (o_data o1) -> List.length c = List.length pairs1 /\ Forall finite c) ->
  NoDup (map fst (o_data o2)) -> (forall k c, In (k, c) (o_data o2) -> List.length c = List.length pairs2 /\ Forall finite c) ->
  forall k c1 c2, In (k, c1) (o_data o1) -> In (k, c2) (o_data o2) ->
  Forall2 same_flow (combine pairs1 (map amount c1)) (combine pairs2 (map amount c2)) ->
  exists m1 m2 c, import_one ll o1 m = Ok (m1, o1) /\ import_one ll o2 m = Ok (m2, o2) /\
    find_column k (cell_data m1) = Some c /\ find_column k (cell_data m2) = Some c.
Proof. exact import_orientation. Qed.
Print Assumptions C65_orientation.

(** C65.  Flows with a cell that the mesh does not have are refused. *)
Theorem C65_unknown : forall ll o pairs labels m, o_type o = Connection -> o_labels o = Some (map pair_labels pairs) ->
  dim m = 3 -> cells m <> [] -> sound 3 (points m) (cells m) ->
  labeler (Z.of_nat (n_cells (cells m))) ll = Ok labels -> List.length labels = n_cells (cells m) -> NoDup labels ->
  (exists a b, In (a, b) pairs /\ ~ (In a labels /\ In b labels)) ->
  Forall (fun ab => In (fst ab) labels -> In (snd ab) labels -> connected (cell_place (points m) (cells m) labels) labels ab) pairs ->
  (forall k c, In (k, c) (o_data o) -> List.length c = List.length pairs /\ Forall finite c) ->
  import_one ll o m = Err KeyError.
Proof. exact import_unknown. Qed.
Print Assumptions C65_unknown.

(** C65.  Of a list of outputs, the one at the time step asked is imported, counted
    from the end when negative; a time step outside the list is refused. *)
Theorem C65_step : forall ll outs t m, (- Z.of_nat (List.length outs) <= t < Z.of_nat (List.length outs))%Z ->
  exists i o, nth_error outs i = Some o /\ (Z.of_nat i = t \/ Z.of_nat i = t + Z.of_nat (List.length outs))%Z /\
    import_output ll (Several outs) t m =
      match import_one ll o m with Ok (m', o') => Ok (m', Several (set_nth i o' outs)) | Err e => Err e end.
Proof. exact import_step. Qed.
Print Assumptions C65_step.
Theorem C65_no_step : forall ll outs t m, (t < - Z.of_nat (List.length outs) \/ Z.of_nat (List.length outs) <= t)%Z ->
  import_output ll (Several outs) t m = Err ValueError.
Proof. exact import_no_step. Qed.
Print Assumptions C65_no_step.

(** Two boxes side by side, with results of each kind. *)
Definition C65_q (z : Z) : Qc := Q2Qc (inject_Z z).
Definition C65_point (x y z : Z) : list Qc := [C65_q x; C65_q y; C65_q z].
Definition C65_mesh : mesh Qc cellvalue := Mesh 3
  [C65_point 0 0 0; C65_point 1 0 0; C65_point 3 0 0; C65_point 0 1 0; C65_point 1 1 0; C65_point 3 1 0;
   C65_point 0 0 1; C65_point 1 0 1; C65_point 3 0 1; C65_point 0 1 1; C65_point 1 1 1; C65_point 3 1 1]
  [($"hexahedron", [[0; 1; 4; 3; 6; 7; 10; 9]; [1; 2; 5; 4; 7; 8; 11; 10]])]
  [] [($"T", [Num (real 1 1); Num (real 4 1)])] [].
Definition C65_labels : list str := [$"A1100"; $"A1101"].
Definition C65_out : output :=
  Output Element $"tough" (Some (real 864 2)) (Some [[$"A1101"]; [$"A1100"]]) [($"P", [real 2 5; real 1 5])].
Definition C65_flow : output :=
  Output Connection $"tough" (Some (real 864 2)) (Some [[$"A1101"; $"A1100"]]) [($"HEAT", [real (-5) (-1)])].
Example C65_elements_example :
  labeler (Z.of_nat (n_cells (cells C65_mesh))) None = Ok C65_labels /\ Permutation [$"A1101"; $"A1100"] C65_labels /\
  NoDup C65_labels /\ o_labels C65_out = Some (map single [$"A1101"; $"A1100"]) /\
  exists m', import_output None (Several [C65_flow; C65_out]) (-1) C65_mesh =
      Ok (m', Several [C65_flow; Output Element $"tough" (Some (real 864 2)) (Some [[$"A1100"]; [$"A1101"]]) [($"P", [real 1 5; real 2 5])]]) /\
    cell_data m' = [($"T", [Num (real 1 1); Num (real 4 1)]); ($"P", [Num (real 1 5); Num (real 2 5)])].
Proof.
  parts; [byc|apply perm_swap|apply nodupb_ok; byc|byc|]. eexists. split; byc.
Qed.
Example C65_flows_example :
  sound 3 (points C65_mesh) (cells C65_mesh) /\
  Forall (connected (cell_place (points C65_mesh) (cells C65_mesh) C65_labels) C65_labels) [($"A1101", $"A1100")] /\
  o_labels C65_flow = Some (map pair_labels [($"A1101", $"A1100")]) /\ Forall finite [real (-5) (-1)].
Proof.
  parts.
  - split.
    + intros p I. cbn in I. repeat (destruct I as [<- | I]; [reflexivity|]). destruct I.
    + intros tc I. cbn in I. repeat (destruct I as [<- | I]; [split; [discriminate|]; intros n J; cbn in J; repeat (destruct J as [<- | J]; [cbn; lia|]); destruct J|]). destruct I.
  - each. destruct (centers C65_mesh) as [cs|] eqn:E; [|exfalso; vm_compute in E; discriminate].
    apply (connected_check C65_mesh cs C65_labels _ _ 1 0); [reflexivity|exact E|reflexivity|apply nodupb_ok; byc|reflexivity|reflexivity|].
    vm_compute in E. injection E as <-. discriminate.
  - byc.
  - each. eexists _, _, _. byc.
Qed.

(** C65.  Findings: the output given is itself reordered; an output without labels
    (Tecplot) is a TypeError. *)
Theorem C65_changed_refuted : forall ll o own labels m, o_type o = Element -> o_labels o = Some (map single own) -> NoDup own ->
  labeler (Z.of_nat (n_cells (cells m))) ll = Ok labels -> List.length labels = n_cells (cells m) -> Permutation own labels -> own <> labels ->
  (forall k c, In (k, c) (o_data o) -> List.length c = List.length own) ->
  exists m' o', import_output ll (One o) (-1) m = Ok (m', One o') /\ o' <> o /\ o_labels o' = Some (map single labels).
Proof. exact import_changes. Qed.
Print Assumptions C65_changed_refuted.
Theorem C65_unlabelled_refuted : forall ll o m, o_type o = Element -> o_labels o = None -> import_one ll o m = Err TypeError.
Proof. exact import_unlabelled. Qed.
Print Assumptions C65_unlabelled_refuted.
