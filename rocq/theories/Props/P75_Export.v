(** C75: results exported on a mesh. *)
From Coq Require Import String Ascii Arith ZArith QArith Qcanon Bool Lia Permutation Sorted List.
From Verif Require Import Base.Str Base.Flt Base.FltArith Model.Py Model.Numpy Model.Mesh Model.MeshOps Model.Labeler Model.Dispatch Model.Output Model.Extract Model.TimeSeries Model.Import Model.Export.
From Verif Require Import Spec.MeshCells Spec.Output Spec.Import Spec.TimeSeries Spec.Export Proofs.Samples Proofs.OutputSamples Proofs.SortsProof Proofs.ExportProof.
Import ListNotations.
Local Open Scope nat_scope.

(** C75.  In an XDMF file: the steps in order of time, each with its time and with
    every column but the coordinates, each value on the cell of its label, one array
    for each block. *)
Theorem C75_series : forall argsort ll time_step ls outs (m : mesh Qc cellvalue) labels, sorts not_later argsort -> read_output None false None ls = Ok outs ->
  cells m <> [] -> labeler (Z.of_nat (n_cells (cells m))) ll = Ok labels -> List.length labels = list_sum (sizes (cells m)) ->
  outs <> [] -> Forall (fun o => exists own t, results_for labels o own t) outs -> Forall (fun o => o_format o <> $"tecplot") outs ->
  exists steps rows, export_file argsort ll EXdmf time_step ls m = Ok (Series steps) /\
    StronglySorted (fun s s' => not_later (fst (fst s)) (fst (fst s')) = true) steps /\
    Permutation (map read_step steps) rows /\ Forall2 (exports labels) outs rows /\
    forall s k pieces, In s steps -> In (k, pieces) (snd s) -> map (@List.length flt) pieces = sizes (cells m).
Proof. exact file_series. Qed.
Print Assumptions C75_series.
(** A function which sorts so. *)
Example C75_sorts : sorts not_later (sorted_ranks not_later).
Proof. exact (sorted_ranks_sorts not_later not_later_total not_later_trans). Qed.

(** C75.  In the other files: the results of the step asked, the last by default,
    each value on the cell of its label. *)
Theorem C75_one : forall argsort ll f time_step ls outs (m : mesh Qc cellvalue) labels o own t, f <> EXdmf -> read_output None false None ls = Ok outs ->
  match time_step with
  | Some z => exists i, nth_error outs i = Some o /\ (Z.of_nat i = z \/ (Z.of_nat i = z + Z.of_nat (List.length outs))%Z)
  | None => nth_error outs (List.length outs - 1) = Some o
  end ->
  labeler (Z.of_nat (n_cells (cells m))) ll = Ok labels -> List.length labels = n_cells (cells m) ->
  o_type o = Element -> o_format o <> $"tecplot" -> results_for labels o own t -> NoDup (names o) ->
  exists m', export_file argsort ll f time_step ls m = Ok (OneStep m') /\
    dim m' = dim m /\ points m' = points m /\ cells m' = cells m /\ point_data m' = [] /\ field_data m' = [] /\
    (forall k, ~ In k (names o) -> find_column k (cell_data m') = find_column k (cell_data m)) /\
    (forall k c, In (k, c) (o_data o) -> exists c', find_column k (cell_data m') = Some c' /\ by_label own labels (map Num c) c').
Proof. exact file_one. Qed.
Print Assumptions C75_one.
(** C75.  A step which is not there, another number of rows than of cells and a cell
    without a row are refused. *)
Theorem C75_refuses : forall argsort ll f time_step ls outs (m : mesh Qc cellvalue) labels, read_output None false None ls = Ok outs ->
  labeler (Z.of_nat (n_cells (cells m))) ll = Ok labels -> List.length labels = n_cells (cells m) ->
  (forall z, f <> EXdmf -> time_step = Some z -> (z < - Z.of_nat (List.length outs) \/ Z.of_nat (List.length outs) <= z)%Z -> export_file argsort ll f time_step ls m = Err ValueError) /\
  (forall o own, outs = [o] -> time_step = None -> o_type o = Element -> o_format o <> $"tecplot" -> o_labels o = Some (map single own) ->
    (List.length own <> n_cells (cells m) -> export_file argsort ll f time_step ls m = Err ValueError) /\
    (List.length own = n_cells (cells m) -> (exists l, In l labels /\ ~ In l own) -> export_file argsort ll f time_step ls m = Err KeyError)).
Proof. exact file_refuses. Qed.
Print Assumptions C75_refuses.

(** C75.  The file: that given, else the name of the results with the extension of
    the format. *)
Theorem C75_named : forall infile given f, export_names infile given
  (match f with ETecplot => $".dat" | EVtk => $".vtk" | EVtu => $".vtu" | EXdmf => $".xdmf" end) (export_name infile given f).
Proof. exact export_named. Qed.
Print Assumptions C75_named.
Example C75_name : export_name ($"run.1/OUTPUT_ELEME.csv") None EVtu = ($"run.1/OUTPUT_ELEME.vtu") /\ export_name ($"run.1/OUTPUT") None EXdmf = ($"run.1/OUTPUT.xdmf") /\
  export_name ($"OUTPUT_ELEME.csv") (Some ($"here")) EVtk = ($"here").
Proof. repeat split; vm_compute; reflexivity. Qed.

(** Two cells in two blocks, and two steps, the later one first. *)
Definition C75_q (z : Z) : list Qc := [Q2Qc (inject_Z z); 0%Qc; 0%Qc].
Definition C75_mesh : mesh Qc cellvalue := Mesh 3 (map C75_q [0; 1; 2; 3; 4]%Z) [($"tetra", [[0; 1; 2; 3]]); ($"pyramid", [[0; 1; 2; 3; 4]])]
  [($"depth", [])] [($"material", [Num (real 1 0); Num (real 2 0)])] [($"rock1", (1, 3)%Z)].
Definition C75_labels : list str := [$"A1100"; $"A1101"].
Definition C75_step (t a b : Z) : output := Output Element $"csv" (Some (real t 0)) (Some [[$"A1101"]; [$"A1100"]]) [($"X", [real 3 0; real 2 0]); ($"P", [real a 5; real b 5])].
Definition C75_lines : list str := match csv_write [C75_step 20 2 1; C75_step 10 4 3] with Ok recs => lines (concat recs) | Err _ => [] end.
Example C75_case : read_output None false None C75_lines = Ok [C75_step 20 2 1; C75_step 10 4 3] /\
  labeler (Z.of_nat (n_cells (cells C75_mesh))) None = Ok C75_labels /\ results_for C75_labels (C75_step 20 2 1) [$"A1101"; $"A1100"] (real 20 0) /\
  export_file (sorted_ranks not_later) None EXdmf None C75_lines C75_mesh =
    Ok (Series [(real 10 0, [], [($"P", [[real 3 5]; [real 4 5]])]); (real 20 0, [], [($"P", [[real 1 5]; [real 2 5]])])]) /\
  export_file (sorted_ranks not_later) None EVtk (Some (-2)%Z) C75_lines C75_mesh =
    Ok (OneStep (Mesh 3 (map C75_q [0; 1; 2; 3; 4]%Z) (cells C75_mesh) []
      [($"material", [Num (real 1 0); Num (real 2 0)]); ($"X", [Num (real 2 0); Num (real 3 0)]); ($"P", [Num (real 1 5); Num (real 2 5)])] [])).
Proof.
  split; [vm_compute; reflexivity|]. split; [vm_compute; reflexivity|]. split.
  - split; [reflexivity|]. split; [apply nodupb_ok; byc|]. split; [apply perm_swap|]. split; [reflexivity|]. intros k c [E|[E|[]]]; injection E as <- <-; reflexivity.
  - split; vm_compute; reflexivity.
Qed.

(** C75.  The cell data of the mesh are meant to be left out, but stay: the file does
    not contain the results only. *)
Theorem C75_own_data_refuted : ~ (forall argsort f ls outs o m m', f <> EXdmf -> read_output None false None ls = Ok outs -> nth_error outs (List.length outs - 1) = Some o ->
  export_file argsort None f None ls m = Ok (OneStep m') -> forall k, In k (map fst (cell_data m')) -> In k (names o)).
Proof.
  intros H. specialize (H (sorted_ranks not_later) EVtk C75_lines [C75_step 20 2 1; C75_step 10 4 3] (C75_step 10 4 3) C75_mesh).
  destruct (export_file (sorted_ranks not_later) None EVtk None C75_lines C75_mesh) as [[m'|]|] eqn:E; try (vm_compute in E; discriminate E).
  specialize (H m' ltac:(discriminate) ltac:(vm_compute; reflexivity) eq_refl eq_refl $"material"). vm_compute in E. injection E as <-. cbn in H. destruct H as [H|[H|[]]]; [now left|discriminate H|discriminate H].
Qed.
Print Assumptions C75_own_data_refuted.
