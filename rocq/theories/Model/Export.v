(** The command toughio-export with a mesh file, /repo/toughio/_cli/_export.py.  The
    mesh is already read; what is handed to the writers of VTK and XDMF files (meshio)
    is modelled, not these files. *)
From Coq Require Import String Ascii ZArith QArith Qcanon Bool List.
From Verif Require Import Base.Str Base.Flt Model.Py Model.Numpy Model.Mesh Model.MeshOps Model.Labeler Model.Dispatch Model.Output Model.Extract Model.TimeSeries Model.Import.
Import ListNotations.
Local Open Scope nat_scope.

(** --file-format, _export.py:10-15, 248-256 *)
Inductive eformat := ETecplot | EVtk | EVtu | EXdmf.
Definition eformat_ext (f : eformat) : str :=   (* format_to_ext, _export.py:10-15 *)
  match f with ETecplot => $".dat" | EVtk => $".vtk" | EVtu => $".vtu" | EXdmf => $".xdmf" end.
(** The name of the file, _export.py:159-163 *)
Definition export_name (infile : str) (output_file : option str) (f : eformat) : str :=
  match output_file with Some (c :: r) => c :: r | _ => without_ext infile ++ eformat_ext f end.

(** What is written: a mesh, or data at each time step *)
Inductive exported :=   (* _export.py:165-200 *)
| OneStep (m : mesh Qc cellvalue)
| Series (steps : list (flt * list (str * unit) * list (str * list (list flt)))).

(** mesh.point_data = {} and so on, _export.py:148-152; mesh.cell_dada is another
    attribute: the cell data stay *)
Definition cleared {C V} (m : mesh C V) : mesh C V := Mesh (dim m) (points m) (cells m) [] (cell_data m) [].
(** Without the coordinates, _export.py:179-182 *)
Definition is_xyz (k : str) : bool := existsb (streqb k) [$"X"; $"Y"; $"Z"].
Definition shown (o : output) : table (list flt) := filter (fun kv => negb (is_xyz (fst kv))) (o_data o).   (* _export.py:179-182 *)
(** output[time_step], _export.py:54-60 *)
Definition step_asked (outs : list output) (time_step : option Z) : res output :=
  match time_step with
  | Some t => let* i := position (List.length outs) t in match nth_error outs i with Some o => Ok o | None => Err IndexError end
  | None => match last_output outs with Some o => Ok o | None => Err IndexError end
  end.
(** export, _export.py:51-200, with a mesh; Tecplot outputs, for which the mesh is
    not used, and outputs without time are not modelled.  [argsort] as in
    write_time_series; label_length is that of the mesh. *)
Definition export_mesh (argsort : list flt -> list nat) (label_length : option Z) (f : eformat) (time_step : option Z) (outs : list output) (m : mesh Qc cellvalue) : res exported :=
  match f with
  | EXdmf =>
      match last_output outs with
      | None => Err IndexError
      | Some o =>
          let* _ := guard (negb (streqb (o_format o) $"tecplot")) Unmodelled in
          let* labels := labeler (Z.of_nat (n_cells (cells m))) label_length in
          let* outs := mapM (fun o => reorder_labels o labels) outs in
          let* times := mapM (fun o => match o_time o with Some t => Ok t | None => Err Unmodelled end) outs in
          let* steps := write_time_series argsort (fun n => Fin false (Z.of_nat n) 0) (cells m) None (Some (map shown outs)) (Some times) in
          Ok (Series steps)
      end
  | _ =>
      let* o := step_asked outs time_step in
      let* _ := guard (negb (streqb (o_format o) $"tecplot")) Unmodelled in
      let* r := import_one label_length o (cleared m) in
      Ok (OneStep (fst r))
  end.
(** export, from the lines of the output file, _export.py:51-53 *)
Definition export_file (argsort : list flt -> list nat) (label_length : option Z) (f : eformat) (time_step : option Z) (ls : list str) (m : mesh Qc cellvalue) : res exported :=
  let* outs := read_output None false None ls in
  export_mesh argsort label_length f time_step outs m.
