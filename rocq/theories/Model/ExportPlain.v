(** The command toughio-export, whole, /repo/toughio/_cli/_export.py: without a mesh
    file the cells are made from the centres of the elements.  As in Model/Export.v
    what is handed to the writers of files is modelled, not these files.  The
    coordinates are those of the output, exactly; sums and differences of them are
    not rounded. *)
From Coq Require Import String Ascii ZArith QArith Qcanon Bool List.
From Verif Require Import Base.Str Base.Flt Base.FltRound Model.Py Model.Numpy Model.Mesh Model.MeshOps Model.Geometry Model.Dispatch Model.Output Model.Extract Model.TimeSeries Model.Import Model.Export Model.Grid.
Import ListNotations.
Local Open Scope nat_scope.

(** A coordinate of the output; infinities and nan are not modelled.  _export.py:296-312 *)
Definition exact (x : flt) : res Qc :=
  match x with Fin s m e => Ok (Q2Qc (qval 2 (if s then - m else m) e)) | _ => Err Unmodelled end.
(** output.data[k], if there, _export.py:295-312 *)
Definition coordinate_array (o : output) (k : str) : res (option (list Qc)) :=
  match assoc k (o_data o) with Ok c => let* l := mapM exact c in Ok (Some l) | Err _ => Ok None end.
(** _get_points, _export.py:287-344, from an output; arrays of different lengths and
    outputs without elements are not modelled *)
Definition output_points (o : output) : res (list (list Qc) * list nat) :=
  let* n := match o_data o with (_, c) :: _ => Ok (List.length c) | [] => Err StopIteration end in
  let* X := coordinate_array o $"X" in
  let* Y := coordinate_array o $"Y" in
  let* Z := coordinate_array o $"Z" in
  let* _ := guard (negb (n =? 0) && forallb (fun c => match c with Some l => List.length l =? n | None => true end) [X; Y; Z]) Unmodelled in
  get_points n X Y Z.
(** points[:, axis], _export.py:130 *)
Definition along (axis : list nat) (points : list (list Qc)) : res (list (list Qc)) := mapM (fun p => take p axis) points.
(** triangulate, meshmaker/_triangulate.py:10-52; [delaunay] gives the simplices found
    by scipy.spatial.Delaunay, or its error *)
Definition triangulate (delaunay : list (list Qc) -> res (list (list nat))) (width : nat) (points : list (list Qc)) (material : str) : res (mesh Qc flt) :=
  let* _ := guard ((width =? 2) || (width =? 3)) ValueError in
  let* simplices := delaunay points in
  let cells := [(if width =? 2 then $"triangle" else $"tetra", simplices)] in
  Ok (Mesh width points cells [] [($"material", repeat (flt_of_Z 1) (n_cells cells))] [(material, (1, 3)%Z)]).
(** mesh.add_point_data and mesh.add_cell_data, _mesh/_mesh.py:511-549 *)
Definition add_points (m : mesh Qc flt) (kv : str * list flt) : res (mesh Qc flt) :=
  let* _ := guard (List.length (snd kv) =? List.length (points m)) ValueError in
  Ok (Mesh (dim m) (points m) (cells m) (update (point_data m) [kv]) (cell_data m) (field_data m)).
Definition add_cells (m : mesh Qc flt) (kv : str * list flt) : res (mesh Qc flt) :=   (* _mesh/_mesh.py:531-549 *)
  let* _ := guard (List.length (snd kv) =? n_cells (cells m)) ValueError in Ok (set_cells m [kv]).
(** The voxels with their material, a whole number, as a number, _export.py:104 *)
Definition as_numbers (m : mesh Qc Z) : mesh Qc flt :=
  Mesh (dim m) (points m) (cells m) [] (map (fun kv => (fst kv, map flt_of_Z (snd kv))) (cell_data m)) (field_data m).
(** data[idx] for each array but the coordinates, _export.py:117-120, 172-176 *)
Definition taken (idx : list nat) (d : table (list flt)) : res (table (list flt)) :=
  mapM (fun kv => let* v := take (snd kv) idx in Ok (fst kv, v)) d.

(** What is written: a mesh, or a mesh and data at each time step, at points or cells *)
Inductive written :=   (* _export.py:165-200 *)
| OnMesh (e : exported)
| Alone (m : mesh Qc flt)
| Steps (points : list (list Qc)) (cells : list cellblock) (steps : list (flt * list (str * list flt) * list (str * list (list flt)))).
(** The arguments, _export.py:203-284: the mesh file read, with its label length *)
Record export_args := Args {
  a_mesh : option (mesh Qc cellvalue * option Z); a_time_step : option Z; a_format : eformat;
  a_voxelize : bool; a_origin : option (list Qc); a_layer : bool }.
Definition origin_of (a : export_args) : res (list Qc) :=   (* _export.py:39-47, 88-97 *)
  match a_origin a with None => Err ValueError | Some o => let* _ := guard (List.length o =? 3) ValueError in Ok o end.
Section Export.
Variable argsort : list flt -> list nat.   (* as in write_time_series *)
Variable delaunay : list (list Qc) -> res (list (list nat)).   (* as in triangulate *)
Definition series (points : list (list Qc)) (cells : list cellblock) (pd cd : option (list (table (list flt)))) (outs : list output) : res written :=   (* _export.py:181-200 *)
  let* times := mapM (fun o => match o_time o with Some t => Ok t | None => Err Unmodelled end) outs in
  let* steps := write_time_series argsort (fun n => Fin false (Z.of_nat n) 0) cells pd cd (Some times) in
  Ok (Steps points cells steps).
(** Without a mesh, _export.py:79-137, 165-200: [o] is the output chosen, or the first
    one, of which the points are taken.  --voxelize with an origin which is missing
    or not of three numbers, which only passes with a mesh file and Tecplot results,
    is not modelled here. *)
Definition export_alone (a : export_args) (o : output) (outs : list output) : res written :=
  let* pa := output_points o in
  let '(pts, axis) := pa in
  let ndim := List.length axis in
  if a_voxelize a || (ndim =? 1) then
    let* origin := if ndim =? 1 then origin_of a else match origin_of a with Ok o => Ok o | Err _ => Err Unmodelled end in
    let* m := voxelize pts origin (a_layer a) $"dfalt" in
    let m := as_numbers m in
    let idx := export_order pts in
    match a_format a with
    | EXdmf => let* data := mapM (fun o => taken idx (shown o)) outs in series (points m) (cells m) None (Some data) outs
    | _ => let* data := taken idx (shown o) in let* m := foldM add_cells m data in Ok (Alone m)
    end
  else
    let* pts := along axis pts in
    let* m := triangulate delaunay ndim pts $"dfalt" in
    match a_format a with
    | EXdmf => series (points m) (cells m) (Some (map shown outs)) None outs
    | _ => let* m := foldM add_points m (shown o) in Ok (Alone m)
    end.
(** export, _export.py:17-200, from the results read *)
Definition export (a : export_args) (outs : list output) : res written :=
  let* _ := match a_mesh a with
    | None => if a_voxelize a then let* _ := origin_of a in Ok tt else Ok tt
    | Some _ => Ok tt end in
  let* chosen := match a_format a with EXdmf => step_asked outs None | _ => step_asked outs (a_time_step a) end in
  match a_mesh a with
  | Some (m, ll) =>
      if streqb (o_format chosen) $"tecplot" then
        let* o := match a_format a with EXdmf => item outs 0 | _ => Ok chosen end in export_alone a o outs
      else let* e := export_mesh argsort ll (a_format a) (a_time_step a) outs m in Ok (OnMesh e)
  | None => let* o := match a_format a with EXdmf => item outs 0 | _ => Ok chosen end in export_alone a o outs
  end.
(** From the lines of the results: the arguments are checked before, _export.py:36-53 *)
Definition export_results (a : export_args) (ls : list str) : res written :=
  let* _ := match a_mesh a with
    | None => if a_voxelize a then let* _ := origin_of a in Ok tt else Ok tt
    | Some _ => Ok tt end in
  let* outs := read_output None false None ls in export a outs.
End Export.
