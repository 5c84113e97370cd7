(** Mesh.read_output, /repo/toughio/_mesh/_mesh.py:408-467.  The file is already
    read; arithmetic is exact. *)
From Coq Require Import String Ascii Arith ZArith QArith Qcanon Reals Qreals Bool List.
From Verif Require Import Base.Str Base.Flt Model.Py Model.Dispatch Model.Numpy Model.Mesh Model.MeshOps Model.Geometry Model.Labeler Model.Output.
Import ListNotations.
Local Open Scope nat_scope.

Definition arrow := (R * R * R)%type.   (* a row of three numbers, _mesh.py:451, 457-461 *)
Definition arrow0 : arrow := (0, 0, 0)%R.   (* _mesh.py:451 *)
Definition arrow_add (a b : arrow) : arrow :=   (* _mesh.py:464 *)
  let '(a1, a2, a3) := a in let '(b1, b2, b3) := b in (a1 + b1, a2 + b2, a3 + b3)%R.
Definition arrow_mul (x : R) (a : arrow) : arrow := let '(a1, a2, a3) := a in (x * a1, x * a2, x * a3)%R.   (* _mesh.py:461 *)
(** One entry of a cell data array: a number of the file or a vector, _mesh.py:445, 467 *)
Inductive cellvalue := Num (x : flt) | Arrow (a : arrow).

(** A number of the file in arithmetic; infinities and nan are not modelled. *)
Definition real_of (x : flt) : res R :=   (* _mesh.py:460-461 *)
  match x with Fin s m e => Ok ((if s then -1 else 1) * IZR m * powerRZ 2 e)%R | _ => Err Unmodelled end.
(** A centre in three dimensions; in two, the sums of _mesh.py:464 mix vectors of
    different lengths, which is not modelled. *)
Definition place3 (c : list Qc) : res arrow :=   (* _mesh.py:447 *)
  match c with [x; y; z] => Ok (Q2R (this x), Q2R (this y), Q2R (this z)) | _ => Err Unmodelled end.
(** line, _mesh.py:456-457; the direction between two cells with the same centre
    (nan) is not modelled *)
Definition direction (c1 c2 : arrow) : res arrow :=
  let '(x1, y1, z1) := c1 in let '(x2, y2, z2) := c2 in
  let x := (x1 - x2)%R in let y := (y1 - y2)%R in let z := (z1 - z2)%R in
  let n := sqrt (x * x + y * y + z * z) in
  if Req_EM_T n 0 then Err Unmodelled else Ok (x / n, y / n, z / n)%R.
(** data[k][iv].append(a), _mesh.py:461 *)
Definition append_at (i : nat) (a : arrow) (rows : list (list arrow)) : res (list (list arrow)) :=
  match nth_error rows i with Some l => Ok (set_nth i (l ++ [a]) rows) | None => Err IndexError end.
Definition index_of (labels : list str) (l : str) : res nat :=   (* labels_map[label], _mesh.py:448, 455 *)
  match last_index l labels with Some i => Ok i | None => Err KeyError end.
(** One row of one column, _mesh.py:459-461 *)
Definition flow_cell (i i1 i2 : nat) (line : arrow) (dk : (str * list (list arrow)) * (str * list flt)) : res (str * list (list arrow)) :=
  let* v := match nth_error (snd (snd dk)) i with Some x => real_of x | None => Err IndexError end in
  let iv := if Rlt_dec 0 v then i1 else i2 in
  let* rows := append_at iv (arrow_mul v line) (snd (fst dk)) in
  Ok (fst (fst dk), rows).
(** One row of the output, _mesh.py:454-461 *)
Definition flow_row (labels : list str) (cs : list (list Qc)) (cols : table (list flt)) (data : table (list (list arrow)))
    (row : nat * list str) : res (table (list (list arrow))) :=
  match snd row with
  | [l1; l2] =>
      let* i1 := index_of labels l1 in
      let* i2 := index_of labels l2 in
      let* c1 := match nth_error cs i1 with Some c => place3 c | None => Err IndexError end in
      let* c2 := match nth_error cs i2 with Some c => place3 c | None => Err IndexError end in
      let* line := direction c1 c2 in
      mapM (flow_cell (fst row) i1 i2 line) (combine data cols)
  | _ => Err ValueError
  end.
Definition total (l : list arrow) : arrow := fold_left arrow_add l arrow0.   (* numpy.sum(vv, axis=0), _mesh.py:464 *)
(** The branch of connections, _mesh.py:447-466 *)
Definition flows (labels : list str) (cs : list (list Qc)) (n : nat) (own : list (list str)) (cols : table (list flt)) : res (table (list arrow)) :=
  let data0 := map (fun kc => (fst kc, repeat [arrow0] n)) cols in
  let* data := foldM (flow_row labels cs cols) data0 (numbered own) in
  Ok (map (fun kd => (fst kd, map total (snd kd))) data).

(** What is given: an output or a list of them, _mesh.py:430-435 *)
Inductive given := One (o : output) | Several (l : list output).
Definition set_cells {C V} (m : mesh C V) (d : list (str * list V)) : mesh C V :=   (* self.cell_data.update, _mesh.py:445, 467 *)
  Mesh (dim m) (points m) (cells m) (point_data m) (update (cell_data m) d) (field_data m).
(** out[time_step], _mesh.py:435-438 *)
Definition position (n : nat) (time_step : Z) : res nat :=
  let z := Z.of_nat n in
  let* _ := guard ((- z <=? time_step)%Z && (time_step <? z)%Z) ValueError in
  Ok (Z.to_nat (if (time_step <? 0)%Z then z + time_step else time_step)).
(** One output, _mesh.py:440-467: the mesh after, and the output after (it is
    reordered in place by reorder_labels). *)
Definition import_one (label_length : option Z) (o : output) (m : mesh Qc cellvalue) : res (mesh Qc cellvalue * output) :=
  let n := n_cells (cells m) in
  match o_type o with
  | Element =>
      let* own := match o_labels o with Some l => Ok l | None => Err TypeError end in
      let* _ := guard (List.length own =? n) ValueError in
      let* labels := labeler (Z.of_nat n) label_length in
      let* o' := reorder_labels o labels in
      Ok (set_cells m (map (fun kc => (fst kc, map Num (snd kc))) (o_data o')), o')
  | Connection =>
      let* cs := centers m in
      let* labels := labeler (Z.of_nat n) label_length in
      let* own := match o_labels o with Some l => Ok l | None => Err TypeError end in
      let* data := flows labels cs n own (o_data o) in
      Ok (set_cells m (map (fun kd => (fst kd, map Arrow (snd kd))) data), o)
  end.
(** read_output, _mesh.py:430-467, with what the caller gave as it is after *)
Definition import_output (label_length : option Z) (g : given) (time_step : Z) (m : mesh Qc cellvalue) : res (mesh Qc cellvalue * given) :=
  match g with
  | One o => let* r := import_one label_length o m in Ok (fst r, One (snd r))
  | Several outs =>
      let* i := position (List.length outs) time_step in
      match nth_error outs i with
      | Some o => let* r := import_one label_length o m in Ok (fst r, Several (set_nth i (snd r) outs))
      | None => Err IndexError
      end
  end.
