(** The command toughio-extract, /repo/toughio/_cli/_extract.py. *)
From Coq Require Import String Ascii ZArith Bool List.
From Verif Require Import Base.Str Base.Digits Base.Flt Base.FltArith Model.Py Model.Read Model.Dispatch Model.Output Model.Cli.
Import ListNotations.
Local Open Scope Z_scope.

(** The choices of --file-format, _extract.py:125-131 *)
Inductive xformat := XCsv | XTecplot | XPetrasim.
Definition is_csv (f : xformat) : bool := match f with XCsv => true | _ => false end.   (* _extract.py:26 *)
(** format_to_ext, _extract.py:12-16 *)
Definition format_to_ext (f : xformat) : str := match f with XCsv | XPetrasim => $".csv" | XTecplot => $".tec" end.
(** The arguments, _extract.py:91-162; the argument parser itself is not modelled. *)
Record xargs := XArgs
  { x_infile : str; x_mesh : str; x_output : option str; x_format : xformat; x_length : option Z;
    x_split : bool; x_connection : bool }.

(** A number of a center; None and others give arrays of objects, which are not
    modelled. *)
Definition coordinate (v : pyval) : res flt := match v with PFloat x => Ok x | _ => Err Unmodelled end.   (* _extract.py:52, 58 *)
(** parameters["elements"][label]["center"], _extract.py:52, 58, of three numbers
    (other lengths are not modelled) *)
Definition center_of (els : dict) (label : str) : res (list flt) :=
  let* e := dgetE (KS label) els in
  let* c := subscript e #"center" in
  let* l := py_iter c in
  let* l := mapM coordinate l in
  if Nat.eqb (List.length l) 3 then Ok l else Err Unmodelled.

(** 0.5 *)
Definition half : flt := Fin false 1 (-1).   (* _extract.py:57-59 *)
(** numpy.mean of two arrays, _extract.py:57-59: half the sum *)
Definition mean2 (a b : list flt) : list flt := map (fun xy => fmul half (fadd (fst xy) (snd xy))) (combine a b).
(** The point of a label, _extract.py:52, 57-59; a mean of other than two centers
    is not modelled. *)
Definition point_of (els : dict) (connection : bool) (label : list str) : res (list flt) :=
  if connection then
    let* cs := mapM (center_of els) label in
    match cs with [a; b] => Ok (mean2 a b) | _ => Err Unmodelled end
  else match label with [l] => center_of els l | _ => Err TypeError end.
(** points, _extract.py:49-63; numpy.vstack refuses an empty list, and the
    transpose of an empty array has no columns. *)
Definition points_of (els : dict) (connection : bool) (labels : list (list str)) : res (list (list flt)) :=
  let* ps := mapM (point_of els connection) labels in
  match ps with
  | [] => if connection then Ok [] else Err ValueError
  | _ => transpose ps
  end.
(** out.data.update(points), _extract.py:63-65 *)
Definition with_points (cols : list (list flt)) (o : output) : output :=
  Output (o_type o) (o_format o) (o_time o) (o_labels o)
    (fold_left (fun acc kv => tset (fst kv) (snd kv) acc) (combine [$"X"; $"Y"; $"Z"] cols) (o_data o)).
(** except KeyError, _extract.py:67-72 *)
Definition or_inconsistent {A} (r : res A) : res A := match r with Err KeyError => Err ValueError | _ => r end.

(** The outputs with their points, _extract.py:35-72, of the two texts.  A SAVE
    file, whose output is not a list, is not modelled. *)
Definition located (fuel : nat) (a : xargs) (infile mesh : str) : res (list output) :=
  let* p := read_text fuel (x_length a) mesh in
  let* els := match dget #"elements" p with Some v => as_dict v | None => Err ValueError end in
  let* outs := read_output None (x_connection a) (option_map Z.to_nat (x_length a)) (lines infile) in
  match last_output outs with
  | None => Err IndexError
  | Some o =>
      let* _ := guard (streqb (o_format o) $"tough") ValueError in
      or_inconsistent
        (match o_labels o with
         | None => Err TypeError
         | Some labels => let* cols := points_of els (x_connection a) labels in Ok (map (with_points cols) outs)
         end)
  end.

(** write_output, _io/output/_helpers.py:116-146, with the format given *)
Definition write_output (f : xformat) (outs : list output) : res str :=
  let* ls := match f with XCsv => csv_write outs | XTecplot => tecplot_write outs | XPetrasim => petrasim_write outs end in
  Ok (concat ls).
(** filename, _extract.py:75-82 *)
Definition xfilename (a : xargs) : str :=
  match x_output a with
  | Some f => f
  | None => (if x_connection a then $"OUTPUT_CONNE" else $"OUTPUT_ELEME") ++ format_to_ext (x_format a)
  end.
(** os.path.splitext(filename)[0], _extract.py:86 *)
Definition without_ext (f : str) : str := drop_last (List.length (extension f)) f.
(** "{}_{}{}".format(head, i + 1, ext), _extract.py:88 *)
Definition step_name (f : str) (i : nat) : str :=
  without_ext f ++ $"_" ++ print_Z (Z.of_nat i + 1) ++ extension f.
(** The files written with --split, _extract.py:87-88, in turn; whatever the
    format asked, they are CSV. *)
Fixpoint write_steps (d : disk) (f : str) (i : nat) (outs : list output) : res unit * disk :=
  match outs with
  | [] => (Ok tt, d)
  | o :: r => match write_output XCsv [o] with
              | Err e => (Err e, d)
              | Ok text => write_steps (store d (step_name f i) text) f (S i) r
              end
  end.
(** extract, _extract.py:19-88.  A failing writer is taken to leave no file. *)
Definition extract (fuel : nat) (d : disk) (a : xargs) : res unit * disk :=
  if x_connection a && negb (is_csv (x_format a)) then (Err ValueError, d)
  else
    match d (x_infile a), d (x_mesh a) with
    | Some infile, Some mesh =>
        match located fuel a infile mesh with
        | Err e => (Err e, d)
        | Ok outs =>
            let f := xfilename a in
            if negb (x_split a) || Nat.eqb (List.length outs) 1 then
              match write_output (x_format a) outs with
              | Err e => (Err e, d)
              | Ok text => (Ok tt, store d f text)
              end
            else write_steps d f 0 outs
        end
    | _, _ => (Err ValueError, d)
    end.
