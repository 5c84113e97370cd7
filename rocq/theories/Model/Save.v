(** SAVE files read as outputs: /repo/toughio/_io/output/save/_save.py *)
From Coq Require Import String Ascii ZArith Bool List.
From Verif Require Import Base.Str Base.Digits Base.Flt Model.Py Model.Read Model.Dispatch Model.Output.
Import ListNotations.
Local Open Scope Z_scope.

(** Output, _io/output/_common.py:10, as SAVE files fill it: there is no time, the
    labels are those of elements, and a cell of a column is whatever the input
    reader gave, possibly None (the row of a two-dimensional column "userx" is a
    sequence). *)
Record saved := Saved
  { sv_type : ftype; sv_format : str; sv_labels : list str; sv_data : table (list pyval) }.

(** labels_order, save/_save.py:35-37: not given, a list, or a numpy array. *)
Inductive order_arg := NoOrder | ListOrder (l : list str) | ArrayOrder (l : list str).

(** A label is a str, save/_save.py:17; blank labels (None) are not modelled. *)
Definition save_label (k : key) : res str := match k with KS s => Ok s | _ => Err Unmodelled end.
(** An entry of "initial_conditions_order", save/_save.py:36, as a label *)
Definition order_label (v : pyval) : res str := match v with PStr s => Ok s | _ => Err Unmodelled end.

(** v[k] for the conditions of an element, save/_save.py:18,23,27 *)
Definition condition (k : key) (v : pyval) : res pyval := subscript v k.

(** The header X{}, save/_save.py:20 *)
Definition x_name (i : nat) : str := $"X" ++ print_Z (Z.of_nat (S i)).
(** {"X{}".format(i + 1): x for i, x in enumerate(numpy.transpose(variables))},
    save/_save.py:20 *)
Definition x_columns (rows : list (list pyval)) : res (table (list pyval)) :=
  let* cols := transpose rows in
  Ok (to_table (map x_name (seq 0 (List.length cols))) cols).

(** "userx" in v.keys(), save/_save.py:29 *)
Definition with_userx (v : pyval) : res bool := let* d := as_dict v in Ok (dmem #"userx" d).
(** userx, save/_save.py:26-30 *)
Fixpoint userx_rows (vs : list pyval) : res (list pyval) :=
  match vs with
  | [] => Ok []
  | v :: r =>
      let* b := with_userx v in
      let* x := if b then let* u := condition #"userx" v in Ok [u] else Ok [] in
      let* xs := userx_rows r in
      Ok (x ++ xs)
  end.
(** numpy.array(userx), save/_save.py:32: rows of one length; ragged rows are not
    modelled. *)
Definition same_lengths (rows : list pyval) : res unit :=
  let* rs := mapM py_iter rows in
  match rs with
  | [] => Ok tt
  | r :: _ => guard (forallb (fun q => Nat.eqb (List.length q) (List.length r)) rs) Unmodelled
  end.

(** labels_order if labels_order else parameters["initial_conditions_order"],
    save/_save.py:34-36: an array of several labels has no truth value; that of
    an array of one label is not modelled. *)
Definition chosen_order (o : order_arg) (own : list str) : res (list str) :=
  match o with
  | NoOrder | ListOrder [] | ArrayOrder [] => Ok own
  | ListOrder l => Ok l
  | ArrayOrder [_] => Err Unmodelled
  | ArrayOrder _ => Err ValueError
  end.

(** reorder_labels, _common.py:32-44, on such an output *)
Definition reorder_saved (o : saved) (labels : list str) : res saved :=
  let* _ := guard (Nat.eqb (List.length (sv_labels o)) (List.length labels)) ValueError in
  let* idx := mapM (fun l => match last_index l (sv_labels o) with Some i => Ok i | None => Err KeyError end) labels in
  let* own := pick idx (sv_labels o) in
  let* data := mapM (fun kv => let* v := pick idx (snd kv) in Ok (fst kv, v)) (sv_data o) in
  Ok (Saved (sv_type o) (sv_format o) own data).

(** read, save/_save.py:13-38; [fuel] is that of the title of [read_text]. *)
Definition save_read (fuel : nat) (t : ftype) (fmt : str) (order : order_arg) (text : str) : res saved :=
  let* p := read_text fuel None text in
  let* v := dgetE #"initial_conditions" p in
  let* ic := as_dict v in
  let* labels := mapM save_label (dkeys ic) in
  let* vs := mapM (condition #"values") (map snd ic) in
  let* rows := mapM py_iter vs in
  let* xs := x_columns rows in
  let* por := mapM (condition #"porosity") (map snd ic) in
  let data := tset $"porosity" por xs in
  let* us := userx_rows (map snd ic) in
  let* data :=
    match us with
    | [] => Ok data
    | _ => let* _ := same_lengths us in Ok (tset $"userx" us data)
    end in
  let* own := dgetE #"initial_conditions_order" p in
  let* own := py_iter own in
  let* own := mapM order_label own in
  let* labels_order := chosen_order order own in
  reorder_saved (Saved t fmt labels data) labels_order.

(** read_output, _helpers.py:78-130, on a file recognised as a SAVE file; the
    other formats are those of [Output.read_output].  save/_save.py:13 has no
    further argument, so the label length and the type asked are not used. *)
Definition read_save (fuel : nat) (order : order_arg) (text : str) : res saved :=
  let* tf := get_output_type (lines text) in
  match tf with
  | (t, FSave) => save_read fuel t $"save" order text
  | _ => Err Unmodelled
  end.
