(** Files of results as any program may write them: with any spaces and any digits. *)
From Coq Require Import String Ascii Arith ZArith QArith Bool Sorted List.
From Verif Require Import Base.Str Base.Flt Base.FltRound Model.Output Spec.Output.
Import ListNotations.
Local Open Scope nat_scope.

(** The texts between commas, without quotes and without the blanks around them. *)
Definition cells_of (line : str) : list str := map strip (split_on "," (filter (fun c => negb (Ascii.eqb c """")) line)).
(** Each text is a number, as Python reads it. *)
Definition numbers (texts : list str) (xs : list flt) : Prop := Forall2 (fun s x => parse_float s = Some x) texts xs.
(** The rest of the file: nothing, or anything after a blank line. *)
Definition ends (tail : list str) : Prop := match tail with [] => True | l :: _ => strip l = [] end.

(** CSV: a row with a label of [n] names, and the line of a time. *)
Definition csv_row (n : nat) (row : list str * list flt) (line : str) : Prop :=
  exists texts, cells_of line = fst row ++ texts /\ List.length (fst row) = n /\ numbers texts (snd row) /\
    hd [] (fst row) <> [] /\ startswith $"TIME" (hd [] (fst row)) = false.
Definition csv_time_line (t : flt) (line : str) : Prop :=
  startswith ("""" :: $"TIME")%char line = true /\ exists front w, split_ws (hd [] (cells_of line)) = front ++ [w] /\ parse_float w = Some t.
Definition csv_header (t : ftype) (names : list str) (line : str) : Prop :=
  ~ In "="%char line /\ match t with Element => cells_of line = $"ELEM" :: names | Connection => exists second, cells_of line = $"ELEM1" :: second :: names end.
Definition name_count (t : ftype) : nat := match t with Element => 1 | Connection => 2 end.
(** The lines of one step. *)
Definition csv_step_lines (n : nat) (step : flt * list (list str * list flt)) (ls : list str) : Prop :=
  exists first rest, ls = first :: rest /\ csv_time_line (fst step) first /\ Forall2 (csv_row n) (snd step) rest.
Definition csv_file (t : ftype) (names : list str) (steps : list (flt * list (list str * list flt))) (ls : list str) : Prop :=
  exists header units groups tail, ls = header :: units :: concat groups ++ tail /\ csv_header t names header /\ ends tail /\
    Forall2 (csv_step_lines (name_count t)) steps groups.
(** A file without times. *)
Definition csv_table (t : ftype) (names : list str) (rows : list (list str * list flt)) (ls : list str) : Prop :=
  exists header units body tail, ls = header :: units :: body ++ tail /\ csv_header t names header /\ ends tail /\ Forall2 (csv_row (name_count t)) rows body.

(** PetraSim: a row with its time, label and values; the third cell is not used. *)
Definition petrasim_row_line (row : flt * str * list flt) (line : str) : Prop :=
  exists time index texts, map strip (split_on "," line) = time :: snd (fst row) :: index :: texts /\ parse_float time = Some (fst (fst row)) /\ numbers texts (snd row).
Definition petrasim_file (names : list str) (rows : list (flt * str * list flt)) (ls : list str) : Prop :=
  exists header body tail, ls = header :: body ++ tail /\ ~ In "="%char header /\ startswith $"TIME" (strip header) = true /\
    (exists a b c, map strip (split_on "," header) = a :: b :: c :: names) /\ ends tail /\ Forall2 petrasim_row_line rows body.
(** The rows of one time. *)
Definition at_time (t : flt) (rows : list (flt * str * list flt)) : list (list str * list flt) :=
  map (fun r => ([snd (fst r)], snd r)) (filter (fun r => Qeq_bool (fval (fst (fst r))) (fval t)) rows).
Definition finite_number (x : flt) : Prop := match x with Fin _ _ _ => True | _ => False end.

(** The output which shows these rows: each column has, in each row, its value. *)
Definition shows (t : ftype) (fmt : str) (names : list str) (time : option flt) (rows : list (list str * list flt)) (o : output) : Prop :=
  o_type o = t /\ o_format o = fmt /\ o_time o = time /\ o_labels o = Some (map fst rows) /\ map fst (o_data o) = names /\
  forall j k c, nth_error (o_data o) j = Some (k, c) -> List.length c = List.length rows /\ forall i l xs, nth_error rows i = Some (l, xs) -> nth_error c i = nth_error xs j.
(** Rows of as many values as names. *)
Definition even (names : list str) (rows : list (list str * list flt)) : Prop := rows <> [] /\ Forall (fun r => List.length (snd r) = List.length names) rows.

(** Columns of one length, that of the labels, with different names. *)
Definition well_shaped (o : output) : Prop :=
  NoDup (names o) /\ exists n, (forall k c, In (k, c) (o_data o) -> List.length c = n) /\ (forall l, o_labels o = Some l -> List.length l = n).
