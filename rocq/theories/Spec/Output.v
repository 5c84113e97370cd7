(** What a user may expect of output files: which outputs a format can hold and
    what comes back.  The values come back rounded to the decimals written
    ([rnd_e]). *)
From Coq Require Import String Ascii ZArith Bool QArith Permutation Sorted List.
From Verif Require Import Base.Str Base.Flt Base.FltText Base.FltRound Model.Py Model.Dispatch Model.Output.
Import ListNotations.
Local Open Scope nat_scope.

(** The label of one element. *)
Definition single (s : str) : list str := [s].

(** Text that can stand in a cell of a comma-separated line: on one line, no
    outer blanks, no comma, no quote. *)
Definition plain (s : str) : Prop :=
  trimmed s = true /\ forall c, In c s -> c <> nl /\ c <> ","%char /\ c <> quote.

(** The names of the columns of an output. *)
Definition names (o : output) : list str := map fst (o_data o).

(** An output with [n] labels accepted by [label_ok], a time, and columns of [n]
    numbers. *)
Record sheet (label_ok : list str -> Prop) (n : nat) (o : output) : Prop := Sheet
  { sh_labels : exists ls, o_labels o = Some ls /\ List.length ls = n /\ Forall label_ok ls;
    sh_time : exists t, o_time o = Some t /\ is_f64 t = true;
    sh_names : NoDup (names o);
    sh_data : forall k c, In (k, c) (o_data o) -> List.length c = n /\ Forall (fun x => is_f64 x = true) c }.

(** CSV: a label does not look like a time (a cell is 18 characters wide). *)
Definition not_time (s : str) : Prop := List.length s < 18 \/ startswith $"TIME" s = false.
Definition csv_label (t : ftype) (l : list str) : Prop :=
  match t, l with
  | Element, [a] => plain a /\ not_time a
  | Connection, [a; b] => plain a /\ not_time a /\ plain b
  | _, _ => False
  end.
Definition csv_name (k : str) : Prop := plain k /\ startswith $"ELEM" k = false.

(** Outputs of one type with the same columns and the same number of rows. *)
Definition csv_sheets (t : ftype) (n : nat) (outs : list output) : Prop :=
  outs <> [] /\ n <> 0 /\ Forall (sheet (csv_label t) n) outs /\
  Forall (fun o => o_type o = t /\ Forall csv_name (names o)) outs /\
  (forall o o', In o outs -> In o' outs -> incl (names o) (names o')).

(** [o'] is [o] as it comes back, with [kt] decimals of the time and [kd]
    decimals of the values, in the format [fmt]; the columns may come back in
    another order. *)
Record comes_back (fmt : str) (kt kd : nat) (labels : bool) (o o' : output) : Prop := Back
  { cb_type : o_type o' = o_type o;
    cb_format : o_format o' = fmt;
    cb_time : o_time o' = option_map (rnd_e kt) (o_time o);
    cb_labels : o_labels o' = if labels then o_labels o else None;
    cb_names : Permutation (names o') (names o);
    cb_data : forall k c, In (k, c) (o_data o) -> In (k, map (rnd_e kd) c) (o_data o') }.

(** PetraSim: element labels and column names that can stand in a cell. *)
Definition petrasim_sheets (outs : list output) : Prop :=
  outs <> [] /\
  Forall (fun o => o_type o = Element /\ names o <> [] /\ Forall plain (names o) /\
                   exists n, n <> 0 /\ sheet (fun l => exists s, l = [s] /\ plain s) n o) outs /\
  (forall o o', In o outs -> In o' outs -> incl (names o) (names o')).

(** The time of an output as it is written with [k] decimals, and its value. *)
Definition time_value (k : nat) (o : output) : Q :=
  match o_time o with Some t => fval (rnd_e k t) | None => 0 end.
Definition finite_time (k : nat) (o : output) : Prop :=
  match o_time o with Some t => match rnd_e k t with Fin _ _ _ => True | _ => False end | None => False end.
(** [o] is earlier than [o'], as far as the times written tell. *)
Definition earlier (k : nat) (o o' : output) : Prop := (time_value k o < time_value k o')%Q.

(** Tecplot: names are words of at most 17 characters, and every number fits
    19 characters, so that columns do not run into each other. *)
Definition tecplot_name (k : str) : Prop :=
  k <> [] /\ List.length k < 18 /\
  forall c, In c k -> is_space c = false /\ c <> ","%char /\ c <> "="%char /\ c <> quote.
Definition tecplot_sheet (o : output) : Prop :=
  o_type o = Element /\ (exists t, o_time o = Some t /\ is_f64 t = true) /\
  NoDup (names o) /\ In $"X" (names o) /\ In $"Y" (names o) /\ Forall tecplot_name (names o) /\
  exists n, n <> 0 /\
    forall k c, In (k, c) (o_data o) ->
      List.length c = n /\ Forall (fun x => is_f64 x = true /\ List.length (fmt_e 12 x) < 20) c.
Definition tecplot_sheets (outs : list output) : Prop :=
  outs <> [] /\ Forall tecplot_sheet outs /\
  (forall o o', In o outs -> In o' outs -> incl (names o) (names o')).

(** No column has a "=" in its name. *)
Definition no_equal_sign (outs : list output) : Prop := Forall (fun o => Forall (fun k => ~ In "="%char k) (names o)) outs.
