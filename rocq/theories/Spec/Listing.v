(** What a TOUGH listing looks like: time steps, each with a table. *)
From Coq Require Import String Ascii ZArith Bool List.
From Verif Require Import Base.Str Base.Flt Model.Py Model.Dispatch Model.Output Spec.Output Spec.Length.
Import ListNotations.
Local Open Scope nat_scope.

(** A row: [r_lead] blanks, the labels, then words separated by blanks; the first
    word is an index, the others are numbers [r_values]. *)
Record row := Row
  { r_lead : nat; r_labels : list str; r_index : str; r_words : list (nat * str); r_values : list flt }.
(** A line of a table is a row or something to be skipped. *)
Inductive tline := TRow (r : row) | TSkip (l : str).

Definition gap_words (ws : list (nat * str)) : str := concat (map (fun gw => spaces (S (fst gw)) ++ snd gw) ws).
(** The labels of a connection are two characters apart. *)
Definition label_text (ls : list str) : str := join $"  " ls.
Definition row_text (r : row) : str :=
  spaces (r_lead r) ++ label_text (r_labels r) ++ gap_words ((0, r_index r) :: r_words r) ++ [nl].
Definition line_text (l : tline) : str := match l with TRow r => row_text r | TSkip s => s end.

Definition no_blank (w : str) : Prop := w <> [] /\ forall c, In c w -> is_space c = false.
(** A label of [n] characters that starts with a letter or digit. *)
Definition list_label (n : nat) (s : str) : Prop :=
  List.length s = n /\ n <> 0 /\ forall c, nth_error s 0 = Some c -> is_space c = false.
Definition good_row (t : ftype) (n : nat) (r : row) : Prop :=
  r_lead r < 10 /\ List.length (r_labels r) = (if is_element t then 1 else 2) /\ Forall (list_label n) (r_labels r) /\
  startswith $"ELEM" (label_text (r_labels r)) = false /\ startswith $"@@@@@" (skipn 1 (row_text r)) = false /\ no_blank (r_index r) /\
  Forall (fun gw => no_blank (snd gw)) (r_words r) /\
  Forall2 (fun gw x => parse_float (snd gw) = Some x) (r_words r) (r_values r).
(** A line that is skipped: blank in its first ten characters, or a repeated
    header; it does not close the table. *)
Definition skipped (l : str) : Prop :=
  (strip (firstn 10 l) = [] \/ startswith $"ELEM" (strip l) = true) /\ startswith $"@@@@@" (skipn 1 l) = false.
Definition good_line_in (t : ftype) (n : nat) (l : tline) : Prop :=
  match l with TRow r => good_row t n r | TSkip s => skipped s end.

(** A time step. *)
Record step := Step
  { s_before : list str; s_total : str; s_time : str; s_value : flt; s_between : list str; s_header : str;
    s_table : list tline; s_end : str }.
Definition step_lines (s : step) : list str :=
  s_before s ++ [s_total s; s_time s] ++ s_between s ++ [s_header s] ++ map line_text (s_table s) ++ [s_end s].
Fixpoint table_rows (ls : list tline) : list row :=
  match ls with [] => [] | TRow r :: q => r :: table_rows q | TSkip _ :: q => table_rows q end.
Definition rows (s : step) : list row := table_rows (s_table s).

(** [heads] are the words of the header: one or two for the labels, one for the
    index, then the names of the columns. *)
Definition names_in (t : ftype) (heads : list str) : list str := skipn (if is_element t then 2 else 3) heads.
Record good_step (t : ftype) (n : nat) (heads : list str) (s : step) : Prop := GoodStep
  { gs_before : Forall (fun l => startswith $"TOTAL TIME" (strip l) = false) (s_before s);
    gs_total : startswith $"TOTAL TIME" (strip (s_total s)) = true;
    gs_time : exists w r, split_ws (s_time s) = w :: r /\ parse_float w = Some (s_value s);
    gs_between : Forall (fun l => startswith (if is_element t then $"ELEM." else $"ELEM1") (strip l) = false) (s_between s);
    gs_header : startswith (if is_element t then $"ELEM." else $"ELEM1") (strip (s_header s)) = true /\
                split_ws (s_header s) = heads;
    gs_table : Forall (good_line_in t n) (s_table s);
    gs_rows : rows s <> [];
    gs_width : Forall (fun r => List.length (r_values r) = List.length (names_in t heads)) (rows s);
    gs_end : startswith $"@@@@@" (skipn 1 (s_end s)) = true }.

(** A listing: steps of the same width and the same number of rows; the label
    length shows in the first row (the characters 6 to [n] of its label are
    digits and no digit follows). *)
Definition good_listing (t : ftype) (n : nat) (heads : list str) (steps : list step) : Prop :=
  steps <> [] /\ Forall (good_step t n heads) steps /\ NoDup (names_in t heads) /\
  (forall s s', In s steps -> In s' steps -> List.length (rows s) = List.length (rows s')) /\
  (forall s r r', nth_error steps 0 = Some s -> rows s = r :: r' ->
     found (skipn (r_lead r) (row_text r)) n).

(** The output of a step. *)
Record step_result (t : ftype) (fmt : str) (heads : list str) (s : step) (o : output) : Prop := StepResult
  { sr_type : o_type o = t;
    sr_format : o_format o = fmt;
    sr_time : o_time o = Some (s_value s);
    sr_labels : o_labels o = Some (map r_labels (rows s));
    sr_names : names o = names_in t heads;
    sr_data : forall j k, nth_error (names_in t heads) j = Some k ->
      exists c, nth_error (o_data o) j = Some (k, c) /\ List.length c = List.length (rows s) /\
        forall i r x, nth_error (rows s) i = Some r -> nth_error (r_values r) j = Some x -> nth_error c i = Some x }.
