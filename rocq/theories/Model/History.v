(** History files (FOFT, COFT, GOFT): read_history of /repo/toughio/_io/output/_helpers.py. *)
From Coq Require Import String Ascii Arith ZArith Bool List.
From Verif Require Import Base.Str Base.Flt Model.Py Model.Dispatch Model.Output.
Import ListNotations.
Local Open Scope nat_scope.

(** line.split(sep), _helpers.py:175, 180: at commas, or at blanks when sep is None *)
Definition history_cells (commas : bool) (line : str) : list str := if commas then split_on ","%char line else split_ws line.
(** The loop over the rows, up to a blank line, _helpers.py:177-181 *)
Fixpoint history_rows (commas : bool) (ls : list str) : res (list (list flt)) :=
  match ls with
  | [] => Ok []
  | l :: r => match strip l with
              | [] => Ok []
              | line => let* x := mapM to_float (history_cells commas line) in let* xs := history_rows commas r in Ok (x :: xs)
              end
  end.
(** read_history, _helpers.py:149-188: [ls] are the lines of the file.  The check that
    the file name is a string is not modelled; rows of different lengths are not
    (Unmodelled). *)
Definition read_history (ls : list str) : res (table (list flt)) :=
  let '(l0, rest) := readline ls in
  let line := strip l0 in
  let commas := startswith [quote] line in
  let headers := map strip (tl (history_cells commas (if commas then unquote line else line))) in
  let* data := history_rows commas rest in
  let* cols := transpose data in
  match cols with
  | [] => Err IndexError
  | time :: others => Ok (fold_left (fun acc kv => tset (fst kv) (snd kv) acc) (combine headers others) [($"TIME", time)])
  end.
