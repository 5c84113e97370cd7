(** C70: history files. *)
From Coq Require Import String Ascii Arith ZArith Bool List.
From Verif Require Import Base.Str Base.Flt Model.Py Model.Dispatch Model.Output Model.History Spec.History Proofs.HistoryProof.
Import ListNotations.
Local Open Scope nat_scope.

(** C70.  A history file comes back as its columns: the first under TIME, whatever its
    name, each of the others under its own; the rows stop at the first blank line. *)
Theorem C70_read : forall lay first names rows ls, history lay (first :: names) rows ls -> rows <> [] -> Forall (fun r => List.length r = S (List.length names)) rows -> NoDup ($"TIME" :: names) ->
  exists out, read_history ls = Ok out /\ map fst out = $"TIME" :: names /\
    forall j k, nth_error ($"TIME" :: names) j = Some k -> exists col, tget k out = Some col /\ List.length col = List.length rows /\
      forall i row, nth_error rows i = Some row -> nth_error col i = nth_error row j.
Proof. exact history_read. Qed.
Print Assumptions C70_read.
Example C70_case : history Commas [$"TIME(S)"; $"PRES"; $"SAT_G"] [numbers ["1.0E+02"; "2.5E5"; "0.25"]; numbers ["2.0E+02"; "3.5E5"; "0.5"]]%string comma_file /\
  read_history comma_file = Ok [($"TIME", numbers ["1.0E+02"; "2.0E+02"]); ($"PRES", numbers ["2.5E5"; "3.5E5"]); ($"SAT_G", numbers ["0.25"; "0.5"])]%string /\
  history Blanks [$"TIME"; $"GEN"; $"ENTG"] [numbers ["1.0E+02"; "-2.5"; "7"]; numbers ["3.0E+02"; "-5.0"; "8"]]%string blank_file /\
  read_history blank_file = Ok [($"TIME", numbers ["1.0E+02"; "3.0E+02"]); ($"GEN", numbers ["-2.5"; "-5.0"]); ($"ENTG", numbers ["7"; "8"])]%string.
Proof. exact histories_ok. Qed.
(** C70.  A file with a header only is refused. *)
Theorem C70_empty : forall h rest, (rest = [] \/ exists b r, rest = b :: r /\ blanks b) -> read_history (h :: rest) = Err IndexError.
Proof. exact history_empty. Qed.
Print Assumptions C70_empty.
(** C70 fails for a name with a comma, even between quotes: it makes two names, and
    the last column is lost. *)
Theorem C70_comma_refuted : ~ (forall names xs ls, ls = [join [","%char] (map (fun n => """"%char :: n ++ [""""%char]) names); join [","%char] xs] -> List.length xs = List.length names ->
  (forall x, In x xs -> x = $"1") -> exists out, read_history ls = Ok out /\ map fst out = $"TIME" :: tl names).
Proof. exact history_comma. Qed.
Print Assumptions C70_comma_refuted.
