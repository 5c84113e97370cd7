(** The lines of MESH and INCON files. *)
From Coq Require Import String Ascii Arith ZArith QArith Bool List.
From Verif Require Import Base.Str Base.Digits Base.Flt Base.FltRound Base.FltArith.
Import ListNotations.
Local Open Scope nat_scope.

(** A line of ELEME: the label in the first 15 columns, 5 columns for the material,
    10 for the volume, 20 blank, three times 10 for the centre. *)
Definition eleme_line (label mat : str) (volume x y z : flt) : str :=
  ljust 15 label ++ ljust 5 (firstn 5 mat) ++ rjust 10 (fmt_e 4 volume) ++ spaces 20 ++
  rjust 10 (fmt_e 3 x) ++ rjust 10 (fmt_e 3 y) ++ rjust 10 (fmt_e 3 z) ++ [nl].
(** The volume of a cell in the file: multiplied by 1.0e50 when its state is fixed. *)
Definition file_volume (fixed : bool) (v : flt) : flt := if fixed then fmul v (flt_of_dec false 1 50) else v.
(** A line of CONNE: both labels in the first 25 columns, then direction, two
    distances, area and angle. *)
Definition conne_line (l1 l2 : str) (isot : Z) (d1 d2 area angle : flt) : str :=
  ljust 25 (l1 ++ l2) ++ rjust 5 (print_Z isot) ++ rjust 10 (fmt_e 4 d1) ++ rjust 10 (fmt_e 4 d2) ++ rjust 10 (fmt_e 4 area) ++
  rjust 10 (fmt_e 3 angle) ++ spaces 10 ++ [nl].
(** A block: its keyword, its lines, an empty line. *)
Definition block_text (keyword : str) (ls : list str) : str :=
  keyword ++ $"----1----*----2----*----3----*----4----*----5----*----6----*----7----*----8" ++ [nl] ++ concat ls ++ [nl].

(** A line of COORD. *)
Definition coord_line (x y z : flt) : str := rjust 20 (fmt_e 13 x) ++ rjust 20 (fmt_e 13 y) ++ rjust 20 (fmt_e 13 z) ++ [nl].
(** Names the writer takes as they are: five characters or more, no blanks around. *)
Definition whole_name (s : str) : Prop := 5 <= List.length s /\ strip s = s.

(** The lines of INCON for one cell: the label in 15 columns, the porosity in 15,
    user values in 10 each; then up to four values of 20 columns; then, from five
    values on, up to four more. *)
Definition number_or_blank (w p : nat) (x : option flt) : str :=
  match x with Some v => rjust w (fmt_e p v) | None => spaces w end.
Definition incon_lines (label : str) (porosity : option flt) (user : option (list flt)) (values : list (option flt)) : str :=
  ljust 15 label ++ number_or_blank 15 9 porosity ++
  match user with Some u => concat (map (fun v => rjust 10 (fmt_e 3 v)) u) | None => spaces 30 end ++ [nl] ++
  concat (map (number_or_blank 20 13) (firstn 4 values)) ++ [nl] ++
  (if 4 <? List.length values then concat (map (number_or_blank 20 13) (firstn 4 (skipn 4 values))) ++ [nl] else []).

(** A value is defined when it is above minus one billion. *)
Definition defined (v : flt) : Prop := (- (Qmake 1000000000 1) < fval v)%Q.
Definition defined_or_none (v : flt) (o : option flt) : Prop := (defined v /\ o = Some v) \/ (~ defined v /\ o = None).
