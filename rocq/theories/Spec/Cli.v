(** Files seen as lists of lines, for the commands. *)
From Coq Require Import String Ascii Bool List.
From Verif Require Import Base.Str.
Import ListNotations.

(** A line starts with a keyword, whatever its case. *)
Definition opens_with (k : string) (line : str) : Prop := exists a b, line = a ++ b /\ upper a = lit k.
Definition end_line (line : str) : Prop := opens_with "ENDFI" line \/ opens_with "ENDCY" line.
Definition block_line (line : str) : Prop :=
  opens_with "ROCKS" line \/ opens_with "PARAM" line \/ end_line line.
(** At least three lines of [ls] have the property. *)
Definition three (P : str -> Prop) (ls : list str) : Prop :=
  exists a x b y c z d, ls = a ++ x :: b ++ y :: c ++ z :: d /\ P x /\ P y /\ P z.
Definition first_line_starts (k : string) (text : str) : Prop := exists r, text = lit k ++ r.
