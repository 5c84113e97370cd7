(** History files: tables of numbers with one name for each column. *)
From Coq Require Import String Ascii Arith ZArith Bool List.
From Verif Require Import Base.Str Base.Flt.
Import ListNotations.
Local Open Scope nat_scope.

(** Separated by commas, the names between quotes; or by blanks. *)
Inductive layout := Commas | Blanks.
Definition blanks (a : str) : Prop := forallb is_space a = true.
Definition padded (c p : str) : Prop := exists a b, blanks a /\ blanks b /\ p = a ++ c ++ b.
(** A text without outer blanks and without a comma. *)
Definition cell_text (c : str) : Prop := c <> [] /\ trimmed c = true /\ ~ In ","%char c.
Definition comma_cells (cs : list str) (l : str) : Prop := Forall cell_text cs /\ exists ps, Forall2 padded cs ps /\ l = join [","%char] ps.
Definition solid_word (w : str) : Prop := w <> [] /\ forall c, In c w -> is_space c = false.
Inductive blank_cells : list str -> str -> Prop :=
| bc_nil a : blanks a -> blank_cells [] a
| bc_one a w : blanks a -> solid_word w -> blank_cells [w] (a ++ w)
| bc_more a w c ws l : blanks a -> solid_word w -> is_space c = true -> blank_cells ws l -> blank_cells (w :: ws) (a ++ w ++ c :: l).
Definition cells_in (lay : layout) : list str -> str -> Prop := match lay with Commas => comma_cells | Blanks => blank_cells end.
Definition in_quotes (h q : str) : Prop := (forall c, In c h -> c <> """"%char) /\ trimmed h = true /\ exists p, padded h p /\ q = """"%char :: p ++ [""""%char].
Definition heading (lay : layout) (names : list str) (l : str) : Prop :=
  match lay with
  | Commas => exists qs, Forall2 in_quotes names qs /\ comma_cells qs l
  | Blanks => blank_cells names l /\ forall n r, nth_error names 0 = Some n -> n <> """"%char :: r
  end.
Definition entries (lay : layout) (xs : list flt) (l : str) : Prop :=
  exists cs, cells_in lay cs l /\ Forall2 (fun c x => parse_float c = Some x) cs xs.
(** A header, the rows, and the end of the file or a blank line. *)
Definition history (lay : layout) (names : list str) (rows : list (list flt)) (ls : list str) : Prop :=
  exists h body rest, ls = h :: body ++ rest /\ heading lay names h /\ Forall2 (entries lay) rows body /\
    (rest = [] \/ exists b r, rest = b :: r /\ blanks b).
