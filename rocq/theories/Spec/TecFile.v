(** Tecplot mesh files as any program may write them. *)
From Coq Require Import String Ascii Arith ZArith Bool List.
From Verif Require Import Base.Str Base.Digits Base.Flt Spec.Avsucd Spec.TecMesh.
Import ListNotations.
Local Open Scope nat_scope.

(** The words of a text; commas are blanks. *)
Definition words_in (s : str) : list str := split_ws (map (fun c => if Ascii.eqb c "," then " "%char else c) s).
(** The names of the variables, with or without quotes. *)
Definition spells (k w : str) : Prop := ~ In """"%char k /\ (w = k \/ w = """"%char :: k ++ [""""%char]).
Definition names_line (names : list str) (line : str) : Prop :=
  startswith $"VARIABLES" (upper (strip line)) = true /\ exists a b rest, split_on "=" (strip line) = a :: b :: rest /\ Forall2 spells names (words_in b).
(** Any other line before the zone. *)
Definition other_line (line : str) : Prop :=
  strip line <> [] /\ startswith $"VARIABLES" (upper (strip line)) = false /\ startswith $"ZONE" (upper (strip line)) = false.

(** A key and its value, with or without blanks around the equal sign. *)
Inductive pair_words : str * str -> list str -> Prop :=
| pw_joined k v : pair_words (k, v) [k ++ "="%char :: v]
| pw_left k v : pair_words (k, v) [k ++ ["="%char]; v]
| pw_right k v : pair_words (k, v) [k; "="%char :: v]
| pw_apart k v : pair_words (k, v) [k; ["="%char]; v].
Definition count_keys : list string := ["I"; "J"; "K"; "N"; "NODES"; "E"; "ELEMENTS"; "NV"]%string.
Definition text_keys : list string := ["T"; "F"; "ET"; "DATAPACKING"; "ZONETYPE"]%string.
Definition pair_ok (p : str * str) : Prop :=
  snd p <> [] /\ ~ In "="%char (snd p) /\
  exists k, fst p = $k /\ (In k count_keys /\ (exists z, parse_int (snd p) = Some z) \/ In k text_keys).
(** The words of the zone: those of its pairs, in any order; the last value stands apart
    from its key. *)
Definition zone_words (pairs : list (str * str)) (text : str) : Prop :=
  exists groups, words_in text = concat groups /\ Forall2 pair_words pairs groups /\ Forall pair_ok pairs /\ NoDup (map fst pairs) /\
    (forall front g, groups = front ++ [g] -> 1 < List.length g).
(** The title of the zone is taken out, then the location of the variables. *)
Definition untitled (text : str) (text' : str) : Prop :=
  ~ In """"%char text /\ text' = text \/
  exists a t b, text = a ++ """"%char :: t ++ """"%char :: b /\ ~ In """"%char (a ++ t ++ b) /\ text' = a ++ $"PLACEHOLDER" ++ b.
Definition unlocated (text : str) (location : option str) (text' : str) : Prop :=
  match location with
  | None => (forall a b, text <> a ++ $"VARLOCATION" ++ b) /\ text' = text
  | Some s => exists a e b, text = a ++ $"VARLOCATION" ++ e ++ "("%char :: s ++ ")"%char :: b /\ (forall x y, a ++ $"VARLOCATIO" <> x ++ $"VARLOCATION" ++ y) /\
      (forall c, In c (a ++ e ++ s) -> c <> "("%char /\ c <> ")"%char) /\ text' = a ++ b
  end.

(** Where variables are: ranges of their numbers, from one. *)
Record range := Range { r_from : nat; r_to : nat; r_centred : bool }.
Definition range_text (r : range) : str :=
  "["%char :: (if r_from r =? r_to r then print_Z (Z.of_nat (r_from r)) else print_Z (Z.of_nat (r_from r)) ++ "-"%char :: print_Z (Z.of_nat (r_to r))) ++
  $"]=" ++ (if r_centred r then $"CELLCENTERED" else $"NODAL").
Definition locates (s : str) (n : nat) (centred : list bool) : Prop :=
  exists ranges, ranges <> [] /\ filter (fun c => negb (Ascii.eqb c " ")) s = join [","%char] (map range_text ranges) /\
    Forall (fun r => 1 <= r_from r <= r_to r /\ r_to r <= n) ranges /\
    centred = map (fun i => existsb (fun r => r_centred r && (r_from r <=? S i) && (S i <=? r_to r)) ranges) (seq 0 n).

(** What the zone says. *)
Record zone := Zone { z_points : nat; z_elements : nat; z_blocks : bool; z_name : str; z_cells : list bool }.
Definition given (pairs : list (str * str)) (k k' : str) (n : nat) : Prop :=
  exists v, parse_int v = Some (Z.of_nat n) /\ (In (k, v) pairs \/ ~ In k (map fst pairs) /\ In (k', v) pairs).
Definition says (pairs : list (str * str)) (location : option str) (n : nat) (z : zone) : Prop :=
  (In ($"F", if z_blocks z then $"FEBLOCK" else $"FEPOINT") pairs /\ In ($"ET", z_name z) pairs \/
   ~ In $"F" (map fst pairs) /\ In ($"DATAPACKING", if z_blocks z then $"BLOCK" else $"POINT") pairs /\ In ($"ZONETYPE", z_name z) pairs) /\
  given pairs $"N" $"NODES" (z_points z) /\ given pairs $"E" $"ELEMENTS" (z_elements z) /\
  if z_blocks z then
    (exists v p, In ($"NV", v) pairs /\ parse_int v = Some (Z.of_nat p) /\ z_cells z = map (fun i => p <=? i) (seq 0 n)) \/
    ~ In $"NV" (map fst pairs) /\ match location with None => z_cells z = repeat false n | Some s => locates s n (z_cells z) end
  else z_cells z = repeat false n.
(** The zone on its lines: the first as it is, the others in capital letters. *)
Definition zone_head (n : nat) (z : zone) (first : str) (more : list str) : Prop :=
  startswith $"ZONE" (upper (strip first)) = true /\
  Forall (fun l => exists c s, strip l = c :: s /\ is_digit c = false) more /\
  exists text location rest pairs, untitled (skipn 5 (join [" "%char] (strip first :: map (fun l => upper (strip l)) more))) text /\
    unlocated text location rest /\ zone_words pairs rest /\ says pairs location n z.

(** Lines of numbers; blank lines do not matter. *)
Definition filled (ls : list str) : list str := filter (fun l => match split_ws l with [] => false | _ => true end) ls.
Definition number_line (xs : list flt) (line : str) : Prop := Forall2 (fun w x => parse_float w = Some x) (split_ws line) xs.
Definition cell_line (c : list nat) (line : str) : Prop := Forall2 (fun w v => parse_int w = Some (Z.of_nat (S v))) (split_ws line) c.
(** The columns in the rows: one row per point, or one column after another. *)
Definition rows_of (z : zone) (columns : list (list flt)) (rows : list (list flt)) : Prop :=
  if z_blocks z then concat rows = concat columns /\ Forall2 (fun (cell : bool) c => List.length c = if cell then z_elements z else z_points z) (z_cells z) columns
  else List.length rows = z_points z /\ Forall (fun r => List.length r = List.length columns) rows /\
    forall j c, nth_error columns j = Some c -> Forall2 (fun r x => nth_error r j = Some x) rows c.
Definition starts_with_digit (ls : list str) : Prop := match ls with [] => False | l :: _ => exists c s, strip l = c :: s /\ is_digit c = true end.
Definition tec_file (names : list str) (z : zone) (columns : list (list flt)) (cells : list (list nat)) (ls : list str) : Prop :=
  exists before variables between first more data body tail rows,
    ls = before ++ variables :: between ++ first :: more ++ data ++ body ++ tail /\
    Forall other_line before /\ names_line names variables /\ Forall other_line between /\ zone_head (List.length names) z first more /\
    starts_with_digit data /\ Forall2 number_line rows (filled data) /\ rows_of z columns rows /\
    List.length columns = List.length names /\ Forall2 cell_line cells (filled body) /\ List.length cells = z_elements z.

(** The types of zones. *)
Definition zone_kind (s : str) (t : str) : Prop :=
  exists a b c, In (a, b, c) [("TRIANGLE", "FETRIANGLE", "triangle"); ("QUADRILATERAL", "FEQUADRILATERAL", "quad"); ("TETRAHEDRON", "FETETRAHEDRON", "tetra"); ("BRICK", "FEBRICK", "hexahedron")]%string /\
    (s = $a \/ s = $b) /\ t = $c.
(** The variables at the points and at the cells, in their order. *)
Definition at_points (z : zone) (data : list (str * list flt)) : list (str * list flt) := map snd (filter (fun e => negb (fst e)) (combine (z_cells z) data)).
Definition at_cells (z : zone) (data : list (str * list flt)) : list (str * list flt) := map snd (filter (fun e : bool * (str * list flt) => fst e) (combine (z_cells z) data)).
(** The name of an axis: the capital letter if it is there. *)
Definition axis_name (names : list str) (capital small : string) (k : str) : Prop := In k names /\ (k = $capital \/ k = $small /\ ~ In $capital names).
