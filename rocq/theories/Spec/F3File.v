(** FLAC3D grids as any program may write them. *)
From Coq Require Import String Ascii Arith ZArith Bool Permutation List.
From Verif Require Import Base.Str Base.Digits Base.Flt Spec.F3grid.
Import ListNotations.
Local Open Scope nat_scope.

(** A gridpoint: its number and its coordinates.  A zone or a face: its number, its type
    and its nodes, by their places among the gridpoints of the file.  A group: its name,
    its slot and its members, by their places among the zones and faces of the file. *)
Definition gridpoint := (Z * list flt)%type.
Record cell := Cell { c_body : body; c_number : Z; c_type : str; c_nodes : list nat }.
Record group := Group { g_body : body; g_name : str; g_slot : str; g_members : list nat }.
Inductive grid_item := Gridpoint (p : gridpoint) | Element (c : cell) | Members (g : group) | Remark.
Definition points_in (l : list grid_item) : list gridpoint := flat_map (fun i => match i with Gridpoint p => [p] | _ => [] end) l.
Definition cells_in (l : list grid_item) : list cell := flat_map (fun i => match i with Element c => [c] | _ => [] end) l.
Definition groups_in (l : list grid_item) : list group := flat_map (fun i => match i with Members g => [g] | _ => [] end) l.

(** Body, word of the type, nodes in the order of a mesh and in the order of the file. *)
Inductive in_f3 : body -> str -> str -> list nat -> list nat -> Prop :=
| f3_T3 a b c : in_f3 Surface $"T3" $"triangle" [a; b; c] [a; b; c]
| f3_Q4 a b c d : in_f3 Surface $"Q4" $"quad" [a; b; c; d] [a; b; c; d]
| f3_T4 a b c d : in_f3 Solid $"T4" $"tetra" [a; b; c; d] [a; b; c; d]
| f3_P5 a b c d e : in_f3 Solid $"P5" $"pyramid" [a; b; c; d; e] [a; b; d; e; c]
| f3_W6 a b c d e f : in_f3 Solid $"W6" $"wedge" [a; b; c; d; e; f] [a; b; d; c; e; f]
| f3_B8 a b c d e f g h : in_f3 Solid $"B8" $"hexahedron" [a; b; c; d; e; f; g; h] [a; b; d; e; c; h; f; g]
| f3_B7 a b c d e f h : in_f3 Solid $"B7" $"hexahedron" [a; b; c; d; e; f; f; h] [a; b; d; e; c; h; f].
Definition letter (b : body) : str := match b with Solid => $"Z" | Surface => $"F" end.
Definition reads {A} (parse : str -> option A) (ws : list str) (xs : list A) : Prop := Forall2 (fun w x => parse w = Some x) ws xs.

(** The lines of a text file, after the gridpoints [P] and the elements [C].  Numbers are
    those of gridpoints and elements before.  Any other line is a remark.  The table of a
    group ends with the file, or before a line which begins with a star or with the word
    ZGROUP.  The file ends with its last line or before a blank one. *)
Definition has_slot (ws : list str) (slot : str) : Prop :=
  ~ In $"SLOT" ws /\ slot = [] \/ In $"SLOT" ws /\ exists front, ws = front ++ [slot].
Definition unquoted_is (w name : str) : Prop := name = filter (fun c => negb (Ascii.eqb c """"%char)) w.
Definition keywords : list str := [$"G"; $"Z"; $"F"; $"ZGROUP"; $"FGROUP"].
Definition over (ls : list str) : Prop := match ls with [] => True | l :: _ => split_ws l = [] end.
Definition closes (ls : list str) : Prop :=
  match ls with [] => True | l :: _ => match split_ws l with [] => True | w :: _ => w = $"*" \/ w = $"ZGROUP" end end.
Definition number_of_cell (C : list cell) (b : body) (z : Z) (i : nat) : Prop := exists c, nth_error C i = Some c /\ c_body c = b /\ c_number c = z.
Inductive described : list gridpoint -> list cell -> list grid_item -> list str -> Prop :=
| d_over P C ls : over ls -> described P C [] ls
| d_remark P C items l ls w ws : split_ws l = w :: ws -> ~ In w keywords -> described P C items ls -> described P C (Remark :: items) (l :: ls)
| d_point P C items l ls w ws z p : split_ws l = $"G" :: w :: ws -> parse_int w = Some z -> reads parse_float ws p ->
    described (P ++ [(z, p)]) C items ls -> described P C (Gridpoint (z, p) :: items) (l :: ls)
| d_cell P C items l ls c t w ws us : split_ws l = letter (c_body c) :: t :: w :: ws -> parse_int w = Some (c_number c) ->
    in_f3 (c_body c) t (c_type c) (c_nodes c) us -> Forall2 (fun w v => exists p, nth_error P v = Some p /\ parse_int w = Some (fst p)) ws us ->
    described P (C ++ [c]) items ls -> described P C (Element c :: items) (l :: ls)
| d_group P C items l table ls g w ws rows : split_ws l = (letter (g_body g) ++ $"GROUP") :: w :: ws -> unquoted_is w (g_name g) -> has_slot (w :: ws) (g_slot g) ->
    Forall2 (fun l row => split_ws l <> [] /\ reads parse_int (split_ws l) row) table rows ->
    Forall2 (number_of_cell C (g_body g)) (concat rows) (g_members g) -> closes ls ->
    described P C items ls -> described P C (Members g :: items) (l :: table ++ ls).

(** What the program assumes: the numbers of the gridpoints are distinct, and those of the
    zones, and those of the faces; the groups have distinct names, and one slot for zones
    and one for faces; if there are groups of zones, each zone is in one of them and only
    once; likewise for faces. *)
Definition same_body (a b : body) : bool := match a, b with Solid, Solid | Surface, Surface => true | _, _ => false end.
Definition places_of (b : body) (C : list cell) : list nat :=
  filter (fun i => match nth_error C i with Some c => same_body (c_body c) b | None => false end) (seq 0 (List.length C)).
Definition grouped (b : body) (l : list grid_item) : Prop :=
  (forall g, In g (groups_in l) -> g_body g <> b) \/
  Permutation (flat_map g_members (filter (fun g => same_body (g_body g) b) (groups_in l))) (places_of b (cells_in l)).
Definition distinct (l : list grid_item) : Prop :=
  NoDup (map fst (points_in l)) /\ NoDup (map (fun c => (c_body c, c_number c)) (cells_in l)) /\ NoDup (map g_name (groups_in l)) /\
  (forall g g', In g (groups_in l) -> In g' (groups_in l) -> g_body g = g_body g' -> g_slot g = g_slot g').
Definition text_grid (l : list grid_item) (file : str) : Prop := ~ In (ascii_of_nat 0) (firstn 8 file) /\ described [] [] l (lines file).

(** The groups in the mesh: their numbers, from one in the order of the file, with the
    dimension; the number of the group of each element, zero for elements of a body without groups. *)
Definition dim_of (b : body) : Z := match b with Solid => 3%Z | Surface => 2%Z end.
Definition fields_of (l : list grid_item) : list (str * (nat * Z)) :=
  map (fun kg => (g_name (snd kg), (fst kg, dim_of (g_body (snd kg))))) (combine (seq 1 (List.length (groups_in l))) (groups_in l)).
Definition number_of_group (l : list grid_item) (i : nat) (c : cell) (n : nat) : Prop :=
  (forall g, In g (groups_in l) -> g_body g <> c_body c) /\ n = 0 \/
  exists k g, nth_error (groups_in l) k = Some g /\ g_body g = c_body c /\ In i (g_members g) /\ n = S k.

(** Binary files: the numbers as bytes, the lowest first. *)
Fixpoint value_of (bs : str) : Z := match bs with [] => 0%Z | c :: r => (Z.of_N (N_of_ascii c) + 256 * value_of r)%Z end.
Definition word_of (n : nat) (z : Z) (bs : str) : Prop := List.length bs = n /\ value_of bs = z.
(** a sign, eleven bits of exponent and fifty-two of fraction *)
Inductive double_bits : flt -> Z -> Prop :=
| db_subnormal (s : bool) m : (0 <= m < 2 ^ 52)%Z -> double_bits (Fin s m (-1074)) ((if s then 2 ^ 63 else 0) + m)
| db_normal (s : bool) e m : (0 < e < 2047)%Z -> (0 <= m < 2 ^ 52)%Z -> double_bits (Fin s (2 ^ 52 + m) (e - 1075)) ((if s then 2 ^ 63 else 0) + e * 2 ^ 52 + m)
| db_infinite (s : bool) : double_bits (Inf s) ((if s then 2 ^ 63 else 0) + 2047 * 2 ^ 52)
| db_none (s : bool) m : (0 < m < 2 ^ 52)%Z -> double_bits NaN ((if s then 2 ^ 63 else 0) + 2047 * 2 ^ 52 + m).
Definition double_of (x : flt) (bs : str) : Prop := exists z, double_bits x z /\ word_of 8 z bs.
Definition point_bytes (p : gridpoint) (bs : str) : Prop :=
  exists w xs, bs = w ++ concat xs /\ word_of 4 (fst p) w /\ List.length xs = 3 /\ Forall2 double_of (snd p) xs.
Definition cell_bytes (P : list gridpoint) (b : body) (c : cell) (bs : str) : Prop :=
  exists w n ws t us, bs = w ++ n ++ concat ws /\ c_body c = b /\ word_of 4 (c_number c) w /\ word_of 4 (Z.of_nat (List.length us)) n /\
    in_f3 b t (c_type c) (c_nodes c) us /\ Forall2 (fun w v => exists p, nth_error P v = Some p /\ word_of 4 (fst p) w) ws us.
Definition ascii_name (s : str) : Prop := forall c, In c s -> (N_of_ascii c < 128)%N.
Definition name_bytes (s bs : str) : Prop := exists n, bs = n ++ s /\ word_of 2 (Z.of_nat (List.length s)) n /\ ascii_name s.
Definition group_bytes (C : list cell) (b : body) (g : group) (bs : str) : Prop :=
  exists name slot n ws, bs = name ++ slot ++ n ++ concat ws /\ g_body g = b /\ name_bytes (g_name g) name /\ name_bytes (g_slot g) slot /\
    word_of 4 (Z.of_nat (List.length (g_members g))) n /\ Forall2 (fun w i => exists z, word_of 4 z w /\ number_of_cell C b z i) ws (g_members g).
Definition section_bytes (P : list gridpoint) (C : list cell) (b : body) (cs : list cell) (gs : list group) (bs : str) : Prop :=
  exists n cbs k gbs, bs = n ++ concat cbs ++ k ++ concat gbs /\ word_of 4 (Z.of_nat (List.length cs)) n /\ Forall2 (cell_bytes P b) cs cbs /\
    word_of 4 (Z.of_nat (List.length gs)) k /\ Forall2 (group_bytes (C ++ cs) b) gs gbs.
(** Eight bytes, of which one is null; the gridpoints; the zones and their groups; the
    faces and their groups. *)
Definition binary_grid (l : list grid_item) (file : str) : Prop :=
  exists P zs zg fs fg head n pbs z f rest,
    l = map Gridpoint P ++ map Element zs ++ map Members zg ++ map Element fs ++ map Members fg /\
    file = head ++ n ++ concat pbs ++ z ++ f ++ rest /\ List.length head = 8 /\ In (ascii_of_nat 0) head /\
    word_of 4 (Z.of_nat (List.length P)) n /\ Forall2 point_bytes P pbs /\
    section_bytes P [] Solid zs zg z /\ section_bytes P zs Surface fs fg f.
