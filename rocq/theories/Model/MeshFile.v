(** Writing MESH and INCON files from a mesh, /repo/toughio/_mesh/tough/_tough.py
    and _helpers.py.  The lengths, areas and angles of the interfaces, which numpy
    computes from the geometry, are given. *)
From Coq Require Import String Ascii Arith ZArith Bool List.
From Verif Require Import Base.Str Base.Digits Base.Flt Base.FltArith Model.Py Model.Records Model.Numpy.
Import ListNotations.
Local Open Scope nat_scope.

(** "{}\n".format("".join(fmt)).format( *values): as many values as columns,
    _helpers.py:27, 37-48, 114-115 *)
Definition fmt_line (fmt : list spec) (values : list pyval) : res str :=
  let* cols := mapM (fun p => py_format (fst p) (snd p)) (combine fmt values) in Ok (concat cols ++ [nl]).
(** block, _helpers.py:4-20 *)
Definition mesh_block (keyword : str) (records : list str) : str := keyword ++ header ++ [nl] ++ concat records ++ [nl].

(** A material: a name or a number, _properties.py:7-28 *)
Inductive mat := MName (s : str) | MNum (z : Z).
Definition mat_eqb (a b : mat) : bool :=   (* keys of dictionaries, _helpers.py:33 *)
  match a, b with MName s, MName t => streqb s t | MNum x, MNum y => Z.eqb x y | _, _ => false end.
(** materials, _tough.py:179-182 *)
Definition padded (m : mat) : mat := match m with MName s => MName (ljust 5 (strip s)) | MNum z => MNum z end.
(** material_name[material] if any, _helpers.py:31-35; d[k] of the last entry with
    the key cannot differ from the first: keys of a dictionary are distinct *)
Definition renamed (names : list (mat * mat)) (m : mat) : mat :=
  match find (fun kv => mat_eqb m (fst kv)) names with Some kv => snd kv | None => m end.
Definition mat_text (m : mat) : str := match m with MName s => s | MNum z => rjust 5 (print_Z z) end.   (* _helpers.py:36 *)

(** One cell: label, material, volume, boundary condition, centre; _tough.py:56-66 *)
Record mcell := MCell { mc_label : str; mc_mat : mat; mc_vol : flt; mc_fixed : bool; mc_x : flt; mc_y : flt; mc_z : flt }.
Definition e50 : flt := flt_of_dec false 1 50.   (* 1.0e50, _tough.py:255 *)
Definition mc_volume (c : mcell) : flt := if mc_fixed c then fmul (mc_vol c) e50 else mc_vol c.   (* _tough.py:255 *)
(** One record of ELEME, _helpers.py:30-49 *)
Definition eleme_record (fmt : list spec) (names : list (mat * mat)) (c : mcell) : res str :=
  fmt_line fmt [PStr (mc_label c); PStr []; PStr []; PStr (mat_text (renamed names (padded (mc_mat c)))); PFloat (mc_volume c);
                PStr []; PStr []; PFloat (mc_x c); PFloat (mc_y c); PFloat (mc_z c)].
(** The cells not named in material_end, then those named, _tough.py:257-269; also
    for COORD, _tough.py:283-293 *)
Definition is_ending (ending : list mat) (c : mcell) : bool := existsb (mat_eqb (padded (mc_mat c))) ending.   (* _tough.py:261, 285 *)
Definition ending_last (ending : list mat) (cells : list mcell) : list mcell :=   (* _tough.py:257-269, 283-293 *)
  filter (fun c => negb (is_ending ending c)) cells ++ filter (is_ending ending) cells.
Definition first_length (labels : list str) : res nat := let* l := item labels 0 in Ok (List.length l).   (* _helpers.py:25, 63, 88 *)
Definition write_eleme (names : list (mat * mat)) (ending : list mat) (cells : list mcell) : res str :=   (* _tough.py:240-269 *)
  let* n := first_length (map mc_label cells) in
  let* fmt := fmt_ELEME n in
  let* records := mapM (eleme_record (str2format fmt [1; 2; 5; 6]) names) (ending_last ending cells) in
  Ok (mesh_block $"ELEME" records).
(** COORD, _tough.py:272-293, _helpers.py:52-58 *)
Definition coord_record (c : mcell) : str :=
  rjust 20 (fmt_e 13 (mc_x c)) ++ rjust 20 (fmt_e 13 (mc_y c)) ++ rjust 20 (fmt_e 13 (mc_z c)) ++ [nl].
Definition write_coord (ending : list mat) (cells : list mcell) : str :=   (* _tough.py:272-293 *)
  mesh_block $"COORD" (map coord_record (ending_last ending cells)).

(** The interfaces listed: cell, face, other cell; [seen] is the set of the earlier
    cells, _tough.py:313-340 *)
Fixpoint row_links (i f : nat) (row : list Z) : list (nat * nat * nat) :=   (* _tough.py:318-319 *)
  match row with
  | [] => []
  | j :: r => (if (0 <=? j)%Z && negb (Z.to_nat j <? i) then [(i, f, Z.to_nat j)] else []) ++ row_links i (S f) r
  end.
Fixpoint links_from (i : nat) (connections : list (list Z)) : list (nat * nat * nat) :=   (* _tough.py:316-340 *)
  match connections with [] => [] | row :: r => row_links i 0 row ++ links_from (S i) r end.
Definition links (connections : list (list Z)) : list (nat * nat * nat) := links_from 0 connections.   (* _tough.py:316-340 *)
(** What is written of an interface beside its cells: isot, d1, d2, area, angle;
    _tough.py:347-362 *)
Record measures := Measures { me_isot : Z; me_d1 : flt; me_d2 : flt; me_area : flt; me_angle : flt }.
Definition conne_record (fmt : list spec) (l1 l2 : str) (m : measures) : res str :=   (* _helpers.py:67-81 *)
  fmt_line fmt [PStr (l1 ++ l2); PStr []; PStr []; PStr []; PInt (me_isot m); PFloat (me_d1 m); PFloat (me_d2 m); PFloat (me_area m);
                PFloat (me_angle m); PStr []].
(** _tough.py:296-366: without any interface, numpy.diff over the second axis of
    an empty array is an error *)
Definition write_conne (labels : list str) (connections : list (list Z)) (me : nat * nat * nat -> measures) : res str :=
  let* ls := mapM (fun l => let* a := item labels (fst (fst l)) in let* b := item labels (snd l) in Ok (a, b, me l)) (links connections) in
  let* _ := guard (negb (List.length ls =? 0)) ValueError in
  let* n := first_length (map (fun x => fst (fst x)) ls) in
  let* fmt := fmt_CONNE n in
  let* records := mapM (fun x => conne_record (str2format fmt [1; 2; 3; 9]) (fst (fst x)) (snd (fst x)) (snd x)) ls in
  Ok (mesh_block $"CONNE" records).
(** write_mesh, _tough.py:158-219: the text of the file *)
Definition write_mesh (names : list (mat * mat)) (ending : list mat) (coord : bool) (cells : list mcell) (connections : list (list Z))
  (me : nat * nat * nat -> measures) : res str :=
  let* e := write_eleme names ending cells in
  let* c := write_conne (map mc_label cells) connections me in
  Ok (e ++ (if coord then write_coord ending cells else []) ++ c).

(** ** INCON *)

Definition m1e9 : flt := flt_of_dec true 1 9.   (* -1.0e9, _helpers.py:122, _tough.py:122, 389 *)
Definition m1em9 : flt := flt_of_dec true 1 (-9).   (* -1.0e-9, _helpers.py:93 *)
Definition fgtb (x y : flt) : bool := fltb y x.   (* x > y, _helpers.py:93, 122 *)
(** One record of values: undefined ones blank, at most four, _helpers.py:117-145 *)
Definition value_or_blank (v : flt) : pyval := if fgtb v m1e9 then PFloat v else PStr [].
Fixpoint undefined_from (i : nat) (vs : list flt) : list nat :=   (* _helpers.py:121-126 *)
  match vs with [] => [] | v :: r => (if fgtb v m1e9 then [] else [i]) ++ undefined_from (S i) r end.
Definition values_record (vs : list flt) : res str :=   (* _helpers.py:117-130, 133-145 *)
  fmt_line (str2format fmt_INCON_0 (undefined_from 0 vs)) (map value_or_blank vs).
Record icell := ICell { ic_label : str; ic_values : list flt; ic_porosity : option flt; ic_userx : option (list flt) }.   (* _helpers.py:88-92 *)
(** The records of one cell, none when nothing is defined, _helpers.py:92-149 *)
Definition ic_listed (c : icell) : bool :=   (* _helpers.py:93-96 *)
  existsb (fun v => fgtb v m1em9) (ic_values c) || match ic_porosity c with Some _ => true | None => false end ||
  match ic_userx c with Some _ => true | None => false end.
Definition incon_record1 (fmt : list token) (c : icell) : res str :=   (* _helpers.py:97-115 *)
  fmt_line (str2format fmt ([1; 2] ++ (match ic_porosity c with Some _ => [] | None => [3] end) ++ (match ic_userx c with Some _ => [] | None => [4; 5; 6] end)))
    ([PStr (ic_label c); PStr []; PStr []; match ic_porosity c with Some p => PFloat p | None => PStr [] end] ++
     match ic_userx c with Some u => map PFloat u | None => [PStr []; PStr []; PStr []] end).
Definition incon_record (fmt : list token) (c : icell) : res str :=   (* _helpers.py:97-147 *)
  let* r1 := incon_record1 fmt c in
  let* r2 := values_record (firstn 4 (ic_values c)) in
  let* r3 := if 4 <? List.length (ic_values c) then values_record (skipn 4 (ic_values c)) else Ok [] in
  Ok (r1 ++ r2 ++ r3).
(** write_incon, _tough.py:222-237, 369-381 *)
Definition write_incon (cells : list icell) : res str :=
  let* n := first_length (map ic_label cells) in
  let listed := filter ic_listed cells in
  let* records := mapM (fun c => let* fmt := fmt_INCON n in incon_record fmt c) listed in
  Ok (mesh_block $"INCON" records).
(** check_incon without its shape checks, _tough.py:113-155: is the file written? *)
Definition do_incon (incon : bool) (cells : list icell) : bool :=
  incon && negb (forallb (fun c => forallb (fun v => feqb v m1e9) (ic_values c)) cells).
