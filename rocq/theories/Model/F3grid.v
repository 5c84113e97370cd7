(** FLAC3D grids, /repo/toughio/_mesh/flac3d/_flac3d.py (the lines cited below are
    those of this file).  Files are lists of 8-bit characters; names of groups are
    ASCII, others are refused as not modelled.  Materials are integers. *)
From Coq Require Import String Ascii Arith ZArith QArith Qcanon Bool List.
From Verif Require Import Base.Str Base.Digits Base.Flt Base.FltArith Model.Py Model.Numpy Model.Mesh.
Import ListNotations.
Local Open Scope nat_scope.

Inductive flag := Zone | Face.   (* :337 *)
(** meshio_only, :18-41 *)
Definition zone_types : list (str * str) :=
  [($"tetra", $"tetra"); ($"tetra10", $"tetra"); ($"pyramid", $"pyramid"); ($"pyramid13", $"pyramid");
   ($"wedge", $"wedge"); ($"wedge12", $"wedge"); ($"wedge15", $"wedge"); ($"wedge18", $"wedge");
   ($"hexahedron", $"hexahedron"); ($"hexahedron20", $"hexahedron"); ($"hexahedron24", $"hexahedron");
   ($"hexahedron27", $"hexahedron")].
Definition face_types : list (str * str) :=   (* :33-40 *)
  [($"triangle", $"triangle"); ($"triangle6", $"triangle"); ($"triangle7", $"triangle");
   ($"quad", $"quad"); ($"quad8", $"quad"); ($"quad9", $"quad")].
Definition types (f : flag) : list (str * str) := match f with Zone => zone_types | Face => face_types end.   (* :18 *)
(** k in d and d[k] *)
Definition known {B} (d : list (str * B)) (k : str) : bool := match assoc k d with Ok _ => true | Err _ => false end.   (* :316, 454 *)
(** numnodes_to_meshio_type, :44-47 *)
Definition type_of (f : flag) (n : nat) : res str :=
  match f, n with
  | Zone, 4 => Ok $"tetra" | Zone, 5 => Ok $"pyramid" | Zone, 6 => Ok $"wedge" | Zone, 8 => Ok $"hexahedron"
  | Face, 3 => Ok $"triangle" | Face, 4 => Ok $"quad"
  | _, _ => Err KeyError
  end.
(** meshio_to_flac3d_type, :50-57 *)
Definition short_names : list (str * str) :=
  [($"triangle", $"T3"); ($"quad", $"Q4"); ($"tetra", $"T4"); ($"pyramid", $"P5"); ($"wedge", $"W6"); ($"hexahedron", $"B8")].
(** flac3d_to_meshio_order, :60-67 *)
Definition to_meshio : list (str * list nat) :=
  [($"triangle", [0; 1; 2]); ($"quad", [0; 1; 2; 3]); ($"tetra", [0; 1; 2; 3]); ($"pyramid", [0; 1; 4; 2; 3]);
   ($"wedge", [0; 1; 3; 2; 4; 5]); ($"hexahedron", [0; 1; 4; 2; 3; 6; 7; 5])].
(** meshio_to_flac3d_order, :70-77 *)
Definition to_flac : list (str * list nat) :=
  [($"triangle", [0; 1; 2]); ($"quad", [0; 1; 2; 3]); ($"tetra", [0; 1; 2; 3]); ($"pyramid", [0; 1; 3; 4; 2]);
   ($"wedge", [0; 1; 3; 2; 4; 5]); ($"hexahedron", [0; 1; 3; 4; 2; 7; 5; 6])].
(** meshio_to_flac3d_order_2, :80-85 *)
Definition to_flac_2 : list (str * list nat) :=
  [($"tetra", [0; 2; 1; 3]); ($"pyramid", [0; 3; 1; 4; 2]); ($"wedge", [0; 2; 3; 1; 5; 4]);
   ($"hexahedron", [0; 3; 1; 4; 2; 5; 7; 6])].
Definition numdim (f : flag) : Z := match f with Zone => 3%Z | Face => 2%Z end.   (* :88-91 *)

(** ** Orientation of the zones *)
(** Coordinates: binary64 numbers as numpy computes with them, or rationals *)
Record coords := Coords { num :> Type; sub : num -> num -> num; mul : num -> num -> num; add : num -> num -> num; positive : num -> bool }.   (* :446-450, 464 *)
Definition doubles : coords := Coords flt fsub fmul fadd (fltb (fzero false)).   (* :446-450, 464 *)
Definition rationals : coords :=   (* :446-450, 464, without rounding *)
  Coords Qc Qcminus Qcmult Qcplus (fun x => match Qccompare 0 x with Lt => true | _ => false end).
Section Orientation.
Context {C : coords}.
(** tmp[i] - tmp[0], :460; rows of fewer than three coordinates have no third column *)
Definition vector (p q : list C) : res (C * C * C) :=
  match p, q with
  | x :: y :: z :: _, x' :: y' :: z' :: _ => Ok (sub C x x', sub C y y', sub C z z')
  | _, _ => Err IndexError
  end.
(** slicing_summing, :446-450 *)
Definition triple_product (a b c : C * C * C) : C :=
  let '(a0, a1, a2) := a in let '(b0, b1, b2) := b in let '(c0, c1, c2) := c in
  let d0 := sub C (mul C b1 c2) (mul C b2 c1) in
  let d1 := sub C (mul C b2 c0) (mul C b0 c2) in
  let d2 := sub C (mul C b0 c1) (mul C b1 c0) in
  add C (add C (mul C a0 d0) (mul C a1 d1)) (mul C a2 d2).
Definition determinant (ps : list (list C)) : res C :=   (* :459-460 *)
  match ps with
  | [p0; p1; p2; p3] =>
      let* a := vector p1 p0 in let* b := vector p2 p0 in let* c := vector p3 p0 in Ok (triple_product a b c)
  | _ => Err IndexError
  end.
(** One row of _translate_zones, :457-467 *)
Definition translate_zone (points : list (list C)) (key : str) (cell : list nat) : res (list nat) :=
  let* order := assoc key to_flac in
  let* corners := take cell (firstn 4 order) in
  let* ps := take points corners in
  let* det := determinant ps in
  let* order_2 := assoc key to_flac_2 in
  take cell (if positive C det then order else order_2).
(** _translate_zones, :437-470 *)
Fixpoint translate_zones (points : list (list C)) (cells : list cellblock) : res (list cellblock) :=
  match cells with
  | [] => Ok []
  | (t, rows) :: r =>
      match assoc t zone_types with
      | Err _ => translate_zones points r
      | Ok key =>
          let* data := mapM (translate_zone points key) rows in
          let* zs := translate_zones points r in
          Ok ((key, data) :: zs)
      end
  end.
End Orientation.
(** _translate_faces, :473-484 *)
Definition translate_face (key : str) (cell : list nat) : res (list nat) := let* order := assoc key to_flac in take cell order.   (* :481 *)
Fixpoint translate_faces (cells : list cellblock) : res (list cellblock) :=   (* :473-484 *)
  match cells with
  | [] => Ok []
  | (t, rows) :: r =>
      match assoc t face_types with
      | Err _ => translate_faces r
      | Ok key =>
          let* data := mapM (translate_face key) rows in
          let* fs := translate_faces r in
          Ok ((key, data) :: fs)
      end
  end.
Definition translated (f : flag) (points : list (list flt)) (cells : list cellblock) : res (list cellblock) :=   (* :357-362 *)
  match f with Zone => @translate_zones doubles points cells | Face => translate_faces cells end.
(** count, :358, 361: the zones come before the faces in the numbering *)
Definition first_id (f : flag) (cells : list cellblock) : nat :=
  match f with Zone => 0 | Face => n_cells (filter (fun c => known zone_types (fst c)) cells) end.

(** ** Groups *)
(** The groups by increasing material, each with the 1-based positions of its
    cells: _translate_groups, :487-508; the arrays compared have the same length
    (numpy's broadcasting of others is not modelled) *)
Definition dims (cells : list cellblock) : list Z :=   (* :489-491 *)
  concat (map (fun c => repeat (if known face_types (fst c) then 2 else 3)%Z (List.length (snd c))) cells).
Definition members (f : flag) (mat ds : list Z) (k : Z) : list nat :=   (* :493-496 *)
  map (fun x => S (fst x)) (filter (fun x => Z.eqb (fst (snd x)) k && Z.eqb (snd (snd x)) (numdim f)) (numbered (combine mat ds))).
Definition field := list (str * (Z * Z)).   (* field_data, :503-506 *)
(** labels[k]: the last name field_data gives to the material, else "None" for 0,
    else its number, :501-506 *)
Definition label (f : flag) (fd : field) (k : Z) : str :=
  match find (fun e => Z.eqb (fst (snd e)) k && Z.eqb (snd (snd e)) (numdim f)) (rev fd) with
  | Some e => fst e
  | None => if Z.eqb k 0 then $"None" else print_Z k
  end.
Definition translate_groups (f : flag) (cells : list cellblock) (mat : list Z) (fd : field) : res (list (str * list nat)) :=   (* :487-508 *)
  let ds := dims cells in
  let* _ := guard (List.length mat =? List.length ds) Unmodelled in
  let groups := map (fun k => (k, members f mat ds k)) (unique Z.leb mat) in
  Ok (map (fun g => (label f fd (fst g), snd g)) (filter (fun g => negb (List.length (snd g) =? 0)) groups)).
Definition groups_of (f : flag) (cells : list cellblock) (mat : option (list Z)) (fd : field) : res (list (str * list nat)) :=   (* :403-404, 432-434 *)
  match mat with None => Ok [] | Some m => translate_groups f cells m fd end.

(** ** Binary files: struct.pack and struct.unpack, little endian *)
Definition byte (z : Z) : ascii := ascii_of_N (Z.to_N z).   (* :330 *)
Fixpoint little (n : nat) (z : Z) : str :=   (* :330 *)
  match n with O => [] | S m => byte (z mod 256) :: little m (z / 256) end.
Fixpoint of_little (s : str) : Z := match s with [] => 0%Z | c :: r => (code c + 256 * of_little r)%Z end.   (* :134 *)
Definition u32 (z : Z) : res str := let* _ := guard ((0 <=? z) && (z <? 2 ^ 32))%Z StructError in Ok (little 4 z).   (* I: :330, 345, 366, 380, 409 *)
Definition u16 (z : Z) : res str := let* _ := guard ((0 <=? z) && (z <? 2 ^ 16))%Z StructError in Ok (little 2 z).   (* H: :412 *)
(** d: sign, 11 bits of exponent, 52 bits of mantissa; one of the NaNs; :347 *)
Definition bits64 (x : flt) : Z :=
  (match x with
   | Fin s m e => (if s then 2 ^ 63 else 0) + (if m <? 2 ^ 52 then m else (e + 1075) * 2 ^ 52 + (m - 2 ^ 52))
   | Inf s => (if s then 2 ^ 63 else 0) + 2047 * 2 ^ 52
   | NaN => 2047 * 2 ^ 52 + 2 ^ 51
   end)%Z.
Definition of_bits64 (b : Z) : flt :=   (* :217 *)
  (let s := 2 ^ 63 <=? b in
   let ex := (b / 2 ^ 52) mod 2 ^ 11 in
   let fr := b mod 2 ^ 52 in
   if ex =? 2047 then if fr =? 0 then Inf s else NaN
   else if ex =? 0 then Fin s fr (-1074)
   else Fin s (fr + 2 ^ 52) (ex - 1075))%Z.
Definition f64 (x : flt) : str := little 8 (bits64 x).   (* d: :347 *)
Definition concatM (l : list (res str)) : res str := let* ss := mapM (fun r => r) l in Ok (concat ss).   (* :347, 380, 421 *)
Definition of_nat (n : nat) : res str := u32 (Z.of_nat n).   (* :345 *)

(** _write_points, :342-347 *)
Definition binary_point (ip : nat * list flt) : res str :=
  let* _ := guard (List.length (snd ip) =? 3) StructError in
  concatM (of_nat (S (fst ip)) :: map (fun x => Ok (f64 x)) (snd ip)).
(** _write_cells, :370-382: one row, with its number *)
Definition binary_cell (ic : nat * list nat) : res str :=
  concatM (of_nat (S (fst ic)) :: of_nat (List.length (snd ic)) :: map (fun v => of_nat (S v)) (snd ic)).
Definition counted (from : nat) (blocks : list cellblock) : list (nat * (str * list nat)) :=   (* :374, 382, 397 *)
  let rows := all_cells blocks in combine (seq from (List.length rows)) rows.
(** _write_groups, :409-421 *)
Definition ascii_only (s : str) : bool := forallb (fun c => Z.ltb (code c) 128) s.   (* :415, 250, 255 *)
Definition binary_group (g : str * list nat) : res str :=   (* :411-421 *)
  let* _ := guard (ascii_only (fst g)) Unmodelled in
  concatM (u16 (Z.of_nat (List.length (fst g))) :: Ok (fst g) :: u16 7 :: Ok $"Default" :: of_nat (List.length (snd g)) :: map of_nat (snd g)).
Definition binary_section (f : flag) (points : list (list flt)) (cells : list cellblock) (mat : option (list Z)) (fd : field) : res str :=   (* :338-339, 364-382, 401-434 *)
  let* blocks := translated f points cells in
  let* groups := groups_of f cells mat fd in
  concatM (of_nat (n_cells blocks)
    :: map (fun ic => binary_cell (fst ic, snd (snd ic))) (counted (first_id f cells) blocks)
    ++ of_nat (List.length groups) :: map binary_group groups).

(** ** Text files *)
Definition tab : ascii := ascii_of_nat 9.   (* :351 *)
Definition word_line (ws : list str) : str := join [sp] ws ++ [nl].   (* :391-398, 517 *)
Definition text_point (ip : nat * list flt) : res str :=   (* :350-352 *)
  match snd ip with
  | x :: y :: z :: _ =>
      Ok ($"G" ++ tab :: rjust 8 (print_Z (Z.of_nat (S (fst ip)))) ++ tab :: join [tab] [fmt_e 16 x; fmt_e 16 y; fmt_e 16 z] ++ [nl])
  | _ => Err IndexError
  end.
Definition nat_text (n : nat) : str := print_Z (Z.of_nat n).   (* :398, 517 *)
Definition text_cell (f : flag) (ic : nat * (str * list nat)) : res str :=   (* :396-398 *)
  let* name := assoc (fst (snd ic)) short_names in
  Ok (word_line ((match f with Zone => $"Z" | Face => $"F" end) :: name :: nat_text (S (fst ic)) :: map (fun v => nat_text (S v)) (snd (snd ic)))).
(** _write_table, :511-517: the lines of twenty numbers, then the rest *)
Definition table_rows {A} (ncol : nat) (l : list A) : list (list A) :=
  let nrow := List.length l / ncol in
  filter (fun r => negb (List.length r =? 0)) (np_split l (cumsum 0 (repeat ncol nrow))).
Definition text_group (f : flag) (g : str * list nat) : str :=   (* :429-431 *)
  (match f with Zone => $"ZGROUP" | Face => $"FGROUP" end) ++ sp :: """"%char :: fst g ++ """"%char :: nl ::
  concat (map (fun r => sp :: word_line (map nat_text r)) (table_rows 20 (snd g))).
Definition text_section (f : flag) (points : list (list flt)) (cells : list cellblock) (mat : option (list Z)) (fd : field) : res str :=   (* :338-339, 384-398, 422-431 *)
  let* blocks := translated f points cells in
  let* rows := mapM (text_cell f) (counted (first_id f cells) blocks) in
  let* groups := groups_of f cells mat fd in
  Ok ((match f with Zone => $"* ZONES" | Face => $"* FACES" end) ++ nl :: concat rows
      ++ match mat with
         | None => []
         | Some _ => (match f with Zone => $"* ZONE GROUPS" | Face => $"* FACE GROUPS" end) ++ nl :: concat (map (text_group f) groups)
         end).

(** ** Writing *)
Record grid := Grid {   (* Mesh, ../_mesh.py:52-80, with one array of materials or none (:319-324) *)
  g_points : list (list flt); g_cells : list cellblock; g_material : option (list Z); g_field : field }.
(** write, :314-339; [version] and [now] are the version of the package and the
    date, :333-334 *)
Definition write (binary : bool) (version now : str) (m : grid) : res str :=
  let* _ := guard (existsb (fun c => known zone_types (fst c)) (g_cells m)) ValueError in
  let section := if binary then binary_section else text_section in
  let* head := if binary then concatM [u32 1375135718; u32 3]
               else Ok ($"* FLAC3D grid produced by toughio v" ++ version ++ nl :: $"* " ++ now ++ [nl]) in
  let* points :=
    if binary then concatM (of_nat (List.length (g_points m)) :: map binary_point (numbered (g_points m)))
    else concatM (Ok ($"* GRIDPOINTS" ++ [nl]) :: map text_point (numbered (g_points m))) in
  let* zones := section Zone (g_points m) (g_cells m) (g_material m) (g_field m) in
  let* faces := section Face (g_points m) (g_cells m) (g_material m) (g_field m) in
  Ok (head ++ points ++ zones ++ faces).

(** ** Reading *)
(** Dictionaries with integer keys: point_ids and mapper, :119-125 *)
Section ZDict.
Context {B : Type}.
Fixpoint zget (k : Z) (d : list (Z * B)) : res B :=   (* :237, 294 *)
  match d with [] => Err KeyError | (k', v) :: r => if Z.eqb k k' then Ok v else zget k r end.
Fixpoint zset (k : Z) (v : B) (d : list (Z * B)) : list (Z * B) :=   (* :140, 147 *)
  match d with [] => [(k, v)] | (k', v') :: r => if Z.eqb k k' then (k', v) :: r else (k', v') :: zset k v r end.
End ZDict.
Fixpoint sset {B} (k : str) (v : B) (d : list (str * B)) : list (str * B) :=   (* field_data[name] = ..., :295 *)
  match d with [] => [(k, v)] | (k', v') :: r => if streqb k k' then (k', v) :: r else (k', v') :: sset k v r end.

(** The variables of read_buffer, :118-130; [mapper] and [slots] by flag *)
Record state := State {
  r_points : list (list flt); r_ids : list (Z * nat); r_cells : list cellblock; r_field : list (str * (nat * Z));
  r_zmap : list (Z * list nat); r_fmap : list (Z * list nat); r_zslots : list str; r_fslots : list str;
  r_cidx : nat; r_gidx : nat }.
Definition start : state := State [] [] [] [] [] [] [] [] 0 0.   (* :118-130 *)
Definition mapper (f : flag) (s : state) : list (Z * list nat) := match f with Zone => r_zmap s | Face => r_fmap s end.   (* :125 *)
Definition slots (f : flag) (s : state) : list str := match f with Zone => r_zslots s | Face => r_fslots s end.   (* :126 *)

(** :138-140, 167-170: the index of the point is the number of points before it *)
Definition add_point (s : state) (pid : Z) (p : list flt) : state :=
  State (r_points s ++ [p]) (zset pid (List.length (r_points s)) (r_ids s)) (r_cells s) (r_field s)
    (r_zmap s) (r_fmap s) (r_zslots s) (r_fslots s) (r_cidx s) (r_gidx s).
(** _update_cells, :280-288 *)
Definition update_cells (cells : list cellblock) (cell : list nat) (f : flag) : res (list cellblock) :=
  let* t := type_of f (List.length cell) in
  match rev cells with
  | (t', rows) :: r => if streqb t t' then Ok (rev ((t', rows ++ [cell]) :: r)) else Ok (cells ++ [(t, [cell])])
  | [] => Ok [(t, [cell])]
  end.
(** _read_cell after the integers are read, :237-241; then :145-148, 173-176 *)
Definition add_cell (f : flag) (s : state) (cid : Z) (ids : list Z) (b7 : bool) : res state :=
  let* cell := mapM (fun i => zget i (r_ids s)) ids in
  let* cell := if b7 then match rev cell with v :: _ => Ok (cell ++ [v]) | [] => Err IndexError end else Ok cell in
  let* cells := update_cells (r_cells s) cell f in
  let m := zset cid [r_cidx s] (mapper f s) in
  Ok (State (r_points s) (r_ids s) cells (r_field s)
    (match f with Zone => m | Face => r_zmap s end) (match f with Zone => r_fmap s | Face => m end)
    (r_zslots s) (r_fslots s) (S (r_cidx s)) (r_gidx s)).
(** _update_field_data and _update_slots, :291-311; :152-162, 179-189 *)
Definition add_group (f : flag) (s : state) (name slot : str) (data : list Z) : res state :=
  let* m := foldM (fun m cid => let* v := zget cid m in Ok (zset cid (v ++ [S (r_gidx s)]) m)) (mapper f s) data in
  let sl := if existsb (streqb slot) (slots f s) then slots f s else slots f s ++ [slot] in
  let* _ := guard (List.length sl <=? 1) ValueError in
  Ok (State (r_points s) (r_ids s) (r_cells s) (sset name (S (r_gidx s), numdim f) (r_field s))
    (match f with Zone => m | Face => r_zmap s end) (match f with Zone => r_fmap s | Face => m end)
    (match f with Zone => sl | Face => r_zslots s end) (match f with Zone => r_fslots s | Face => sl end)
    (r_cidx s) (S (r_gidx s))).

(** Binary: f.read(n) and struct.unpack, which wants all the bytes *)
Definition take_bytes (n : nat) (s : str) : res (str * str) :=   (* :134 *)
  let* _ := guard (n <=? List.length s) StructError in Ok (firstn n s, skipn n s).
Definition get_u (n : nat) (s : str) : res (Z * str) := let* bs := take_bytes n s in Ok (of_little (fst bs), snd bs).   (* :136, 143, 248 *)
Definition get_f64 (s : str) : res (flt * str) := let* bs := get_u 8 s in Ok (of_bits64 (fst bs), snd bs).   (* :217 *)
Fixpoint get_many {A} (get : str -> res (A * str)) (n : nat) (s : str) : res (list A * str) :=   (* :230, 259 *)
  match n with
  | O => Ok ([], s)
  | S m => let* xs := get s in let* ls := get_many get m (snd xs) in Ok (fst xs :: fst ls, snd ls)
  end.
(** for _ in range(n) with the state and the rest of the file *)
Fixpoint times {A} (n : nat) (step : A -> res A) (a : A) : res A :=   (* :137, 144, 151 *)
  match n with O => Ok a | S m => let* b := step a in times m step b end.
Definition binary_read_point (ss : state * str) : res (state * str) :=   (* :137-140, 216-218 *)
  let* pid := get_u 4 (snd ss) in
  let* xs := get_many get_f64 3 (snd pid) in
  Ok (add_point (fst ss) (fst pid) (fst xs), snd xs).
Definition binary_read_cell (f : flag) (ss : state * str) : res (state * str) :=   (* :144-148, 228-231 *)
  let* cid := get_u 4 (snd ss) in
  let* n := get_u 4 (snd cid) in
  let* ids := get_many (get_u 4) (Z.to_nat (fst n)) (snd n) in
  let* s := add_cell f (fst ss) (fst cid) (fst ids) (Z.eqb (fst n) 7) in
  Ok (s, snd ids).
Definition get_name (s : str) : res (str * str) :=   (* :248-255 *)
  let* n := get_u 2 s in
  let* name := take_bytes (Z.to_nat (fst n)) (snd n) in
  let* _ := guard (ascii_only (fst name)) Unmodelled in
  Ok name.
Definition binary_read_group (f : flag) (ss : state * str) : res (state * str) :=   (* :151-162, 246-259 *)
  let* name := get_name (snd ss) in
  let* slot := get_name (snd name) in
  let* n := get_u 4 (snd slot) in
  let* ids := get_many (get_u 4) (Z.to_nat (fst n)) (snd n) in
  let* s := add_group f (fst ss) (fst name) (fst slot) (fst ids) in
  Ok (s, snd ids).
Definition binary_read_section (f : flag) (ss : state * str) : res (state * str) :=   (* :142-162 *)
  let* n := get_u 4 (snd ss) in
  let* ss := times (Z.to_nat (fst n)) (binary_read_cell f) (fst ss, snd n) in
  let* n := get_u 4 (snd ss) in
  times (Z.to_nat (fst n)) (binary_read_group f) (fst ss, snd n).
Definition read_binary (s : str) : res state :=   (* :131-162 *)
  let* h := take_bytes 8 s in
  let* n := get_u 4 (snd h) in
  let* ss := times (Z.to_nat (fst n)) binary_read_point (start, snd n) in
  let* ss := binary_read_section Zone ss in
  let* ss := binary_read_section Face ss in
  Ok (fst ss).

(** Text *)
Definition words (line : str) : list str := split_ws (rstrip line).   (* :164, 191, 268 *)
Definition to_int (s : str) : res Z := match parse_int s with Some z => Ok z | None => Err ValueError end.   (* :220, 233, 237, 270 *)
Definition to_flt (s : str) : res flt := match parse_float s with Some x => Ok x | None => Err ValueError end.   (* :221 *)
Definition word (l : list str) (i : nat) : res str := item l i.   (* :220, 233, 235, 261 *)
(** The table of a group, with the lines left: :265-275 *)
Fixpoint read_table (ls : list str) : res (list Z * list str) :=
  match ls with
  | [] => Ok ([], [])
  | l :: r =>
      match words l with
      | [] => Ok ([], ls)
      | w :: ws =>
          if streqb w $"*" || streqb w $"ZGROUP" then Ok ([], ls)
          else
            let* xs := mapM to_int (w :: ws) in
            let* rest := read_table r in
            Ok (xs ++ fst rest, snd rest)
      end
  end.
Definition unquoted (s : str) : str := filter (fun c => negb (Ascii.eqb c """"%char)) s.   (* :261 *)
(** The loop, :164-191: it ends at the first line without words.  [fuel] bounds
    the number of lines. *)
Fixpoint text_loop (fuel : nat) (s : state) (ls : list str) : res state :=
  match fuel with
  | O => Err Diverge
  | S n =>
      match ls with
      | [] => Ok s
      | l :: r =>
          match words l with
          | [] => Ok s
          | w :: ws =>
              if streqb w $"G" then
                let* p := word ws 0 in
                let* pid := to_int p in
                let* xs := mapM to_flt (skipn 1 ws) in
                text_loop n (add_point s pid xs) r
              else if streqb w $"Z" || streqb w $"F" then
                let f := if streqb w $"Z" then Zone else Face in
                let* c := word ws 1 in
                let* cid := to_int c in
                let* ids := mapM to_int (skipn 2 ws) in
                let* t := word ws 0 in
                let* s := add_cell f s cid ids (streqb t $"B7") in
                text_loop n s r
              else if streqb w $"ZGROUP" || streqb w $"FGROUP" then
                let f := if streqb w $"ZGROUP" then Zone else Face in
                let* name := word ws 0 in
                let slot := if existsb (streqb $"SLOT") (w :: ws) then last ws [] else [] in
                let* table := read_table r in
                let* s := add_group f s (unquoted name) slot (fst table) in
                text_loop n s (snd table)
              else text_loop n s r
          end
      end
  end.
Definition read_text (s : str) : res state := let ls := lines s in text_loop (S (List.length ls)) start ls.   (* :163-191 *)

(** The arrays built from the variables: :193-211 *)
Definition assign (data : list nat) (m : list (Z * list nat)) : res (list nat) :=   (* :200-201 *)
  foldM (fun d v => match snd v with [i; g] => Ok (set_nth i g d) | _ => Err ValueError end) data m.
Definition read_zone (key : str) (row : list nat) : res (list nat) := let* order := assoc key to_meshio in take row order.   (* :208 *)
Record contents := Contents {   (* the mesh returned, :206-211 *)
  c_points : list (list flt); c_cells : list cellblock; c_groups : option (list (list nat)); c_field : list (str * (nat * Z)) }.
Definition finish (s : state) : res contents :=   (* :193-211 *)
  let* groups :=
    match r_field s with
    | [] => Ok None
    | _ =>
        let* _ := guard (negb (List.length (r_cells s) =? 0)) IndexError in
        let* d := if List.length (r_zslots s) =? 0 then Ok (repeat 0 (n_cells (r_cells s))) else assign (repeat 0 (n_cells (r_cells s))) (r_zmap s) in
        let* d := if List.length (r_fslots s) =? 0 then Ok d else assign d (r_fmap s) in
        Ok (Some (np_split d (removelast (cumsum 0 (map (fun c => List.length (snd c)) (r_cells s))))))
    end in
  let* cells := mapM (fun b => let* rows := mapM (read_zone (fst b)) (snd b) in Ok (fst b, rows)) (r_cells s) in
  Ok (Contents (r_points s) cells groups (r_field s)).
(** read, :94-106: a file with a null character among the first eight is binary *)
Definition read (s : str) : res contents :=
  let binary := existsb (Ascii.eqb (ascii_of_nat 0)) (firstn 8 s) in
  let* st := if binary then read_binary s else read_text s in
  finish st.
