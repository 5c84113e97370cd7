(** Tecplot mesh files, /repo/toughio/_mesh/tecplot/_tecplot.py (the lines cited below
    are those of this file unless another is named).  Text is ASCII; [repr] is what
    str prints for a 64-bit number, :449. *)
From Coq Require Import String Ascii Arith ZArith Bool List.
From Verif Require Import Base.Str Base.Digits Base.Flt Model.Py Model.Numpy Model.Mesh Model.F3grid Model.Avsucd.
From Verif Require Model.Dispatch Model.Output.
Import ListNotations.
Local Open Scope nat_scope.

(** meshio_to_tecplot_type, :44-51 *)
Definition zone_type : list (str * str) :=
  [($"triangle", $"FETRIANGLE"); ($"quad", $"FEQUADRILATERAL"); ($"tetra", $"FETETRAHEDRON"); ($"pyramid", $"FEBRICK");
   ($"wedge", $"FEBRICK"); ($"hexahedron", $"FEBRICK")].
(** tecplot_to_meshio_type, :32-41 *)
Definition type_of_zone : list (str * str) :=
  [($"TRIANGLE", $"triangle"); ($"FETRIANGLE", $"triangle"); ($"QUADRILATERAL", $"quad"); ($"FEQUADRILATERAL", $"quad");
   ($"TETRAHEDRON", $"tetra"); ($"FETETRAHEDRON", $"tetra"); ($"BRICK", $"hexahedron"); ($"FEBRICK", $"hexahedron")].
(** meshio_to_tecplot_order, :57-64 *)
Definition order_alone : list (str * list nat) :=
  [($"triangle", [0; 1; 2]); ($"quad", [0; 1; 2; 3]); ($"tetra", [0; 1; 2; 3]); ($"pyramid", [0; 1; 2; 3; 4; 4; 4; 4]);
   ($"wedge", [0; 1; 4; 3; 2; 2; 5; 5]); ($"hexahedron", [0; 1; 2; 3; 4; 5; 6; 7])].
(** meshio_to_tecplot_order_2, :67-74 *)
Definition order_mixed : list (str * list nat) :=
  [($"triangle", [0; 1; 2; 2]); ($"quad", [0; 1; 2; 3]); ($"tetra", [0; 1; 2; 2; 3; 3; 3; 3]); ($"pyramid", [0; 1; 2; 3; 4; 4; 4; 4]);
   ($"wedge", [0; 1; 4; 3; 2; 2; 5; 5]); ($"hexahedron", [0; 1; 2; 3; 4; 5; 6; 7])].
(** meshio_type_to_ndim, :77-84 *)
Definition dimension : list (str * nat) :=
  [($"triangle", 2); ($"quad", 2); ($"tetra", 3); ($"pyramid", 3); ($"wedge", 3); ($"hexahedron", 3)].

(** ** Writing *)
(** data[:, order] of each block, joined, :345-350, 362-367; the shape of a block
    without cells is not looked at *)
Definition connectivity (orders : list (str * list nat)) (blocks : list cellblock) : res (list (list nat)) :=
  let* ls := mapM (fun b => let* order := assoc (fst b) orders in mapM (fun row => take row order) (snd b)) blocks in Ok (concat ls).
Definition candidates (cells : list cellblock) : list (nat * cellblock) :=   (* :325-330 *)
  filter (fun b => known zone_type (fst (snd b))) (numbered cells).
(** The blocks written, the type of the zone and its cells, :339-367 *)
Definition chosen (cells : list cellblock) : res (list nat * str * list (list nat)) :=
  let blocks := candidates cells in
  match unique str_leb (map (fun b => fst (snd b)) blocks) with
  | [] => Err AssertionError
  | [t] =>
      let* zone := assoc t zone_type in
      let* conn := connectivity order_alone (map snd blocks) in
      Ok (map fst blocks, zone, conn)
  | _ =>
      let* dims := mapM (fun b => assoc (fst (snd b)) dimension) blocks in
      let blocks := if List.length (unique Nat.leb dims) =? 2 then map fst (filter (fun bd => snd bd =? 3) (combine blocks dims)) else blocks in
      let zone := if hd 3 dims =? 2 then $"FEQUADRILATERAL" else $"FEBRICK" in
      let* conn := connectivity order_mixed (map snd blocks) in
      Ok (map fst blocks, zone, conn)
  end.
Definition is_axis (k : str) : bool := existsb (streqb k) [$"X"; $"Y"; $"Z"; $"x"; $"y"; $"z"].   (* :380, 396 *)
(** The variables of an array, :379-389, 396-408; the rows of an array with [w] columns
    have [w] numbers *)
Definition variables_of (repr : flt -> str) (e : str * darray) : list (str * list str) :=
  if is_axis (fst e) then [] else
  match snd e with
  | Ints l => [(fst e, map print_Z l)]
  | Floats l => [(fst e, map repr l)]
  | Rows w l => map (fun i => (fst e ++ "_"%char :: nat_text i, map (fun r => repr (nth i r NaN)) l)) (seq 0 w)
  end.
Definition axis_names : list str := [$"X"; $"Y"; $"Z"].   (* :370, 375 *)
Definition axes (repr : flt -> str) (points : list (list flt)) : res (list (str * list str)) :=   (* :370-377; points without rows are not modelled *)
  match points with
  | [] => Err Unmodelled
  | p :: _ => mapM (fun i => let* xs := mapM (fun p => item p i) points in let* k := item axis_names i in Ok (k, map repr xs))
                (if List.length p =? 3 then [0; 1; 2] else [0; 1])
  end.
Definition quoted (s : str) : str := Output.quote :: s ++ [Output.quote].   (* :412, 415 *)
Definition location_text (from to : nat) : str :=   (* :425-429 *)
  if from =? to then nat_text from else nat_text from ++ "-"%char :: nat_text to.
(** write, :322-449 *)
Definition write (repr : flt -> str) (version : str) (points : list (list flt)) (cells : list cellblock)
    (point_data : list (str * darray)) (cell_data : list (str * list darray)) : res str :=
  let* ch := chosen cells in
  let '(ics, zone, conn) := ch in
  let* ax := axes repr points in
  let nodal := ax ++ concat (map (variables_of repr) point_data) in
  let* cs := mapM (fun e => if is_axis (fst e) then Ok [] else
    let* ds := take (snd e) ics in let* d := concatenate ds in Ok (variables_of repr (fst e, d))) cell_data in
  let vars := nodal ++ concat cs in
  let from := S (List.length nodal) in
  let to := match cell_data with [] => 0 | _ => List.length vars end in
  Ok ($"TITLE = " ++ quoted ($"Written by toughio v" ++ version) ++ [nl]
      ++ $"VARIABLES = " ++ join $", " (map (fun v => quoted (fst v)) vars) ++ [nl]
      ++ $"ZONE NODES = " ++ nat_text (List.length points) ++ $", ELEMENTS = " ++ nat_text (List.length conn) ++ $"," ++ [nl]
      ++ $"DATAPACKING = BLOCK, ZONETYPE = " ++ zone
      ++ (if from <=? to then $"," ++ [nl] ++ $"VARLOCATION = ([" ++ location_text from to ++ $"] = CELLCENTERED)" ++ [nl] else [nl])
      ++ concat (map (fun v => concat (map word_line (table_rows 20 (snd v)))) vars)
      ++ concat (map (fun c => word_line (map (fun v => nat_text (S v)) c)) conn)).
(** write for this format, ../_helpers.py:146-151 *)
Definition write_mesh (repr : flt -> str) (version : str) (m : ucd) : res str :=
  let* cell_data := mapM (fun e => let* ds := split_array (u_cells m) (snd e) in Ok (fst e, ds)) (u_cell_data m) in
  write repr version (u_points m) (u_cells m) (u_point_data m) cell_data.

(** ** Reading *)
(** The other lines of a zone, up to one which is empty or starts with a digit,
    :109-119 *)
Fixpoint zone_lines (ls : list str) : list str * list str :=
  match ls with
  | [] => ([], [])
  | l :: r =>
      match upper (strip l) with
      | [] => ([], ls)
      | c :: u => if is_digit c then ([], ls) else let (a, b) := zone_lines r in ((c :: u) :: a, b)
      end
  end.
(** The lines up to a zone, :95-101, 141-142; without a zone the names used after
    the loop are not defined, :146 *)
Fixpoint find_zone (variables : option (list str)) (ls : list str) : res (option (list str) * str * list str) :=
  match ls with
  | [] => Err UnboundLocalError
  | l :: r =>
      let line := strip l in
      if startswith $"VARIABLES" (upper line) then let* v := Output.read_variables line in find_zone (Some v) r
      else if startswith $"ZONE" (upper line) then Ok (variables, line, r)
      else match line with [] => Err UnboundLocalError | _ => find_zone variables r end
  end.
Definition entry (k : str) (zone : list (str * Output.zval)) : option Output.zval := Dispatch.tget k zone.   (* :248, 256, 264-276 *)
Definition text_of (v : option Output.zval) : res str :=   (* the values for these keys are strings, :14-29 *)
  match v with Some (Output.ZStr s) => Ok s | Some _ => Err Unmodelled | None => Err ValueError end.
Definition count_of (a b : str) (zone : list (str * Output.zval)) : res nat :=   (* :263-277; negative numbers are not modelled *)
  match (match entry a zone with Some v => Some v | None => entry b zone end) with
  | Some (Output.ZInt z) => let* _ := guard (0 <=? z)%Z Unmodelled in Ok (Z.to_nat z)
  | Some _ => Err Unmodelled
  | None => Err ValueError
  end.
(** is_cell_centered[i] = 1 for i from [a] to [b], :292-299; negative indices are not
    modelled *)
Definition centre (a b : Z) (flags : list bool) : res (list bool) :=
  foldM (fun fl z => let* _ := guard (0 <=? z)%Z Unmodelled in let* _ := guard (Z.to_nat z <? List.length fl) IndexError in
    Ok (set_nth (Z.to_nat z) true fl)) flags (map (fun i => (a + Z.of_nat i)%Z) (seq 0 (Z.to_nat (b - a + 1)))).
Definition inner (s : str) : str := removelast (tl s).   (* s[1:-1], :286, 291 *)
Definition one_location (flags : list bool) (location : str) : res (list bool) :=   (* :287-299 *)
  match split_on "="%char location with
  | [range; loc] =>
      if streqb (strip loc) $"CELLCENTERED" then
        match split_on "-"%char (inner range) with
        | [a] => let* a := to_int a in centre (a - 1) (a - 1) flags
        | a :: b :: _ => let* a := to_int a in let* b := to_int b in centre (a - 1) (b - 1) flags
        | [] => Err Unmodelled
        end
      else Ok flags
  | _ => Err ValueError
  end.
Record fezone := Fezone { z_nodes : nat; z_cells : nat; z_block : bool; z_type : str; z_centred : list bool }.   (* :301 *)
(** _parse_fezone, :246-301; [n] is the number of variables *)
Definition parse_fezone (zone : list (str * Output.zval)) (n : nat) : res fezone :=
  let* ft :=
    match entry $"F" zone with
    | Some f =>
        let* f := text_of (Some f) in
        let* _ := guard (streqb f $"FEPOINT" || streqb f $"FEBLOCK") ValueError in
        let* t := text_of (entry $"ET" zone) in Ok (f, t)
    | None =>
        match entry $"DATAPACKING" zone with
        | Some f => let* f := text_of (Some f) in let* t := text_of (entry $"ZONETYPE" zone) in Ok ($"FE" ++ f, t)
        | None => Err ValueError
        end
    end in
  let* nodes := count_of $"N" $"NODES" zone in
  let* cells := count_of $"E" $"ELEMENTS" zone in
  let block := streqb (fst ft) $"FEBLOCK" in
  let* flags :=
    if block then
      match entry $"NV" zone, entry $"VARLOCATION" zone with
      | Some (Output.ZInt z), _ => let* _ := guard (0 <=? z)%Z Unmodelled in Ok (map (fun i => (z <=? Z.of_nat i)%Z) (seq 0 n))
      | Some _, _ => Err Unmodelled
      | None, Some v => let* s := text_of (Some v) in foldM one_location (repeat false n) (split_on ","%char (inner s))
      | None, None => Ok (repeat false n)
      end
    else Ok (repeat false n) in
  Ok (Fezone nodes cells block (snd ft) flags).
(** _read_zone_data, :304-310: rows until there are enough; at the end of the file it
    goes on reading *)
Fixpoint data_rows (block : bool) (need : nat) (ls : list str) : res (list (list flt) * list str) :=
  if need =? 0 then Ok ([], ls) else
  match ls with
  | [] => Err Diverge
  | l :: r =>
      match words_of l with
      | [] => data_rows block need r
      | ws =>
          let* xs := mapM to_flt ws in
          let* out := data_rows block (need - if block then List.length xs else 1) r in
          Ok (xs :: fst out, snd out)
      end
  end.
Fixpoint cell_rows (need : nat) (ls : list str) : res (list (list Z)) :=   (* :312-318 *)
  if need =? 0 then Ok [] else
  match ls with
  | [] => Err Diverge
  | l :: r =>
      match words_of l with
      | [] => cell_rows need r
      | ws => let* zs := mapM to_int ws in let* out := cell_rows (need - 1) r in Ok (zs :: out)
      end
  end.
(** numpy.transpose, :147; rows of different lengths are not modelled *)
Definition transpose (rows : list (list flt)) : res (list (list flt)) :=
  let* _ := guard (rectangular rows) Unmodelled in
  let* _ := guard (negb (List.length rows =? 0)) Unmodelled in
  mapM (fun i => mapM (fun r => item r i) rows) (seq 0 (List.length (hd [] rows))).
Definition pop {B} (k : str) (d : list (str * B)) : res (B * list (str * B)) :=   (* :161-163 *)
  let* v := assoc k d in Ok (v, filter (fun e => negb (streqb (fst e) k)) d).
Definition node_number (z : Z) : res nat := let* _ := guard (1 <=? z)%Z Unmodelled in Ok (Z.to_nat (z - 1)).   (* cells - 1, :164; numbers below one are not modelled *)
(** numpy.column_stack, :161-163 *)
Definition columns (cs : list (list flt)) : res (list (list flt)) :=
  let* _ := guard (forallb (fun c => List.length c =? List.length (hd [] cs)) cs) ValueError in
  mapM (fun i => mapM (fun c => item c i) cs) (seq 0 (List.length (hd [] cs))).
(** read_buffer, :94-166, with the materials renamed as in ../_helpers.py:97-103 *)
Definition read_mesh (file : str) : res ucd :=
  let* head := find_zone None (lines file) in
  let '(variables, line, ls) := head in
  let (more, ls) := zone_lines ls in
  let* zone := Output.read_zone (join [sp] (line :: more)) in
  let* variables := match variables with Some v => Ok v | None => Err UnboundLocalError end in
  let* z := parse_fezone zone (List.length variables) in
  let num_data := map (fun c : bool => if c then z_cells z else z_nodes z) (z_centred z) in
  let* out := data_rows (z_block z) (if z_block z then list_sum num_data else z_nodes z) ls in
  let* cells := cell_rows (z_cells z) (snd out) in
  let* _ := guard (negb (List.length cells =? 0)) ValueError in
  let* _ := guard (forallb (fun c => List.length c =? List.length (hd [] cells)) cells) ValueError in
  let* arrays :=
    if z_block z then
      let* _ := guard (negb (List.length (fst out) =? 0)) ValueError in
      Ok (np_split (concat (fst out)) (cumsum 0 (removelast num_data)))
    else transpose (fst out) in
  let data := fold_left (fun d e => sset (fst e) (snd e) d) (combine variables arrays) [] in
  let* pc := foldM (fun pc iv => let* v := assoc (snd iv) data in
      if fst iv : bool then Ok (fst pc, sset (snd iv) v (snd pc)) else Ok (sset (snd iv) v (fst pc), snd pc))
    ([], []) (combine (z_centred z) variables) in
  let (point_data, cell_data) := pc in
  let x := if known point_data $"X" then $"X" else $"x" in
  let y := if known point_data $"Y" then $"Y" else $"y" in
  let zs := if known point_data $"Z" then [$"Z"] else if known point_data $"z" then [$"z"] else [] in
  let* cp := foldM (fun cp k => let* vr := pop k (snd cp) in Ok (fst cp ++ [fst vr], snd vr)) ([], point_data) (x :: y :: zs) in
  let* points := columns (fst cp) in
  let* t := assoc (z_type z) type_of_zone in
  let* conn := mapM (mapM node_number) cells in
  let cdata := map (fun e => (fst e, Floats (snd e))) cell_data in
  let cdata :=
    match find (fun e => is_material (fst e)) cdata with
    | Some (k, v) => sset $"material" v (filter (fun e => negb (streqb (fst e) k)) cdata)
    | None => cdata
    end in
  Ok (Ucd points [(t, conn)] (map (fun e => (fst e, Floats (snd e))) (snd cp)) cdata).
