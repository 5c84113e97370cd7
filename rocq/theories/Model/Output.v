(** Outputs of a simulation: /repo/toughio/_io/output (CSV, PetraSim, Tecplot and
    the TOUGH listing), their recognition and the reordering by labels. *)
From Coq Require Import String Ascii ZArith Bool List.
From Verif Require Import Base.Str Base.Digits Base.Flt Model.Py Model.Records Model.Dispatch.
Import ListNotations.
Local Open Scope Z_scope.

(** file_type: "element" or "connection", _io/output/_helpers.py:107 *)
Inductive ftype := Element | Connection.
Definition is_element (t : ftype) : bool := match t with Element => true | Connection => false end.   (* csv/_csv.py:102 *)

(** Output, _io/output/_common.py:10.  A label is the list of its cell names:
    one for an element, two for a connection.  [o_labels] is None when the
    format has no labels (Tecplot: numpy.array(None)); the columns hold floats
    (None cells of a column are not modelled). *)
Record output := Output
  { o_type : ftype; o_format : str; o_time : option flt;
    o_labels : option (list (list str)); o_data : table (list flt) }.

(** ** _common.py *)

(** numpy.transpose of a list of rows, _common.py:21: the columns.  No rows give
    an empty array, hence no column; ragged rows are not modelled. *)
Definition transpose {A} (rows : list (list A)) : res (list (list A)) :=
  match rows with
  | [] => Ok []
  | r :: _ =>
      if forallb (fun q => Nat.eqb (List.length q) (List.length r)) rows
      then Ok (map (fun j => flat_map (fun q => match nth_error q j with Some x => [x] | None => [] end) rows)
                   (seq 0 (List.length r)))
      else Err Unmodelled
  end.

(** {k: v for k, v in zip(headers, columns)}, _common.py:21 *)
Definition to_table {A} (headers : list str) (cols : list A) : table A :=
  fold_left (fun acc kv => tset (fst kv) (snd kv) acc) (combine headers cols) [].

(** mapper = {k: v for v, k in enumerate(data.labels)}, _common.py:37: the last
    position of a label. *)
Fixpoint last_index (l : str) (labels : list str) : option nat :=
  match labels with
  | [] => None
  | x :: r => match last_index l r with
              | Some i => Some (S i)
              | None => if streqb l x then Some 0%nat else None
              end
  end.
(** x[idx], _common.py:39-42 *)
Definition pick {A} (idx : list nat) (x : list A) : res (list A) :=
  mapM (fun i => match nth_error x i with Some v => Ok v | None => Err IndexError end) idx.

(** The labels of elements, as hashable strings, _common.py:37; the labels of
    connections are arrays, which are not hashable. *)
Definition element_label (l : list str) : res str := match l with [s] => Ok s | _ => Err TypeError end.

(** reorder_labels, _common.py:32-44 *)
Definition reorder_labels (o : output) (labels : list str) : res output :=
  match o_labels o with
  | None => Err TypeError
  | Some own =>
      let* _ := guard (Nat.eqb (List.length own) (List.length labels)) ValueError in
      let* keys := mapM element_label own in
      let* idx := mapM (fun l => match last_index l keys with Some i => Ok i | None => Err KeyError end) labels in
      let* own' := pick idx own in
      let* data := mapM (fun kv => let* v := pick idx (snd kv) in Ok (fst kv, v)) (o_data o) in
      Ok (Output (o_type o) (o_format o) (o_time o) (Some own') data)
  end.

(** One time step of to_output, _common.py:15-24 *)
Definition step_output (t : ftype) (fmt : str) (headers : list str)
    (s : option flt * option (list (list str)) * list (list flt)) : res output :=
  let '(time, labels, rows) := s in
  let* cols := transpose rows in
  Ok (Output t fmt time labels (to_table headers cols)).
(** to_output, _common.py:13-29; [steps] is zip(times, labels, variables). *)
Definition to_output (t : ftype) (fmt : str) (order : option (list str)) (headers : list str)
    (steps : list (option flt * option (list (list str)) * list (list flt))) : res (list output) :=
  let* outs := mapM (step_output t fmt headers) steps in
  match order with
  | Some l => if is_element t then mapM (fun o => reorder_labels o l) outs else Ok outs
  | None => Ok outs
  end.

(** ** csv/_csv.py *)

(** The columns in the order of the writers: X, Y, Z first, csv/_csv.py:103-106,
    petrasim/_petrasim.py:52-56, tecplot/_tecplot.py:61-71 *)
Definition is_xyz (k : str) : bool := streqb k $"X" || streqb k $"Y" || streqb k $"Z".
Definition has {A} (k : str) (t : table A) : bool := match tget k t with Some _ => true | None => false end.   (* csv/_csv.py:103-105 *)
Definition columns {A} (t : table A) : list str :=   (* csv/_csv.py:103-106 *)
  filter (fun k => has k t) [$"X"; $"Y"; $"Z"] ++ filter (fun k => negb (is_xyz k)) (map fst t).

(** header_to_unit, csv/_csv.py:12-33 *)
Definition header_to_unit : table str :=
  map (fun p => (lit (fst p), lit (snd p)))
    [("ELEM", ""); ("X", "(M)"); ("Y", "(M)"); ("Z", "(M)"); ("PRES", "(PA)"); ("P", "(PA)");
     ("TEMP", "(DEC-C)"); ("T", "(DEC-C)"); ("PCAP_GL", "(PA)"); ("PCAP", "(PA)");
     ("DEN_G", "(KG/M**3)"); ("DG", "(KG/M**3)"); ("DEN_L", "(KG/M**3)"); ("DW", "(KG/M**3)");
     ("ELEM1", ""); ("ELEM2", ""); ("HEAT", "(W)"); ("FLOW", "(KG/S)"); ("FLOW_G", "(KG/S)");
     ("FLOW_L", "(KG/S)")]%string.

Definition quote : ascii := """".   (* csv/_csv.py:61, 119 *)
(** A text right-justified in 18 characters, between quotes, csv/_csv.py:119 *)
Definition quoted (s : str) : str := quote :: rjust 18 s ++ [quote].
(** "{:20.12e}".format(x), csv/_csv.py:124 *)
Definition number (x : flt) : str := rjust 20 (fmt_e 12 x).
(** ",".join(l) + "\n", csv/_csv.py:119 *)
Definition comma_line (l : list str) : str := join [","%char] l ++ [nl].

(** One cell of a row, csv/_csv.py:136: [fmt] is the format of the column (a
    quoted text when the header starts with ELEM).  A number in a quoted column
    prints its str(), which is not modelled. *)
Inductive cell := KText (s : str) | KNum (x : flt).
Definition fmt_cell (header : str) (c : cell) : res str :=   (* csv/_csv.py:131-141 *)
  match startswith $"ELEM" header, c with
  | true, KText s => Ok (quoted s)
  | false, KNum x => Ok (number x)
  | false, KText _ => Err ValueError
  | true, KNum _ => Err Unmodelled
  end.
(** out.data[k][i], csv/_csv.py:133 *)
Definition datum (o : output) (i : nat) (k : str) : res flt :=
  match tget k (o_data o) with
  | None => Err KeyError
  | Some c => match nth_error c i with Some x => Ok x | None => Err IndexError end
  end.
(** A row of the table, csv/_csv.py:131-141 *)
Definition csv_row (headers : list str) (o : output) (i : nat) (label : list str) : res str :=
  let* values := mapM (datum o i) (filter (fun k => negb (startswith $"ELEM" k)) headers) in
  let record := map KText label ++ map KNum values in
  let* cells := mapM (fun hc => fmt_cell (fst hc) (snd hc)) (combine headers record) in
  Ok (comma_line cells).
(** The line of a time, between quotes, csv/_csv.py:128 *)
Definition csv_time (t : flt) : str := quote :: $"TIME [sec]  " ++ fmt_e 8 t ++ [quote; nl].
(** enumerate(out.labels), csv/_csv.py:131 *)
Definition enumerate {A} (l : list A) : list (nat * A) := combine (seq 0 (List.length l)) l.
(** A time step, csv/_csv.py:126-141 *)
Definition csv_step (headers : list str) (o : output) : res (list str) :=
  match o_time o with
  | None => Err TypeError
  | Some t =>
      match o_labels o with
      | None => Err TypeError
      | Some labels =>
          let* rows := mapM (fun il => csv_row headers o (fst il) (snd il)) (enumerate labels) in
          Ok (csv_time t :: rows)
      end
  end.
(** The headers, csv/_csv.py:101-106 *)
Definition csv_headers (o : output) : list str :=
  (if is_element (o_type o) then [$"ELEM"] else [$"ELEM1"; $"ELEM2"]) ++ columns (o_data o).
(** output[-1], csv/_csv.py:101 *)
Fixpoint last_output (outs : list output) : option output :=
  match outs with [] => None | [o] => Some o | _ :: r => last_output r end.
(** write, csv/_csv.py:99-141: the lines of the file. *)
Definition csv_write (outs : list output) : res (list str) :=
  match last_output outs with
  | None => Err IndexError
  | Some o =>
      let headers := csv_headers o in
      let units := map (fun h => match tget h header_to_unit with Some u => u | None => $" (-)" end) headers in
      let* steps := mapM (csv_step headers) outs in
      Ok (comma_line (map quoted headers) :: comma_line (map quoted units) :: concat steps)
  end.

(** s.replace of quotes by nothing, csv/_csv.py:61 *)
Definition unquote (s : str) : str := filter (fun c => negb (Ascii.eqb c quote)) s.
(** float(s), csv/_csv.py:91 *)
Definition to_float (s : str) : res flt :=
  match parse_float s with Some x => Ok x | None => Err ValueError end.
(** f.readline(): the next line, empty at the end, csv/_csv.py:61 *)
Definition readline (ls : list str) : str * list str := match ls with [] => ([], []) | l :: r => (l, r) end.

(** State of the loop: the time steps read, last first, each with its rows,
    last first, csv/_csv.py:72-75. *)
Definition csv_state := list (option flt * list (list str * list flt)).
(** One line, csv/_csv.py:80-92 *)
Definition csv_line (n : nat) (st : csv_state) (line : str) : res csv_state :=
  let cells := split_on "," line in
  let first := hd [] cells in
  if startswith $"TIME" first then
    match split_ws first with
    | [] => Err IndexError
    | w => let* t := to_float (last w []) in Ok ((Some t, []) :: st)
    end
  else
    let* xs := mapM (fun l => to_float (strip l)) (skipn n cells) in
    match st with
    | [] => Err IndexError
    | (t, rows) :: r => Ok ((t, (map strip (firstn n cells), xs) :: rows) :: r)
    end.
(** The loop over the following lines, csv/_csv.py:79-94: ends at a blank line. *)
Fixpoint csv_loop (n : nat) (st : csv_state) (ls : list str) : res csv_state :=
  match ls with
  | [] => Ok st
  | l :: r => match unquote (strip l) with
              | [] => Ok st
              | line => let* st := csv_line n st line in csv_loop n st r
              end
  end.
(** _read_csv, csv/_csv.py:58-96 *)
Definition read_csv (t : ftype) (ls : list str) : res (list str * csv_state) :=
  let n := if is_element t then 1%nat else 2%nat in
  let (l1, ls) := readline ls in
  let headers := map strip (split_on "," (unquote l1)) in
  let (_, ls) := readline ls in
  let (l3, ls) := readline ls in
  let start := if startswith (quote :: $"TIME") l3 then [] else [(None, [])] in
  let* st := match strip (unquote l3) with
             | [] => Ok start
             | line => let* st := csv_line n start line in csv_loop n st ls
             end in
  Ok (headers, map (fun s => (fst s, rev (snd s))) (rev st)).
(** Lists of one length, as numpy.array needs them, csv/_csv.py:49-51 *)
Definition rectangular {A} (rows : list (list A)) : bool :=
  match rows with [] => true | r :: _ => forallb (fun q => Nat.eqb (List.length q) (List.length r)) rows end.
(** numpy.array(variables), csv/_csv.py:49-51: equally many rows in every step,
    all of one length. *)
Definition same_shape {A B C} (steps : list (A * list (B * list C))) : bool :=
  rectangular (map snd steps) && rectangular (concat (map (fun s => map snd (snd s)) steps)).
(** read, csv/_csv.py:36-55 *)
Definition csv_read (t : ftype) (fmt : str) (order : option (list str)) (ls : list str) : res (list output) :=
  let* hs := read_csv t ls in
  let (headers, steps) := hs in
  if same_shape steps then
    to_output t fmt order (skipn (if is_element t then 1 else 2)%nat headers)
      (map (fun s => (fst s, Some (map fst (snd s)), map snd (snd s))) steps)
  else Err Unmodelled.

(** ** petrasim/_petrasim.py *)

(** "{:>18}".format(out.labels[i]), petrasim/_petrasim.py:69-76: an array (the
    label of a connection) does not accept the format. *)
Definition fmt_label (o : output) (i : nat) : res str :=
  match o_labels o with
  | None => Err IndexError
  | Some ls => match nth_error ls i with
               | None => Err IndexError
               | Some [s] => Ok (rjust 18 s)
               | Some _ => Err TypeError
               end
  end.
(** A row, petrasim/_petrasim.py:74-77; a missing time is a TypeError. *)
Definition petrasim_row (o : output) (i : nat) (row : list flt) : res str :=
  match o_time o with
  | None => Err TypeError
  | Some t =>
      let* l := fmt_label o i in
      Ok (comma_line (number t :: l :: rjust 20 (print_Z (Z.of_nat i + 1)) :: map number row))
  end.
(** A time step, petrasim/_petrasim.py:67-78.  [transpose] of the columns gives
    the rows. *)
Definition petrasim_step (headers : list str) (o : output) : res (list str) :=
  let* cols := mapM (fun k => match tget k (o_data o) with Some c => Ok c | None => Err KeyError end) headers in
  let* rows := transpose cols in
  mapM (fun ir => petrasim_row o (fst ir) (snd ir)) (enumerate rows).
(** write, petrasim/_petrasim.py:49-78 *)
Definition petrasim_write (outs : list output) : res (list str) :=
  match last_output outs with
  | None => Err IndexError
  | Some o =>
      let headers := columns (o_data o) in
      let* steps := mapM (petrasim_step headers) outs in
      Ok (comma_line (map (rjust 18) ([$"TIME [sec]"; $"ELEM"; $"INDEX"] ++ headers)) :: concat steps)
  end.

(** Order of two floats that are not NaN (numpy.unique and ==,
    petrasim/_petrasim.py:38-39): the mantissas at a common exponent. *)
Definition signed (s : bool) (m : Z) : Z := if s then - m else m.
Definition fcompare (x y : flt) : comparison :=   (* petrasim/_petrasim.py:38-39 *)
  match x, y with
  | Fin s m e, Fin s' m' e' =>
      Z.compare (signed s m * 2 ^ (e - Z.min e e')) (signed s' m' * 2 ^ (e' - Z.min e e'))
  | Inf s, Inf s' => if Bool.eqb s s' then Eq else if s then Lt else Gt
  | Inf s, _ => if s then Lt else Gt
  | _, Inf s => if s then Gt else Lt
  | _, _ => Eq
  end.
Definition is_nan (x : flt) : bool := match x with NaN => true | _ => false end.   (* petrasim/_petrasim.py:38 *)
(** numpy.unique(times), petrasim/_petrasim.py:38: increasing, without
    repetition; NaN is not modelled. *)
Fixpoint insert_time (t : flt) (l : list flt) : list flt :=
  match l with
  | [] => [t]
  | u :: r => match fcompare t u with Lt => t :: l | Eq => l | Gt => u :: insert_time t r end
  end.
Definition unique_times (ts : list flt) : list flt := fold_left (fun l t => insert_time t l) ts [].   (* petrasim/_petrasim.py:38 *)
Definition same_time (x y : flt) : bool := match fcompare x y with Eq => true | _ => false end.   (* petrasim/_petrasim.py:39 *)

(** A row read: time, label, values, petrasim/_petrasim.py:26-29 *)
Definition petrasim_line (line : str) : res (flt * str * list flt) :=
  let cells := split_on "," line in
  let* t := to_float (hd [] cells) in
  match nth_error cells 1 with
  | None => Err IndexError
  | Some l => let* xs := mapM to_float (skipn 3 cells) in Ok (t, strip l, xs)
  end.
(** petrasim/_petrasim.py:22-31 *)
Fixpoint petrasim_rows (ls : list str) : res (list (flt * str * list flt)) :=
  match ls with
  | [] => Ok []
  | l :: r => match strip l with
              | [] => Ok []
              | line => let* x := petrasim_line line in
                        let* xs := petrasim_rows r in Ok (x :: xs)
              end
  end.
(** read, petrasim/_petrasim.py:13-46 *)
Definition petrasim_read (t : ftype) (fmt : str) (order : option (list str)) (ls : list str) : res (list output) :=
  let (l1, ls) := readline ls in
  let headers := map strip (skipn 3 (split_on "," (strip l1))) in
  let* rows := petrasim_rows ls in
  if existsb (fun r => is_nan (fst (fst r))) rows then Err Unmodelled
  else if rectangular (map snd rows) then
    to_output t fmt order headers
      (map (fun time =>
              let own := filter (fun r => same_time (fst (fst r)) time) rows in
              (Some time, Some (map (fun r => [snd (fst r)]) own), map snd own))
           (unique_times (map (fun r => fst (fst r)) rows)))
  else Err Unmodelled.

(** ** tecplot/_tecplot.py *)

(** write, tecplot/_tecplot.py:58-90 *)
Definition tecplot_row (row : list flt) : str := spaces 18 ++ concat (map number row) ++ [nl].
Definition tecplot_zone (t : flt) (n : nat) : str :=   (* tecplot/_tecplot.py:79-90 *)
  $" ZONE T=""" ++ rjust 14 (fmt_e 7 t) ++ $" SEC""  I = " ++ rjust 8 (print_Z (Z.of_nat n)) ++ [nl].
(** tecplot/_tecplot.py:79-90; a missing time is a TypeError. *)
Definition tecplot_step (headers : list str) (o : output) : res (list str) :=
  match o_time o with
  | None => Err TypeError
  | Some t =>
      match tget $"X" (o_data o) with
      | None => Err KeyError
      | Some x =>
          let* cols := mapM (fun k => match tget k (o_data o) with Some c => Ok c | None => Err KeyError end) headers in
          let* rows := transpose cols in
          Ok (tecplot_zone t (List.length x) :: map tecplot_row rows)
      end
  end.
Definition tecplot_header (headers : list str) : str :=   (* tecplot/_tecplot.py:75-76 *)
  rjust 18 $"VARIABLES       =" ++ concat (map (rjust 18) headers) ++ [nl].
Definition tecplot_write (outs : list output) : res (list str) :=   (* tecplot/_tecplot.py:58-90 *)
  match last_output outs with
  | None => Err IndexError
  | Some o =>
      if has $"X" (o_data o) && has $"Y" (o_data o) then
        let headers := columns (o_data o) in
        let* steps := mapM (tecplot_step headers) outs in
        Ok (tecplot_header headers :: concat steps)
      else Err ValueError
  end.

(** s.replace(",", " "), _mesh/tecplot/_tecplot.py:172 *)
Definition commas_out (s : str) : str := map (fun c => if Ascii.eqb c "," then sp else c) s.
Definition contains (c : ascii) (s : str) : bool := existsb (Ascii.eqb c) s.   (* _mesh/tecplot/_tecplot.py:175-184 *)
Definition endswith_c (c : ascii) (s : str) : bool := match rev s with x :: _ => Ascii.eqb c x | [] => false end.   (* _mesh/tecplot/_tecplot.py:175-184 *)
Definition startswith_c (c : ascii) (s : str) : bool := match s with x :: _ => Ascii.eqb c x | [] => false end.   (* _mesh/tecplot/_tecplot.py:175-184 *)
(** The names: a token with an unbalanced quote is joined to the next by "_",
    _mesh/tecplot/_tecplot.py:175-184. *)
Fixpoint var_names (ws : list str) : res (list str) :=
  match ws with
  | [] => Ok []
  | w :: r =>
      if contains quote w && negb (startswith_c quote w && endswith_c quote w) then
        match r with
        | [] => Err IndexError
        | w' :: r' => let* vs := var_names r' in Ok (unquote (w ++ "_"%char :: w') :: vs)
        end
      else let* vs := var_names r in Ok (unquote w :: vs)
  end.
Definition smem (s : str) (l : list str) : bool := existsb (streqb s) l.   (* _mesh/tecplot/_tecplot.py:186-190 *)
(** _read_variables, _mesh/tecplot/_tecplot.py:169-192 *)
Definition read_variables (line : str) : res (list str) :=
  match nth_error (split_on "=" line) 1 with
  | None => Err IndexError
  | Some rest =>
      let* vs := var_names (split_ws (commas_out rest)) in
      let* _ := guard (smem $"X" vs || smem $"x" vs) ValueError in
      let* _ := guard (smem $"Y" vs || smem $"y" vs) ValueError in
      Ok vs
  end.

(** s.find(sub): the part before and from the first occurrence,
    _mesh/tecplot/_tecplot.py:201 *)
Fixpoint find_sub (sub s : str) : option (str * str) :=
  if startswith sub s then Some ([], s)
  else match s with
       | [] => None
       | c :: r => match find_sub sub r with Some (a, b) => Some (c :: a, b) | None => None end
       end.
(** s.replace(sub, by) for a non-empty [sub], _mesh/tecplot/_tecplot.py:207;
    [skip] characters of an occurrence are still to be dropped. *)
Fixpoint replace_sub (skip : nat) (sub by_ s : str) : str :=
  match s with
  | [] => []
  | c :: r =>
      match skip with
      | S k => replace_sub k sub by_ r
      | O => if startswith sub s then by_ ++ replace_sub (List.length sub - 1) sub by_ r
             else c :: replace_sub O sub by_ r
      end
  end.
(** The title and the line with the title replaced,
    _mesh/tecplot/_tecplot.py:200-209.  A title without closing quote is not
    modelled. *)
Definition zone_title (line : str) : res (option str * str) :=
  match find_sub [quote] line with
  | None => Ok (None, line)
  | Some (_, from) =>
      match find_sub [quote] (tl from) with
      | None => Err Unmodelled
      | Some (title, _) => Ok (Some title, replace_sub O (quote :: title ++ [quote]) $"PLACEHOLDER" line)
      end
  end.
(** VARLOCATION is taken out, _mesh/tecplot/_tecplot.py:211-218 *)
Definition zone_varlocation (line : str) : res (table str * str) :=
  match find_sub $"VARLOCATION" line with
  | None => Ok ([], line)
  | Some (before, _) =>
      match find_sub $"(" line, find_sub $")" line with
      | Some (a, _), Some (b, _) =>
          Ok ([($"VARLOCATION", filter (fun c => negb (Ascii.eqb c sp)) (slice (List.length a) (S (List.length b)) line))],
              before ++ skipn (S (List.length b)) line)
      | _, _ => Err Unmodelled
      end
  end.
(** s.replace("=", ""), _mesh/tecplot/_tecplot.py:228 *)
Definition no_equal (s : str) : str := filter (fun c => negb (Ascii.eqb c "=")) s.
(** zone_key_to_type, _mesh/tecplot/_tecplot.py:14-29 *)
Definition zone_int_keys : list str := map lit ["I"; "J"; "K"; "N"; "NODES"; "E"; "ELEMENTS"; "NV"]%string.
Definition zone_str_keys : list str := map lit ["T"; "F"; "ET"; "DATAPACKING"; "ZONETYPE"; "VARLOCATION"]%string.   (* _mesh/tecplot/_tecplot.py:14-29 *)
Inductive zval := ZInt (z : Z) | ZStr (s : str).   (* _mesh/tecplot/_tecplot.py:14-29 *)
Definition zone_value (k v : str) : res zval :=   (* _mesh/tecplot/_tecplot.py:221-237 *)
  if smem k zone_int_keys then match parse_int v with Some z => Ok (ZInt z) | None => Err ValueError end
  else if smem k zone_str_keys then Ok (ZStr v) else Err KeyError.
(** The key/value pairs, _mesh/tecplot/_tecplot.py:221-237; the last token alone
    is ignored. *)
Fixpoint zone_pairs (z : table zval) (ws : list str) : res (table zval) :=
  match ws with
  | [] => Ok z
  | w :: r =>
      match r with
      | [] => Ok z
      | w' :: r' =>
          if contains "=" w then
            if negb (startswith_c "=" w || endswith_c "=" w) then
              match split_on "=" w with
              | [k; v] => let* x := zone_value k v in zone_pairs (tset k x z) r
              | _ => Err ValueError
              end
            else let k := no_equal w in let* x := zone_value k w' in zone_pairs (tset k x z) r'
          else let* x := zone_value w (no_equal w') in zone_pairs (tset w x z) r'
      end
  end.
(** _read_zone, _mesh/tecplot/_tecplot.py:195-243 *)
Definition read_zone (line : str) : res (table zval) :=
  let line := skipn 5 line in
  let* tl_ := zone_title line in
  let (title, line) := tl_ in
  let* vl := zone_varlocation line in
  let (z, line) := vl in
  let z := map (fun kv => (fst kv, ZStr (snd kv))) z in
  let* z := zone_pairs z (filter (fun w => negb (streqb w $"=")) (split_ws (commas_out line))) in
  match title with
  | Some (c :: t) => Ok (tset $"T" (ZStr (c :: t)) z)
  | _ => Ok z
  end.

(** zone["T"] as a float and zone["I"], tecplot/_tecplot.py:31-35 *)
Definition output_zone (line : str) : res (option flt * Z) :=
  let* z := read_zone line in
  let* t := match tget $"T" z with
            | Some (ZStr s) => match split_ws s with
                               | [] => Err IndexError
                               | w :: _ => let* x := to_float w in Ok (Some x)
                               end
            | Some (ZInt _) => Err AttributeError
            | None => Ok None
            end in
  match tget $"I" z with
  | Some (ZInt n) => Ok (t, n)
  | _ => Err ValueError
  end.
(** for _ in range(zone["I"]): a row per line, tecplot/_tecplot.py:37-42 *)
Fixpoint tecplot_rows (n : nat) (ls : list str) : res (list (list flt) * list str) :=
  match n with
  | O => Ok ([], ls)
  | S n => let (l, ls) := readline ls in
           let* row := mapM to_float (split_ws (strip l)) in
           let* q := tecplot_rows n ls in
           Ok (row :: fst q, snd q)
  end.
(** The loop over zones, tecplot/_tecplot.py:28-51; [line] is the current line,
    [zone] the last zone.  Every turn consumes a line, or reads the end. *)
Fixpoint tecplot_loop (fuel : nat) (zone : option (option flt * Z)) (line : str) (ls : list str)
    : res (list (option flt * list (list flt))) :=
  match fuel with
  | O => Err Diverge
  | S fuel =>
      let* zone := if startswith $"ZONE" line then let* z := output_zone line in Ok (Some z) else Ok zone in
      match zone with
      | None => Err UnboundLocalError
      | Some (t, n) =>
          let* q := tecplot_rows (Z.to_nat n) ls in
          let (rows, ls) := q in
          let* _ := guard (rectangular rows) Unmodelled in
          let (l, ls) := readline ls in
          match strip (upper l) with
          | [] => Ok [(t, rows)]
          | line => let* r := tecplot_loop fuel zone line ls in Ok ((t, rows) :: r)
          end
      end
  end.
(** The line with VARIABLES, tecplot/_tecplot.py:18-21: without one the loop
    reads the end of the file forever. *)
Fixpoint find_variables (ls : list str) : res (str * list str) :=
  match ls with
  | [] => Err Diverge
  | l :: r => if startswith $"VARIABLES" (upper (strip l)) then Ok (strip l, r) else find_variables r
  end.
(** read, tecplot/_tecplot.py:14-55 *)
Definition tecplot_read (t : ftype) (fmt : str) (order : option (list str)) (ls : list str) : res (list output) :=
  let* vl := find_variables ls in
  let (line, ls) := vl in
  let* headers := read_variables line in
  let (l, ls) := readline ls in
  let* steps := tecplot_loop (S (List.length ls)) None (strip (upper l)) ls in
  to_output t fmt order headers (map (fun s => (fst s, None, snd s)) steps).

(** ** get_output_type, _helpers.py:48-75 *)
Inductive oformat := FTough | FSave | FTecplot | FPetrasim | FCsv.
Definition get_output_type (ls : list str) : res (ftype * oformat) :=   (* _helpers.py:48-75 *)
  let (l, ls) := readline ls in
  match strip l with
  | [] => let (l, _) := readline ls in
          if startswith $"@@@@@" (strip l) then Ok (Element, FTough) else Err ValueError
  | line =>
      if startswith $"1      @@@@@" line then Ok (Element, FTough)
      else if startswith $"INCON" line then Ok (Element, FSave)
      else if contains "=" line then Ok (Element, FTecplot)
      else if startswith $"TIME" line then Ok (Element, FPetrasim)
      else
        let header := strip (unquote (hd [] (split_on "," line))) in
        if streqb header $"ELEM" then Ok (Element, FCsv)
        else if streqb header $"ELEM1" then Ok (Connection, FCsv)
        else Err ValueError
  end.

(** ** tough/_tough.py: the listing *)

(** State of _read_table, tough/_tough.py:42-43: the time steps with their rows
    (last first), the headers when assigned, the label length argument, [iend]
    when assigned, and [first]. *)
Record listing := Listing
  { k_steps : list (flt * list (list str * list flt)); k_headers : option (list str);
    k_length : option nat; k_iend : option nat; k_first : bool }.

(** _str2float, tough/_tough.py:135-141 *)
Definition str2float_nan (s : str) : flt := match str2float s with Ok x => x | Err _ => NaN end.
(** not label_length, tough/_tough.py:78 *)
Definition no_length (l : option nat) : bool := match l with None | Some O => true | _ => false end.

(** A line of the table, tough/_tough.py:75-126.  The parser of the first line
    cannot raise ValueError (tough/_tough.py:96, 135-141), so the branch
    tough/_tough.py:99-120 is never taken. *)
Definition listing_row (t : ftype) (k : listing) (line : str) : res listing :=
  if nonempty (strip (firstn 10 line)) && negb (startswith $"ELEM" (strip line)) then
    let line := lstrip line in
    let k :=
      if k_first k && no_length (k_length k) then
        let n := get_label_length (firstn 9 line) in
        Listing (k_steps k) (k_headers k) (Some n)
          (Some (if is_element t then n else 2 * n + 2)%nat) (k_first k)
      else k in
    match k_iend k, k_length k, k_steps k with
    | Some iend, Some n, (time, rows) :: r =>
        let label := if is_element t then [firstn n line]
                     else [firstn n line; slice (n + 2) iend line] in
        let xs := map str2float_nan (split_ws (skipn iend line)) in
        Ok (Listing ((time, (label, xs) :: rows) :: r) (k_headers k) (Some n) (Some iend) false)
    | None, _, _ => Err UnboundLocalError
    | _, None, _ => Err UnboundLocalError
    | _, _, [] => Err IndexError
    end
  else Ok k.

(** Where the loops of tough/_tough.py:44-130 stand: looking for TOTAL TIME, at
    the time, looking for the headers, looking for the first row, in the table. *)
Inductive place := Outside | AtTime | AtHeader | AtRows | Inside.
(** One line in each place, tough/_tough.py:44-130 *)
Definition listing_line (t : ftype) (p : place) (k : listing) (line : str) : res (place * listing) :=
  match p with
  | Outside => Ok (if startswith $"TOTAL TIME" (strip line) then AtTime else Outside, k)
  | AtTime =>
      match split_ws (strip line) with
      | [] => Err IndexError
      | w :: _ => let* x := to_float w in
                  Ok (AtHeader, Listing ((x, []) :: k_steps k) (k_headers k) (k_length k) (k_iend k) (k_first k))
      end
  | AtHeader =>
      if startswith (if is_element t then $"ELEM." else $"ELEM1") (strip line) then
        Ok (AtRows, Listing (k_steps k) (Some (split_ws (strip line))) (k_length k) (k_iend k) (k_first k))
      else Ok (AtHeader, k)
  | AtRows =>
      if nonempty (strip line) then let* k := listing_row t k line in Ok (Inside, k)
      else Ok (AtRows, k)
  | Inside =>
      if startswith $"@@@@@" (skipn 1 line) then Ok (Outside, k)
      else let* k := listing_row t k line in Ok (Inside, k)
  end.
(** The end of the file in each place, tough/_tough.py:50, 61-62, 69, 128 *)
Fixpoint listing_loop (t : ftype) (p : place) (k : listing) (ls : list str) : res listing :=
  match ls with
  | [] => match p with
          | Outside => Ok k
          | AtHeader => Err ValueError
          | _ => Err StopIteration
          end
  | l :: r => let* pk := listing_line t p k l in listing_loop t (fst pk) (snd pk) r
  end.
(** read, tough/_tough.py:16-35: the index column is dropped. *)
Definition listing_read (t : ftype) (fmt : str) (order : option (list str)) (label_length : option nat)
    (ls : list str) : res (list output) :=
  let* k := listing_loop t Outside (Listing [] None label_length None true) ls in
  match k_headers k with
  | None => Err UnboundLocalError
  | Some headers =>
      let steps := map (fun s => (fst s, rev (snd s))) (rev (k_steps k)) in
      if same_shape steps then
        to_output t fmt order (skipn (if is_element t then 2 else 3)%nat headers)
          (map (fun s => (Some (fst s), Some (map fst (snd s)), map (fun r => skipn 1 (snd r)) (snd s))) steps)
      else Err Unmodelled
  end.

(** read, _helpers.py:99-113: the reader of the recognised type.  SAVE is read
    by save/_save.py, modelled in Save.v. *)
Definition read_output (order : option (list str)) (connection : bool) (label_length : option nat)
    (ls : list str) : res (list output) :=
  let* tf := get_output_type ls in
  let (t, f) := tf in
  match f with
  | FTough => listing_read (if connection then Connection else t) $"tough" order label_length ls
  | FSave => Err Unmodelled
  | FTecplot => tecplot_read t $"tecplot" order ls
  | FPetrasim => petrasim_read t $"petrasim" order ls
  | FCsv => csv_read t $"csv" order ls
  end.
