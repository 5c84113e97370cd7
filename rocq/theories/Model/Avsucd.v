(** AVS-UCD files, /repo/toughio/_mesh/avsucd/_avsucd.py (the lines cited below are
    those of this file unless another is named).  Text is ASCII; coordinates are
    64-bit numbers; [repr] is what "{}".format prints for them, :223. *)
From Coq Require Import String Ascii Arith ZArith Bool List.
From Verif Require Import Base.Str Base.Digits Base.Flt Base.FltInt Model.Py Model.Numpy Model.Mesh Model.F3grid.
Import ListNotations.
Local Open Scope nat_scope.

(** meshio_to_avsucd_type, :17-26 *)
Definition short_types : list (str * str) :=
  [($"vertex", $"pt"); ($"line", $"line"); ($"triangle", $"tri"); ($"quad", $"quad"); ($"tetra", $"tet");
   ($"pyramid", $"pyr"); ($"wedge", $"prism"); ($"hexahedron", $"hex")].
Definition long_types : list (str * str) := map (fun e => (snd e, fst e)) short_types.   (* avsucd_to_meshio_type, :27 *)
(** meshio_to_avsucd_order, :30-39 *)
Definition to_ucd : list (str * list nat) :=
  [($"vertex", [0]); ($"line", [0; 1]); ($"triangle", [0; 1; 2]); ($"quad", [0; 1; 2; 3]); ($"tetra", [0; 1; 3; 2]);
   ($"pyramid", [4; 0; 1; 2; 3]); ($"wedge", [3; 4; 5; 0; 1; 2]); ($"hexahedron", [4; 5; 6; 7; 0; 1; 2; 3])].
(** avsucd_to_meshio_order, :42-45 *)
Definition of_ucd : list (str * list nat) := map (fun e => (fst e, if streqb (fst e) $"pyramid" then [1; 2; 3; 4; 0] else snd e)) to_ucd.
(** _materials with the names the formats register, ../_helpers.py:21, 51-52;
    ../avsucd/__init__.py:10, ../flac3d/__init__.py:10 *)
Definition materials : list str := [$"material"; $"gmsh:physical"; $"medit:ref"; $"avsucd:material"; $"flac3d:group"].
Definition is_material (k : str) : bool := existsb (streqb k) materials.   (* ../_helpers.py:58 *)

(** Arrays of data: of integers, of 64-bit numbers, or with [w] columns *)
Inductive darray := Ints (l : list Z) | Floats (l : list flt) | Rows (w : nat) (l : list (list flt)).   (* :173-179 *)
Record ucd := Ucd {   (* Mesh, ../_mesh.py:31-72: one array per name for the cells *)
  u_points : list (list flt); u_cells : list cellblock; u_point_data : list (str * darray); u_cell_data : list (str * darray) }.
Definition width (d : darray) : nat := match d with Rows w _ => w | _ => 1 end.   (* :174, 177 *)
Definition rows (d : darray) : list (list flt) :=   (* numpy.column_stack, :200, 211 *)
  match d with Ints l => map (fun z => [flt_of_Z z]) l | Floats l => map (fun x => [x]) l | Rows _ l => l end.
(** mesh.split(v), ../_helpers.py:150 *)
Definition split_array (cells : list cellblock) (d : darray) : res (list darray) :=
  match d with
  | Ints l => let* ls := split cells l in Ok (map Ints ls)
  | Floats l => let* ls := split cells l in Ok (map Floats ls)
  | Rows w l => let* ls := split cells l in Ok (map (Rows w) ls)
  end.
(** numpy.concatenate of arrays of one kind, :177, 211, 232; ../_helpers.py:99 *)
Definition append (a b : darray) : res darray :=
  match a, b with
  | Ints l, Ints k => Ok (Ints (l ++ k))
  | Floats l, Floats k => Ok (Floats (l ++ k))
  | Rows w l, Rows w' k => let* _ := guard (w =? w') ValueError in Ok (Rows w (l ++ k))
  | _, _ => Err Unmodelled
  end.
Definition concatenate (ds : list darray) : res darray :=   (* :177, 211, 232 *)
  match ds with [] => Err ValueError | d :: r => foldM append d r end.

(** ** Writing *)
Definition widened (p : list flt) : list flt := match p with [x; y] => [x; y; fzero false] | _ => p end.   (* :160-167 *)
(** _write_nodes, :221-223 *)
Definition node_line (repr : flt -> str) (ip : nat * list flt) : res str :=
  match snd ip with
  | [x; y; z] => Ok (word_line (nat_text (S (fst ip)) :: map repr [x; y; z]))
  | _ => Err ValueError
  end.
(** int(material[i]), :243 *)
Definition to_whole (d : darray) (i : nat) : res Z :=
  match d with
  | Ints l => item l i
  | Floats l => let* x := item l i in match x with Fin _ _ _ => match int_of_flt x with Some z => Ok z | None => Err ValueError end | Inf _ => Err OverflowError | NaN => Err ValueError end
  | Rows _ _ => Err Unmodelled
  end.
(** _write_cells, :238-246: one cell, with its number *)
Definition ucd_cell (material : darray) (ic : nat * (str * list nat)) : res str :=
  let* order := assoc (fst (snd ic)) to_ucd in
  let* cell := take (snd (snd ic)) order in
  let* m := to_whole material (fst ic) in
  let* t := assoc (fst (snd ic)) short_types in
  Ok (word_line (nat_text (S (fst ic)) :: print_Z m :: t :: map (fun v => nat_text (S v)) cell)).
Definition material_array (n : nat) (cell_data : list (str * list darray)) : res darray :=   (* :228-234; get_material_key, ../_helpers.py:55-60 *)
  match find (fun e => is_material (fst e)) cell_data with
  | Some e => concatenate (snd e)
  | None => Ok (Ints (repeat 0%Z n))
  end.
(** numpy.column_stack, :200, 209, 256 *)
Definition stack (a : list (list flt)) (d : darray) : res (list (list flt)) :=
  let* _ := guard (List.length a =? List.length (rows d)) ValueError in Ok (map (fun p => fst p ++ snd p) (combine a (rows d))).
(** _write_data, :249-257 *)
Definition data_text (n : nat) (data : list (str * darray)) : res str :=
  let* array := foldM stack (repeat [] n) (map snd data) in
  Ok (word_line (nat_text (List.length data) :: map (fun e => nat_text (width (snd e))) data)
      ++ concat (map (fun e => fst e ++ $", real" ++ [nl]) data)
      ++ concat (map (fun ir => word_line (nat_text (S (fst ir)) :: map (fmt_e 14) (snd ir))) (numbered array))).
Definition total (data : list (str * darray)) : nat := list_sum (map (fun e => width (snd e)) data).   (* :182-183 *)
Definition write (repr : flt -> str) (version : str) (points : list (list flt)) (cells : list cellblock)
    (point_data : list (str * darray)) (cell_data : list (str * list darray)) : res str :=   (* :158-218 *)
  let n := List.length points in
  let* data := mapM (fun e => let* d := concatenate (snd e) in Ok (fst e, d)) (filter (fun e => negb (is_material (fst e))) cell_data) in
  let* nodes := mapM (node_line repr) (numbered (map widened points)) in
  let* material := material_array (n_cells cells) cell_data in
  let* lines := mapM (ucd_cell material) (numbered (all_cells cells)) in
  let* pdata := if total point_data =? 0 then Ok [] else data_text n point_data in
  let* cdata := if total data =? 0 then Ok [] else data_text (n_cells cells) data in
  Ok ($"# Written by toughio v" ++ version ++ [nl]
      ++ word_line (map nat_text [n; n_cells cells; total point_data; total data; 0])
      ++ concat nodes ++ concat lines ++ pdata ++ cdata).
(** write for this format, ../_helpers.py:146-151 *)
Definition write_mesh (repr : flt -> str) (version : str) (m : ucd) : res str :=
  let* cell_data := mapM (fun e => let* ds := split_array (u_cells m) (snd e) in Ok (fst e, ds)) (u_cell_data m) in
  write repr version (u_points m) (u_cells m) (u_point_data m) cell_data.

(** ** Reading: f.readline() gives "" at the end *)
Definition readline (ls : list str) : str * list str := match ls with [] => ([], []) | l :: r => (l, r) end.   (* :58, 90, 101 *)
Fixpoint skip_comments (ls : list str) : str * list str :=   (* :57-60 *)
  match ls with
  | [] => ([], [])
  | l :: r => match strip l with c :: _ => if Ascii.eqb c "#"%char then skip_comments r else (strip l, r) | [] => ([], r) end
  end.
Definition words_of (line : str) : list str := split_ws (strip line).   (* :91, 101, 129, 144 *)
(** for _ in range(n), one line each *)
Fixpoint each_line {A} (n : nat) (step : A -> list str -> res A) (a : A) (ls : list str) : res (A * list str) :=   (* :89-91, 100-101, 143-144 *)
  match n with
  | O => Ok (a, ls)
  | S k => let '(l, r) := readline ls in let* b := step a (words_of l) in each_line k step b r
  end.
Definition whole (x : flt) : res Z :=   (* int(pid), :93 *)
  match x with Fin _ _ _ => match int_of_flt x with Some z => Ok z | None => Err ValueError end | Inf _ => Err OverflowError | NaN => Err ValueError end.
Definition rectangular {A} (l : list (list A)) : bool :=   (* numpy.array(data), :92, 121 *)
  match l with [] => true | p :: r => forallb (fun q => List.length q =? List.length p) r end.
(** _read_nodes, :87-94; lines of different lengths are not modelled *)
Definition read_nodes (n : nat) (ls : list str) : res (list (Z * nat) * list (list flt) * list str) :=
  let* out := each_line n (fun data ws => let* xs := mapM to_flt ws in Ok (data ++ [xs])) [] ls in
  let* _ := guard (rectangular (fst out)) Unmodelled in
  let* _ := guard (negb (n =? 0)) IndexError in
  let* heads := mapM (fun p => item p 0) (fst out) in
  let* pids := mapM whole heads in
  Ok (fold_left (fun d ip => zset (snd ip) (fst ip) d) (numbered pids) [], map (skipn 1) (fst out), snd out).
(** _read_cells, :97-125 *)
Definition add_ucd_cell (cells : list cellblock) (t : str) (cell : list nat) : list cellblock :=   (* :107-112 *)
  match rev cells with
  | (t', rows) :: r => if streqb t' t then rev ((t', rows ++ [cell]) :: r) else cells ++ [(t, [cell])]
  | [] => [(t, [cell])]
  end.
Definition cells_so_far := (list cellblock * list Z * list (Z * nat))%type.   (* :98-99: cells, materials, cell_ids; the materials of all blocks, joined in ../_helpers.py:98-100 *)
Definition read_ucd_cell (pids : list (Z * nat)) (st : cells_so_far) (line : list str) : res cells_so_far :=   (* :101-116 *)
  let '(cells, mats, ids) := st in
  let* w := item line 0 in let* cid := to_int w in
  let* w := item line 1 in let* mat := to_int w in
  let* w := item line 2 in let* t := assoc w long_types in
  let* nodes := mapM to_int (skipn 3 line) in
  let* corner := mapM (fun i => zget i pids) nodes in
  Ok (add_ucd_cell cells t corner, mats ++ [mat], zset cid (List.length mats) ids).
Definition reordered (b : cellblock) : res cellblock :=   (* :119-122 *)
  let* _ := guard (rectangular (snd b)) Unmodelled in
  let* order := assoc (fst b) of_ucd in
  let* data := mapM (fun row => take row order) (snd b) in
  Ok (fst b, data).
Definition read_cells (n : nat) (pids : list (Z * nat)) (ls : list str) : res (list (Z * nat) * list cellblock * list Z * list str) :=   (* :97-125 *)
  let* out := each_line n (read_ucd_cell pids) ([], [], []) ls in
  let '(cells, mats, ids) := fst out in
  let* cells := mapM reordered cells in
  Ok (ids, cells, mats, snd out).
(** The arrays of _read_data while they are filled: numpy.empty, :137-141 *)
Definition partial_array := (nat * list (option (list flt)))%type.
Fixpoint read_labels (n : nat) (sizes : list Z) (ls : list str) (data : list (str * partial_array)) : res (list (str * nat) * list (str * partial_array) * list str) :=   (* :134-141 *)
  match sizes with
  | [] => Ok ([], data, ls)
  | z :: r =>
      let '(l, ls) := readline ls in
      let label := map (fun c => if Ascii.eqb c sp then "_"%char else c) (strip (match split_on ","%char (strip l) with w :: _ => w | [] => [] end)) in
      let* _ := guard (0 <=? z)%Z ValueError in
      let w := Z.to_nat z in
      (* one name with two sizes: assignments between arrays of different shapes are not modelled *)
      let* _ := match assoc label data with Ok (w', _) => guard (w' =? w) Unmodelled | Err _ => Ok tt end in
      let* out := read_labels n r ls (sset label (w, repeat None n) data) in
      let '(labels, data, ls) := out in
      Ok ((label, w) :: labels, data, ls)
  end.
(** :146-155: the values from column [j] on *)
Fixpoint read_values (line : list str) (eid j : nat) (labels : list (str * nat)) (data : list (str * partial_array)) : res (list (str * partial_array)) :=
  match labels with
  | [] => Ok data
  | (label, w) :: r =>
      let* vals :=
        if w =? 1 then let* s := item line (j + 1) in let* x := to_flt s in Ok [x]
        else
          let* xs := mapM to_flt (firstn w (skipn (j + 1) line)) in
          (* assignment of a list to a row: a single number is repeated *)
          match xs with
          | [x] => Ok (repeat x w)
          | _ => let* _ := guard (List.length xs =? w) ValueError in Ok xs
          end in
      let* a := assoc label data in
      read_values line eid (j + w) r (sset label (fst a, set_nth eid (Some vals) (snd a)) data)
  end.
Definition filled (a : partial_array) : res darray :=   (* entries never assigned are arbitrary, :137-141 *)
  let* l := mapM (fun o => match o with Some r => Ok r | None => Err Unmodelled end) (snd a) in
  if fst a =? 1 then let* xs := mapM (fun r => item r 0) l in Ok (Floats xs) else Ok (Rows (fst a) l).
Definition read_data (n : nat) (ids : list (Z * nat)) (ls : list str) : res (list (str * darray) * list str) :=   (* :128-155 *)
  let '(l, ls) := readline ls in
  let* sizes := mapM to_int (skipn 1 (words_of l)) in
  let* out := read_labels n sizes ls [] in
  let '(labels, data, ls) := out in
  let* out := each_line n (fun data line =>
    let* w := item line 0 in let* i := to_int w in let* eid := zget i ids in
    read_values line eid 0 labels data) data ls in
  let* data := mapM (fun e => let* d := filled (snd e) in Ok (fst e, d)) (fst out) in
  Ok (data, snd out).
Definition sized (z : Z) : nat := Z.to_nat z.   (* range, :89, 100, 143 *)
(** read_buffer, :55-84, with the arrays of the blocks joined and the materials
    renamed as in ../_helpers.py:97-103.  The arrays of the data of the cells are cut at
    the ends of the blocks, :79-82, and joined again, ../_helpers.py:98-100. *)
Definition read_mesh (file : str) : res ucd :=
  let '(line, ls) := skip_comments (lines file) in
  let* counts := mapM to_int (firstn 4 (split_ws line)) in
  match counts with
  | [nn; nc; np; ne] =>
      let* nodes := read_nodes (sized nn) ls in
      let '(pids, points, ls) := nodes in
      let* cs := read_cells (sized nc) pids ls in
      let '(cids, cells, mats, ls) := cs in
      let* pd := if (np =? 0)%Z then Ok ([], ls) else read_data (sized nn) pids ls in
      let* cd := if (ne =? 0)%Z then Ok ([], snd pd) else read_data (sized nc) cids (snd pd) in
      let* cdata := mapM (fun e =>
        let* blocks := (let cut {A} (l : list A) := np_split l (removelast (cumsum 0 (map (fun c => List.length (snd c)) cells))) in
          match snd e with Ints l => Ok (map Ints (cut l)) | Floats l => Ok (map Floats (cut l)) | Rows w l => Ok (map (Rows w) (cut l)) end) in
        let* d := concatenate blocks in Ok (fst e, d)) (fst cd) in
      let* _ := guard (negb (List.length cells =? 0)) ValueError in
      let data := fold_left (fun d e => sset (fst e) (snd e) d) cdata [($"avsucd:material", Ints mats)] in
      let* data :=
        match find (fun e => is_material (fst e)) data with
        | Some (k, v) => Ok (sset $"material" v (filter (fun e => negb (streqb (fst e) k)) data))
        | None => Ok data
        end in
      Ok (Ucd points cells (fst pd) data)
  | _ => Err ValueError
  end.
