(** Conversion to and from grids of pyvista, /repo/toughio/_mesh/_mesh.py:283-348,
    907-1003 and the tables of _common.py.  A grid keeps the arrays it was made of;
    with VTK 9 its offsets do not count the sizes stored between the cells. *)
From Coq Require Import String Ascii Arith ZArith Bool List.
From Verif Require Import Base.Str Base.Digits Model.Py Model.Numpy Model.Mesh Model.MeshOps.
Import ListNotations.
Local Open Scope nat_scope.

(** vtk_to_meshio_type, _common.py:6-48 *)
Definition vtk_types : list (nat * str) :=
  [(0, $"empty"); (1, $"vertex"); (3, $"line"); (5, $"triangle"); (7, $"polygon"); (9, $"quad"); (10, $"tetra"); (12, $"hexahedron"); (13, $"wedge"); (14, $"pyramid");
   (15, $"penta_prism"); (16, $"hexa_prism"); (21, $"line3"); (22, $"triangle6"); (23, $"quad8"); (24, $"tetra10"); (25, $"hexahedron20"); (26, $"wedge15");
   (27, $"pyramid13"); (28, $"quad9"); (29, $"hexahedron27"); (30, $"quad6"); (31, $"wedge12"); (32, $"wedge18"); (33, $"hexahedron24"); (34, $"triangle7"); (35, $"line4")].
Definition type_vtk (t : str) : res nat := assoc t (map (fun e => (snd e, fst e)) vtk_types).   (* meshio_to_vtk_type, _common.py:49 *)
(** d[k] for numbers, _common.py:52-79 *)
Fixpoint lookup {B} (k : nat) (d : list (nat * B)) : res B :=
  match d with [] => Err KeyError | (k', x) :: r => if k =? k' then Ok x else lookup k r end.
(** vtk_type_to_numnodes, _common.py:52-79 *)
Definition vtk_numnodes : list (nat * nat) :=
  [(0, 0); (1, 1); (3, 2); (5, 3); (9, 4); (10, 4); (12, 8); (13, 6); (14, 5); (15, 10); (16, 12); (21, 3); (22, 6); (23, 8); (24, 10); (25, 20); (26, 15);
   (27, 13); (28, 9); (29, 27); (30, 6); (31, 12); (32, 18); (33, 24); (34, 7); (35, 4)].

(** pyvista.UnstructuredGrid: offset, cells, celltypes, points, point_arrays and
    cell_arrays, _mesh.py:326-346 *)
Record grid (C V : Type) := Grid {
  g_offset : list nat;
  g_cells : list nat;
  g_types : list nat;
  g_points : list (list C);
  g_point_arrays : list (str * list V);
  g_cell_arrays : list (str * list V)
}.
Arguments Grid {C V}. Arguments g_offset {C V}. Arguments g_cells {C V}. Arguments g_types {C V}. Arguments g_points {C V}.
Arguments g_point_arrays {C V}. Arguments g_cell_arrays {C V}.

(** The offsets VTK 9 finds in the array of cells: the number of nodes before each
    cell, without the sizes; [skip] nodes of the current cell are left
    (the library, not the code: _mesh.py:326-331, 942, 957-959) *)
Fixpoint vtk9_offset (skip nodes : nat) (l : list nat) : list nat :=
  match l with
  | [] => []
  | x :: r => match skip with O => nodes :: vtk9_offset x nodes r | S k => vtk9_offset k (S nodes) r end
  end.

(** The loop over the blocks, _mesh.py:305-319: offsets, cells and types so far, and
    next_offset *)
Definition add_block (vtk9 : bool) (st : list nat * list nat * list nat * nat) (b : cellblock) : res (list nat * list nat * list nat * nat) :=
  let '(offset, cells, types, next) := st in
  let* vtk := type_vtk (fst b) in
  let* numnodes := lookup vtk vtk_numnodes in
  let n := List.length (snd b) in
  let cells := cells ++ concat (map (cons numnodes) (snd b)) in
  let types := types ++ repeat vtk n in
  if vtk9 then Ok (offset, cells, types, next)
  else
    let offset := offset ++ map (fun i => next + i * (numnodes + 1)) (seq 0 n) in
    match rev offset with
    | [] => Err IndexError
    | last :: _ => Ok (offset, cells, types, last + numnodes + 1)
    end.
(** to_pyvista, _mesh.py:283-348; [dim] of the mesh is 2 or 3; data values are kept
    (those at points become binary64 numbers) *)
Definition to_pyvista {C V} (zero : C) (vtk9 : bool) (m : mesh C V) : res (grid C V) :=
  let* (st : list nat * list nat * list nat * nat) := foldM (add_block vtk9) ([], [], [], 0) (cells m) in
  let '(offset, flat, types, _) := st in
  let pts := if dim m =? 2 then map (fun p => p ++ [zero]) (points m) else points m in
  let* _ := guard (negb (List.length (cells m) =? 0)) ValueError in
  Ok (Grid (if vtk9 then vtk9_offset 0 0 flat else offset) flat types pts (point_data m) (cell_data m)).

(** One cell of the grid: its type and its nodes; [c] counts the cells before it,
    _mesh.py:955-974 *)
Definition get_cell (vtk9 : bool) (flat : list nat) (c offset type : nat) : res (str * list nat) :=
  let* numnodes := item flat offset in
  let start := if vtk9 then offset + 1 + c else offset + 1 in
  let cell := firstn numnodes (skipn start flat) in
  let* cell := (if type =? 8 then take cell [0; 1; 3; 2] else if type =? 11 then take cell [0; 1; 3; 2; 4; 5; 7; 6] else Ok cell) in
  let type := if (type =? 8) || (type =? 11) then type + 1 else type in
  if type =? 7 then Ok ($"polygon" ++ print_Z (Z.of_nat numnodes), cell)
  else let* t := lookup type vtk_types in Ok (t, cell).
(** The cells in blocks, _mesh.py:976-979, [done] being the blocks before, last
    first *)
Definition append_cell (done : list cellblock) (tc : str * list nat) : list cellblock :=
  match done with
  | (t, rows) :: r => if streqb t (fst tc) then (t, rows ++ [snd tc]) :: r else (fst tc, [snd tc]) :: done
  | [] => [(fst tc, [snd tc])]
  end.
Definition blocks_of (l : list (str * list nat)) : list cellblock := rev (fold_left append_cell l []).   (* _mesh.py:953-979 *)
(** numpy.array of rows: the same number of nodes in each (otherwise an error or an
    array of objects, by the version of numpy), _mesh.py:981-982 *)
Definition same_lengths (b : cellblock) : bool :=
  match snd b with [] => true | r :: rs => forallb (fun x => List.length x =? List.length r) rs end.
(** {k.replace(" ", "_"): v}, a later value taking the place of an earlier one of the
    same name, _mesh.py:985-988 *)
Definition underscored (k : str) : str := map (fun c => if Ascii.eqb c " " then "_"%char else c) k.
Fixpoint put {B} (k : str) (x : B) (d : list (str * B)) : list (str * B) :=   (* _mesh.py:985-988 *)
  match d with [] => [(k, x)] | (k', y) :: r => if streqb k k' then (k', x) :: r else (k', y) :: put k x r end.
Definition renamed {B} (d : list (str * B)) : list (str * B) :=   (* _mesh.py:985-988 *)
  fold_left (fun acc kv => put (underscored (fst kv)) (snd kv) acc) d [].
Definition has_key {B} (k : str) (d : list (str * B)) : bool := existsb (fun kv => streqb k (fst kv)) d.   (* _mesh.py:998 *)
(** from_pyvista, _mesh.py:907-1003; [num] is a number as data value *)
Definition from_pyvista {C V} (num : Z -> V) (vtk9 : bool) (material : str) (g : grid C V) : res (mesh C V) :=
  let* _ := guard (forallb (fun t => existsb (Nat.eqb t) (map fst vtk_types) || (t =? 8) || (t =? 11)) (g_types g)) ValueError in
  let pairs := combine (g_offset g) (g_types g) in
  let* l := mapM (fun cot => get_cell vtk9 (g_cells g) (fst cot) (fst (snd cot)) (snd (snd cot))) (combine (seq 0 (List.length pairs)) pairs) in
  let blocks := blocks_of l in
  let* _ := guard (forallb same_lengths blocks) Unmodelled in
  let data := renamed (g_cell_arrays g) in
  if has_key $"material" data then Ok (Mesh 3 (g_points g) blocks (renamed (g_point_arrays g)) data [])
  else Ok (Mesh 3 (g_points g) blocks (renamed (g_point_arrays g)) (data ++ [($"material", repeat (num 1%Z) (n_cells blocks))]) [(material, (1%Z, 3%Z))]).
