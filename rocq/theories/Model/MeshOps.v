(** Operations on meshes, /repo/toughio/_mesh/_mesh.py.  Coordinates are of any
    type with the operations used; values of data arrays (scalars or vectors) are
    of any type. *)
From Coq Require Import String Ascii Arith ZArith Bool List.
From Verif Require Import Base.Str Model.Py Model.Numpy Model.Mesh.
Import ListNotations.
Local Open Scope nat_scope.

(** Mesh, _mesh.py:30-72, without point and cell sets; [dim] is points.shape[1] *)
Record mesh (C V : Type) := Mesh {
  dim : nat;
  points : list (list C);
  cells : list cellblock;
  point_data : list (str * list V);
  cell_data : list (str * list V);
  field_data : list (str * (Z * Z))
}.
Arguments Mesh {C V}. Arguments dim {C V}. Arguments points {C V}. Arguments cells {C V}.
Arguments point_data {C V}. Arguments cell_data {C V}. Arguments field_data {C V}.

(** numpy.tile along rows, for data of scalars or vectors (with more dimensions,
    tile repeats along another axis), _mesh.py:137-139, 161-163 *)
Definition tile {A} (n : nat) (l : list A) : list A := concat (repeat l n).
(** a[:, [i, j]] = a[:, [j, i]], _mesh.py:129 *)
Definition swap {A} (i j : nat) (l : list A) : list A :=
  match nth_error l i, nth_error l j with
  | Some x, Some y => set_nth i y (set_nth j x l)
  | _, _ => l
  end.
(** a[axis] += h, _mesh.py:133 *)
Definition shift {C} (add : C -> C -> C) (axis : nat) (h : C) (p : list C) : list C :=
  match nth_error p axis with Some x => set_nth axis (add x h) p | None => p end.
(** The layers of points above the first, _mesh.py:131-134 *)
Fixpoint layers {C} (add : C -> C -> C) (axis : nat) (hs : list C) (extra : list (list C)) : list (list C) :=
  match hs with
  | [] => []
  | h :: r => let extra := map (shift add axis h) extra in extra ++ layers add axis r extra
  end.
(** The points in three dimensions, _mesh.py:123-129; [eqb] compares coordinates
    as Python does in a set *)
Definition lift {C} (eqb : C -> C -> bool) (zero : C) (axis dim : nat) (pts : list (list C)) : res (list (list C)) :=
  if dim =? 3 then
    let* col := mapM (fun p => item p axis) pts in
    match col with
    | [] => Err ValueError
    | x :: r => if forallb (eqb x) r then Ok pts else Err ValueError
    end
  else if dim =? 2 then
    let pts := map (fun p => p ++ [zero]) pts in
    Ok (if axis =? 2 then pts else map (swap axis 2) pts)
  else Err Unmodelled.
(** The prisms over one block, _mesh.py:142-157 *)
Definition extruded_type (t : str) : option str :=
  if streqb t $"triangle" then Some $"wedge" else if streqb t $"quad" then Some $"hexahedron" else None.
Definition prisms (npts nh : nat) (rows : list (list nat)) : list (list nat) :=   (* _mesh.py:151-156 *)
  concat (map (fun i => map (fun c => map (Nat.add (i * npts)) c ++ map (Nat.add ((i + 1) * npts)) c) rows) (seq 0 nh)).
(** extrude_to_3d, _mesh.py:98-174, returning the new mesh.  Blocks of other types
    disappear but keep their data, as in the code. *)
Definition extrude {C V} (add : C -> C -> C) (eqb : C -> C -> bool) (zero : C) (heights : list C) (axis : nat) (m : mesh C V) :
  res (mesh C V) :=
  let* _ := guard (axis <? 3) ValueError in
  let npts := List.length (points m) in
  let nh := List.length heights in
  let* pts := lift eqb zero axis (dim m) (points m) in
  let* pieces := mapM (fun kv => let* ps := split (cells m) (snd kv) in Ok (fst kv, ps)) (cell_data m) in
  let cells' := flat_map (fun b => match extruded_type (fst b) with
                                   | Some t => [(t, prisms npts nh (snd b))]
                                   | None => []
                                   end) (cells m) in
  let data' := map (fun kv => (fst kv, concat (map (fun bp =>
                 match extruded_type (fst (fst bp)) with Some _ => tile nh (snd bp) | None => snd bp end)
                 (combine (cells m) (snd kv))))) pieces in
  Ok (Mesh 3 (pts ++ layers add axis heights pts) cells'
        (map (fun kv => (fst kv, tile (nh + 1) (snd kv))) (point_data m)) data'
        (map (fun kv => (fst kv, (fst (snd kv), 3%Z))) (field_data m))).

(** prune_duplicates, _mesh.py:176-224, returning the new mesh; [leb] is the order
    of coordinates (no NaN, both zeros the same) *)
Definition prune {C V} (leb : C -> C -> bool) (m : mesh C V) : res (mesh C V) :=
  let row := lexb leb in
  let uniq := unique row (points m) in
  let pinv := unique_inverse row (points m) in
  let* (pcp : list (list C) * list (str * list V) * list cellblock) :=
    (if List.length uniq <? List.length (points m) then
       let* pd := mapM (fun kv => let* v := take (snd kv) (unique_index row (points m)) in Ok (fst kv, v)) (point_data m) in
       let* cs := mapM (fun b => let* r := mapM (take pinv) (snd b) in Ok (fst b, r)) (cells m) in
       Ok (uniq, pd, cs)
     else Ok (points m, point_data m, cells m)) in
  let '(pts, pd, cs) := pcp in
  let* pieces := mapM (fun kv => let* ps := split (cells m) (snd kv) in Ok (fst kv, ps)) (cell_data m) in
  let order (b : cellblock) := unique_index (lexb Nat.leb) (map (isort Nat.leb) (snd b)) in
  let* cs' := mapM (fun b => let* r := take (snd b) (order b) in Ok (fst b, r)) cs in
  let* data' := mapM (fun kv =>
      let* ps := mapM (fun bp => take (snd bp) (order (fst bp))) (combine cs (snd kv)) in Ok (fst kv, concat ps)) pieces in
  Ok (Mesh (dim m) pts cs' pd data' (field_data m)).

(** ** Materials *)

(** The argument [cells] of set_material: integers, Python booleans (which are
    integers too), or numpy booleans, _mesh.py:563-575 *)
Inductive selection := Ints (l : list Z) | PyBools (l : list bool) | NpBools (l : list bool).
Definition minmax_ok (n : nat) (l : list Z) : bool :=   (* _mesh.py:568; the minimum of nothing is a ValueError *)
  match l with [] => false | _ => forallb (fun i => (0 <=? i)%Z && (i <? Z.of_nat n)%Z) l end.
Fixpoint marked (b : list bool) (i : nat) : list nat :=   (* _mesh.py:573 *)
  match b with [] => [] | x :: r => (if x then [i] else []) ++ marked r (S i) end.
Definition selected (n : nat) (s : selection) : res (list nat) :=   (* _mesh.py:567-575, 584 *)
  match s with
  | Ints l => let* _ := guard (minmax_ok n l) ValueError in Ok (map Z.to_nat l)
  | PyBools l =>
      let* _ := guard (minmax_ok n (map (fun b : bool => if b then 1 else 0)%Z l)) ValueError in
      let* _ := guard (List.length l =? n) IndexError in Ok (marked l 0)
  | NpBools [] => Err ValueError
  | NpBools l => let* _ := guard (List.length l =? n) ValueError in Ok (marked l 0)
  end.
(** The material numbers of the cells and the numbers of the names *)
Definition materials_state := (list Z * list (str * Z))%type.   (* _mesh.py:578-586 *)
Definition zmax (l : list Z) : Z := match l with [] => 0%Z | x :: r => fold_left Z.max r x end.   (* data.max(), _mesh.py:582; never called without cells *)
Fixpoint field_set (m : str) (i : Z) (f : list (str * Z)) : list (str * Z) :=   (* _mesh.py:586 *)
  match f with [] => [(m, i)] | (k, j) :: r => if streqb m k then (k, i) :: r else (k, j) :: field_set m i r end.
(** set_material, _mesh.py:551-586 *)
Definition set_material (m : str) (s : selection) (st : materials_state) : res materials_state :=
  let '(data, field) := st in
  let* is := selected (List.length data) s in
  match s, is with
  | NpBools _, [] => Ok st
  | _, _ =>
      let imat := match assoc m field with Ok i => i | Err _ => zmax data + 1 end%Z in
      Ok (fold_left (fun d i => set_nth i imat d) is data, field_set m imat field)
  end.
(** _materials, _properties.py:7-28: the last name with the number of the cell, or
    numbers when some number has no name *)
Inductive shown := Names (l : list str) | Numbers (l : list Z).
Definition name_of (field : list (str * Z)) (i : Z) : res str :=   (* _properties.py:13-14 *)
  match find (fun kv => Z.eqb i (snd kv)) (rev field) with Some kv => Ok (fst kv) | None => Err KeyError end.
Definition materials (st : materials_state) : shown :=   (* _properties.py:7-28 *)
  let '(data, field) := st in
  match field with
  | [] => Numbers data
  | _ => match mapM (name_of field) data with Ok l => Names l | Err _ => Numbers data end
  end.
