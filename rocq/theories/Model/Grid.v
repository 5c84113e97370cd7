(** Structured, voxelised and cylindric grids, /repo/toughio/meshmaker. *)
From Coq Require Import String Ascii Arith ZArith Bool List.
From Verif Require Import Base.Str Model.Py Model.Numpy Model.Mesh Model.MeshOps.
Import ListNotations.
Local Open Scope nat_scope.

(** meshgrid(..., indexing "ij") and ravel: the triples of a grid, the last index
    fastest (order "C") or the first (order "F"); _structured_grid.py:80-82 *)
Definition triples {A} (layer : bool) (xs ys zs : list A) : list (list A) :=
  if layer then flat_map (fun z => flat_map (fun y => map (fun x => [x; y; z]) xs) ys) zs
  else flat_map (fun x => flat_map (fun y => map (fun z => [x; y; z]) zs) ys) xs.
(** The same in the plane, _structured_grid.py:133-135 *)
Definition pairs {A} (layer : bool) (xs ys : list A) : list (list A) :=
  if layer then flat_map (fun y => map (fun x => [x; y]) xs) ys else flat_map (fun x => map (fun y => [x; y]) ys) xs.
(** mesh_vertices, _structured_grid.py:84-94 *)
Definition vertices3 (i j k : nat) : list (list nat) :=
  [[i; j; k]; [i + 1; j; k]; [i + 1; j + 1; k]; [i; j + 1; k]; [i; j; k + 1]; [i + 1; j; k + 1]; [i + 1; j + 1; k + 1]; [i; j + 1; k + 1]].
Definition vertices2 (i j : nat) : list (list nat) := [[i; j]; [i + 1; j]; [i + 1; j + 1]; [i; j + 1]].   (* _structured_grid.py:137-143 *)
(** numpy.ravel_multi_index, _structured_grid.py:107, 156: indices outside the
    shape are errors *)
Fixpoint ravel_C (acc : nat) (index shape : list nat) : res nat :=
  match index, shape with
  | [], [] => Ok acc
  | i :: r, n :: s => let* _ := guard (i <? n) ValueError in ravel_C (acc * n + i) r s
  | _, _ => Err ValueError
  end.
Definition ravel (layer : bool) (index shape : list nat) : res nat :=   (* _structured_grid.py:107, 156 *)
  if layer then ravel_C 0 (rev index) (rev shape) else ravel_C 0 index shape.

(** cells[i1:i2] = cells[i2 - 1 : i1 - 1 : -1], _structured_grid.py:119-122 *)
Definition reverse_slice {A} (n2 : nat) (cells : list A) (i : nat) : list A :=
  firstn (i * n2) cells ++ rev (firstn n2 (skipn (i * n2) cells)) ++ skipn (i * n2 + n2) cells.
Definition reverse_slices {A} (n1 n2 : nat) (cells : list A) : list A := fold_left (reverse_slice n2) (seq 0 n1) cells.   (* _structured_grid.py:117-122 *)

(** The cells of _grid_3d, _structured_grid.py:96-122 *)
Definition grid_cells3 (layer : bool) (nx ny nz : nat) : res (list (list nat)) :=
  let* cells := mapM (fun ijk => match ijk with
    | [i; j; k] => mapM (fun v => ravel layer v [nx + 1; ny + 1; nz + 1]) (vertices3 i j k)
    | _ => Err ValueError end) (triples layer (seq 0 nx) (seq 0 ny) (seq 0 nz)) in
  let cells := if layer then rev cells else cells in
  Ok (if layer then reverse_slices nz (nx * ny) cells else reverse_slices (nx * ny) nz cells).
(** The cells of _grid_2d, _structured_grid.py:145-160 *)
Definition grid_cells2 (layer : bool) (nx ny : nat) : res (list (list nat)) :=
  mapM (fun ij => match ij with
    | [i; j] => mapM (fun v => ravel layer v [nx + 1; ny + 1]) (vertices2 i j)
    | _ => Err ValueError end) (pairs layer (seq 0 nx) (seq 0 ny)).

Section coordinates.
Context {C : Type} (add : C -> C -> C) (opp : C -> C) (zero : C).

(** numpy.cumsum(numpy.r_[0, ar]), _structured_grid.py:100 *)
Fixpoint running (acc : C) (l : list C) : list C := acc :: match l with [] => [] | d :: r => running (add acc d) r end.
(** points += origin, _structured_grid.py:64; origin has the length of the points *)
Definition shifted (origin p : list C) : list C := map (fun xo => add (fst xo) (snd xo)) (combine p origin).
(** numpy.sum(dz), _structured_grid.py:61, with the terms added in order *)
Definition total (l : list C) : C := fold_left add l zero.
(** structured_grid, _structured_grid.py:10-74: the type checks apart; grids
    without any cell are not modelled *)
Definition structured_grid (dx dy : list C) (dz : option (list C)) (origin : option (list C)) (layer : bool) (material : str) : res (mesh C Z) :=
  let* _ := guard (negb ((List.length dx =? 0) || (List.length dy =? 0) || match dz with Some z => List.length z =? 0 | None => false end)) Unmodelled in
  let ndim := match dz with Some _ => 3 | None => 2 end in
  let points := match dz with
    | Some z => triples layer (running zero dx) (running zero dy) (running zero z)
    | None => pairs layer (running zero dx) (running zero dy) end in
  let* cells := match dz with
    | Some z => let* c := grid_cells3 layer (List.length dx) (List.length dy) (List.length z) in Ok [($"hexahedron", c)]
    | None => let* c := grid_cells2 layer (List.length dx) (List.length dy) in Ok [($"quad", c)] end in
  let* _ := guard (match origin with Some o => List.length o =? ndim | None => true end) ValueError in
  let o := match origin with Some o => o | None => match dz with Some z => [zero; zero; opp (total z)] | None => [zero; zero] end end in
  let points := map (shifted o) points in
  let points := match dz with Some _ => points | None => map (fun p => p ++ [zero]) points end in
  Ok (Mesh 3 points cells [] [($"material", repeat 1%Z (n_cells cells))] [(material, (1, 3)%Z)]).
End coordinates.

(** ** Grids from points; coordinates are exact rationals *)
From Coq Require Import QArith Qcanon.
Definition qleb (x y : Qc) : bool := Qle_bool (this x) (this y).   (* <= of the coordinates: numpy.unique, _voxelize.py:59-61 *)
(** voronoi1d, _voxelize.py:34-51; [x] is sorted already, numpy.unique has sorted it *)
Fixpoint voronoi_from (v : Qc) (x : list Qc) : list Qc :=   (* _voxelize.py:45-47 *)
  match x with [] => [] | xx :: r => let w := (Q2Qc 2 * xx - v)%Qc in w :: voronoi_from w r end.
Definition voronoi1d (x : list Qc) (x0 : Qc) : res (list Qc) :=   (* _voxelize.py:34-51 *)
  match x with
  | [] => Ok [x0; (x0 + 1)%Qc]
  | [_] => Ok [x0; (x0 + 1)%Qc]
  | a :: _ => let* _ := guard (negb (qleb a x0)) ValueError in Ok (x0 :: voronoi_from x0 x)
  end.
(** numpy.diff, _voxelize.py:69-71 *)
Fixpoint qdiff (l : list Qc) : list Qc :=
  match l with [] => [] | a :: r => match r with [] => [] | b :: _ => (b - a)%Qc :: qdiff r end end.
Definition column {A} (i : nat) (points : list (list A)) : res (list A) := mapM (fun p => item p i) points.   (* numpy.transpose, _voxelize.py:58 *)
Definition qgrid := structured_grid Qcplus Qcopp 0%Qc.   (* structured_grid, _structured_grid.py:10-74 *)
(** voxelize, _voxelize.py:10-74, for points of three coordinates *)
Definition voxelize (points : list (list Qc)) (origin : list Qc) (layer : bool) (material : str) : res (mesh Qc Z) :=
  let* x := column 0 points in
  let* y := column 1 points in
  let* z := column 2 points in
  let x := unique qleb x in
  let y := unique qleb y in
  let z := unique qleb z in
  let* _ := guard ((List.length x * List.length y * List.length z =? List.length points)%nat) ValueError in
  match origin with
  | [x0; y0; z0] =>
      let* x := voronoi1d x x0 in
      let* y := voronoi1d y y0 in
      let* z := voronoi1d z z0 in
      qgrid (qdiff x) (qdiff y) (Some (qdiff z)) (Some origin) layer material
  | _ => Err ValueError
  end.

(** ** export without a mesh, /repo/toughio/_cli/_export.py *)

(** _get_points, _export.py:287-344: coordinates that do not vary are zero; the
    output has at least one element.  The three arrays have one value per element. *)
Definition get_points (n : nat) (X Y Z : option (list Qc)) : res (list (list Qc) * list nat) :=
  let* _ := guard (match X, Y, Z with None, None, None => false | _, _, _ => true end) ValueError in
  let zeros := repeat 0%Qc n in
  let ar o := match o with Some l => l | None => zeros end in
  let varies o := negb (List.length (unique qleb (ar o)) =? 1)%nat in
  let col o := if varies o then ar o else zeros in
  let stack x y z := map (fun xyz => [fst xyz; fst (snd xyz); snd (snd xyz)]) (combine x (combine y z)) in
  let axis := (if varies X then [0%nat] else []) ++ (if varies Y then [1%nat] else []) ++ (if varies Z then [2%nat] else []) in
  (* when nothing varies the first case is taken, with X itself: _export.py:322-324 *)
  Ok (match axis with [] => (stack (ar X) zeros zeros, [0%nat]) | [0%nat] => (stack (ar X) zeros zeros, axis) | _ => (stack (col X) (col Y) (col Z), axis) end).
(** The ranks sorted by (z, y, x) of the points, _export.py:107-115; [sorted] is
    stable and the keys of equal points are equal *)
Definition by_zyx (a b : nat * list Qc) : bool := lexb qleb (rev (snd a)) (rev (snd b)).
Definition export_order (points : list (list Qc)) : list nat :=   (* _export.py:107-115 *)
  map fst (isort by_zyx (combine (seq 0 (List.length points)) points)).
(** The voxels and the data of one time step, _export.py:104-120 and 173-177 *)
Definition export_voxels {V} (points : list (list Qc)) (origin : list Qc) (layer : bool) (data : list (str * list V)) :
  res (mesh Qc Z * list (str * list V)) :=
  let* m := voxelize points origin layer $"dfalt" in
  let idx := export_order points in
  let* d := mapM (fun kv => let* v := take (snd kv) idx in Ok (fst kv, v))
              (filter (fun kv => negb (streqb (fst kv) $"X" || streqb (fst kv) $"Y" || streqb (fst kv) $"Z")) data) in
  Ok (m, d).

(** ** Cylindric grids, _cylindric_grid.py, with exact rationals; [pi] is the
    number numpy.pi *)
Fixpoint qcumsum (acc : Qc) (l : list Qc) : list Qc := match l with [] => [] | d :: r => (acc + d)%Qc :: qcumsum (acc + d)%Qc r end.   (* numpy.cumsum, _cylindric_grid.py:32, 45-46 *)
Definition tiled {A} (l : list A) (n : nat) : list A := concat (repeat l n).   (* numpy.tile, _cylindric_grid.py:34, 45, 46, 48 *)
Definition qtimes (l m : list Qc) : list Qc := map (fun xy => (fst xy * snd xy)%Qc) (combine l m).   (* products of arrays, _cylindric_grid.py:48, 54, 56, 71 *)
(** _get_areas_heights, _cylindric_grid.py:29-38; [dz] from top to bottom *)
Definition ring_areas (pi : Qc) (dr dz : list Qc) : list Qc :=
  let r2 := map (fun r => r * r)%Qc (qcumsum 0%Qc dr) in
  map (fun a => a * pi)%Qc (tiled (match r2 with [] => [] | a :: _ => a :: qdiff r2 end) (List.length dz)).
Definition cell_heights (dr dz : list Qc) : list Qc := concat (map (fun d => repeat d (List.length dr)) dz).   (* _cylindric_grid.py:36 *)
(** reshape((nz, nr)) and ravel(order "F"), _cylindric_grid.py:63, 73 *)
Definition by_columns {A} (nr nz : nat) (l : list A) : res (list A) :=
  take l (flat_map (fun i => map (fun k => (k * nr + i)%nat) (seq 0 nz)) (seq 0 nr)).
Definition cylinder_volumes (pi : Qc) (dr dz : list Qc) (layer : bool) : res (list Qc) :=   (* _cylindric_grid.py:66-73 *)
  let out := qtimes (ring_areas pi dr dz) (cell_heights dr dz) in
  if layer then Ok out else by_columns (List.length dr) (List.length dz) out.
Fixpoint rows6 (a b c d e f : list Qc) : list (list Qc) :=   (* numpy.transpose, _cylindric_grid.py:49-58 *)
  match a, b, c, d, e, f with
  | a1 :: a', b1 :: b', c1 :: c', d1 :: d', e1 :: e', f1 :: f' => [a1; b1; c1; d1; e1; f1] :: rows6 a' b' c' d' e' f'
  | _, _, _, _, _, _ => []
  end.
Definition cylinder_face_areas (pi : Qc) (dr dz : list Qc) (layer : bool) : res (list (list Qc)) :=   (* _cylindric_grid.py:40-64 *)
  let nz := List.length dz in
  let d0 := 0%Qc :: dr in
  let perimeters_in := map (fun r => r * Q2Qc 2 * pi)%Qc (tiled (qcumsum 0%Qc (removelast d0)) nz) in
  let perimeters_out := map (fun r => r * Q2Qc 2 * pi)%Qc (tiled (qcumsum 0%Qc dr) nz) in
  let areas := ring_areas pi dr dz in
  let heights := cell_heights dr dz in
  let sections := qtimes (tiled dr nz) heights in
  let out := rows6 areas areas sections (qtimes perimeters_out heights) sections (qtimes perimeters_in heights) in
  if layer then Ok out else by_columns (List.length dr) nz out.
(** cylindric_grid, _cylindric_grid.py:76-134: the mesh, its volumes and its face areas *)
Definition cylindric_grid (pi : Qc) (dr dz : list Qc) (origin_z : option Qc) (layer : bool) (material : str) : res (mesh Qc Z * list Qc * list (list Qc)) :=
  let* _ := guard (forallb (fun d => negb (qleb d 0%Qc)) dr) ValueError in
  let* _ := guard (forallb (fun d => negb (qleb d 0%Qc)) dz) ValueError in
  let oz := match origin_z with Some z => z | None => Qcopp (total Qcplus 0%Qc dz) end in
  let* m := qgrid dr [1%Qc] (Some dz) (Some [0%Qc; Q2Qc (Qmake (-1) 2); oz]) layer material in
  let* v := cylinder_volumes pi dr (rev dz) layer in
  let* f := cylinder_face_areas pi dr (rev dz) layer in
  Ok (m, v, f).
