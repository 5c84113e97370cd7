(** Centres, volumes, selection and interpolation on meshes, with exact rational
    coordinates; /repo/toughio/_mesh/_mesh.py, _properties.py, _common.py. *)
From Coq Require Import String Ascii Arith ZArith QArith Qcanon Bool List.
From Verif Require Import Base.Str Model.Py Model.Numpy Model.Mesh Model.MeshOps Model.Grid.
Import ListNotations.
Local Open Scope nat_scope.

Definition qsum (l : list Qc) : Qc := fold_right Qcplus 0%Qc l.   (* sums: _mesh.py:761, _properties.py:132, 258 *)
Definition qnat (n : nat) : Qc := Q2Qc (inject_Z (Z.of_nat n)).   (* the number of terms of a mean, _mesh.py:761 *)
(** numpy.mean; the mean of nothing (nan) is not modelled: _mesh.py:761, _common.py:229 *)
Definition qmean (l : list Qc) : res Qc :=
  let* _ := guard (negb (List.length l =? 0)) Unmodelled in Ok (qsum l / qnat (List.length l))%Qc.
Definition mesh_cells (m : list cellblock) : list (list nat) := concat (map snd m).   (* the cells of all blocks, _mesh.py:597-598, 612 *)
(** centers, _mesh.py:758-761 *)
Definition center (dim : nat) (points : list (list Qc)) (cell : list nat) : res (list Qc) :=
  let* ps := take points cell in mapM (fun a => let* col := column a ps in qmean col) (seq 0 dim).
Definition centers {V} (m : mesh Qc V) : res (list (list Qc)) :=   (* _mesh.py:758-761 *)
  let* _ := guard (negb (List.length (cells m) =? 0)) ValueError in mapM (center (dim m) (points m)) (mesh_cells (cells m)).

(** ** near, _mesh.py:618-651 *)
Definition distance (p c : list Qc) : Qc := qsum (map (fun xy => (snd xy - fst xy) * (snd xy - fst xy))%Qc (combine p c)).   (* _mesh.py:634-637 *)
(** numpy.argmin: the first minimum; of nothing, an error: _mesh.py:650 *)
Fixpoint argmin_from (best : nat) (v : Qc) (i : nat) (l : list Qc) : nat :=
  match l with [] => best | x :: r => if qleb v x then argmin_from best v (S i) r else argmin_from i x (S i) r end.
Definition argmin (l : list Qc) : res nat := match l with [] => Err ValueError | x :: r => Ok (argmin_from 0 x 1 r) end.   (* _mesh.py:650 *)
Definition near {V} (m : mesh Qc V) (queries : list (list Qc)) : res (list nat) :=   (* _mesh.py:639-651 *)
  let* _ := guard (forallb (fun p => List.length p =? dim m) queries) ValueError in
  let* cs := centers m in
  mapM (fun p => argmin (map (distance p) cs)) queries.

(** ** The box filter, _filter/box/_box.py:10-26 *)
Inductive bound := Below | At (x : Qc) | Above.   (* a number or an infinity: _box.py:12-18 *)
Definition lower (x0 : option Qc) : bound := match x0 with Some x => At x | None => Below end.   (* _box.py:12-14 *)
Definition upper (x0 dx : option Qc) : bound :=   (* _box.py:16-18: a zero length counts as none *)
  match dx with
  | None => Above
  | Some d => if Qc_eq_bool d 0%Qc then Above else match x0 with Some x => At (x + d)%Qc | None => Below end
  end.
Definition le_bound (x : Qc) (b : bound) : bool := match b with Below => false | At y => qleb x y | Above => true end.   (* x <= b, _box.py:21-23 *)
Definition ge_bound (x : Qc) (b : bound) : bool := match b with Below => true | At y => qleb y x | Above => false end.   (* x >= b, _box.py:21-23 *)
Definition in_box (x0 y0 z0 dx dy dz : option Qc) (c : list Qc) : res bool :=   (* _box.py:20-24 *)
  match c with
  | [x; y; z] => Ok (ge_bound x (lower x0) && le_bound x (upper x0 dx) && (ge_bound y (lower y0) && le_bound y (upper y0 dy)) &&
                     (ge_bound z (lower z0) && le_bound z (upper z0 dz)))
  | _ => Err ValueError
  end.
Definition box_filter {V} (m : mesh Qc V) (x0 y0 z0 dx dy dz : option Qc) : res (list nat) :=   (* _box.py:10-26 *)
  let* cs := centers m in
  let* mask := mapM (in_box x0 y0 z0 dx dy dz) cs in
  Ok (map fst (filter snd (combine (seq 0 (List.length mask)) mask))).

(** ** Volumes, _properties.py:116-147 *)
Definition tetra_table (type : str) : option (list (list nat)) :=   (* _properties.py:118-125 *)
  if streqb type $"tetra" then Some [[0; 1; 2; 3]]
  else if streqb type $"pyramid" then Some [[0; 1; 3; 4]; [1; 2; 3; 4]]
  else if streqb type $"wedge" then Some [[0; 1; 2; 5]; [0; 1; 4; 5]; [0; 3; 4; 5]]
  else if streqb type $"hexahedron" then Some [[0; 1; 3; 4]; [1; 4; 5; 6]; [1; 2; 3; 6]; [3; 4; 6; 7]; [1; 3; 4; 6]]
  else None.
Definition vec := (Qc * Qc * Qc)%type.   (* a row of three coordinates, _properties.py:130-138 *)
Definition to_vec (p : list Qc) : res vec := match p with [x; y; z] => Ok (x, y, z) | _ => Err ValueError end.   (* _properties.py:130 *)
Definition vsub (a b : vec) : vec := let '(a1, a2, a3) := a in let '(b1, b2, b3) := b in ((a1 - b1)%Qc, (a2 - b2)%Qc, (a3 - b3)%Qc).   (* _properties.py:136-138 *)
(** _cross and _scalar_triple_product, _properties.py:251-258 *)
Definition cross (a b : vec) : vec :=
  let '(a1, a2, a3) := a in let '(b1, b2, b3) := b in ((a2 * b3 - a3 * b2)%Qc, (a3 * b1 - a1 * b3)%Qc, (a1 * b2 - a2 * b1)%Qc).
Definition dot (a b : vec) : Qc := let '(a1, a2, a3) := a in let '(b1, b2, b3) := b in (a1 * b1 + a2 * b2 + a3 * b3)%Qc.   (* _properties.py:258 *)
Definition triple_product (a b c : vec) : Qc := dot a (cross b c).   (* _properties.py:256-258 *)
Definition qabs (x : Qc) : Qc := if qleb 0%Qc x then x else (- x)%Qc.   (* numpy.abs, _properties.py:134 *)
Definition tetra_term (p : list vec) : res Qc :=   (* _properties.py:134-140 *)
  match p with [a; b; c; d] => Ok (qabs (triple_product (vsub b a) (vsub c a) (vsub d a))) | _ => Err ValueError end.
Definition cell_volume (points : list (list Qc)) (type : str) (cell : list nat) : res Qc :=   (* _properties.py:128-146 *)
  match tetra_table type with
  | None => Err KeyError
  | Some t =>
      let* terms := mapM (fun l => let* is := take cell l in let* ps := take points is in let* vs := mapM to_vec ps in tetra_term vs) t in
      Ok (qsum terms / qnat 6)%Qc
  end.
Definition volumes {V} (m : mesh Qc V) : res (list Qc) :=   (* _properties.py:116-147 *)
  let* _ := guard (negb (List.length (cells m) =? 0) && forallb (fun b => negb (List.length (snd b) =? 0)) (cells m)) ValueError in
  mapM (fun tc => cell_volume (points m) (fst tc) (snd tc)) (all_cells (cells m)).

(** ** Interpolation *)

(** numpy.average with weights: an error when they add up to zero, _common.py:232 *)
Definition average (vs ws : list Qc) : res Qc :=
  let* _ := guard (List.length vs =? List.length ws) ValueError in
  let* _ := guard (negb (Qc_eq_bool (qsum ws) 0%Qc)) ZeroDivisionError in
  Ok (qsum (map (fun vw => fst vw * snd vw)%Qc (combine vs ws)) / qsum ws)%Qc.
(** The cells around a point, with repetition when a cell repeats a node; _mesh.py:592-602 *)
Definition around (cs : list (list nat)) (p : nat) : list nat :=
  flat_map (fun ic => map (fun _ => fst ic) (filter (Nat.eqb p) (snd ic))) (combine (seq 0 (List.length cs)) cs).
(** d.update(e), _mesh.py:605, 615 *)
Fixpoint put {B} (k : str) (x : B) (d : list (str * B)) : list (str * B) :=
  match d with [] => [(k, x)] | (k', y) :: r => if streqb k k' then (k, x) :: r else (k', y) :: put k x r end.
Definition update {B} (d e : list (str * B)) : list (str * B) := fold_left (fun d kx => put (fst kx) (snd kx) d) e d.   (* _mesh.py:605, 615 *)
(** cell_data_to_point_data, _mesh.py:588-606 and _common.py:225-236; values are
    scalars.  Nodes outside the points are errors, _mesh.py:600. *)
Definition cell_data_to_point_data (m : mesh Qc Qc) : res (mesh Qc Qc) :=
  let cs := mesh_cells (cells m) in
  let* vol := volumes m in
  let* _ := guard (forallb (forallb (fun p => p <? List.length (points m))) cs) IndexError in
  let* data := mapM (fun kv =>
    let* out := mapM (fun p => let* vs := take (snd kv) (around cs p) in let* ws := take vol (around cs p) in average vs ws)
                     (seq 0 (List.length (points m))) in
    Ok (fst kv, out)) (cell_data m) in
  Ok (Mesh (dim m) (points m) (cells m) (update (point_data m) data) [] (field_data m)).
(** point_data_to_cell_data, _mesh.py:608-616 *)
Definition point_data_to_cell_data (m : mesh Qc Qc) : res (mesh Qc Qc) :=
  let* data := mapM (fun kv =>
    let* out := mapM (fun c => let* vs := take (snd kv) c in qmean vs) (mesh_cells (cells m)) in Ok (fst kv, out)) (point_data m) in
  Ok (Mesh (dim m) (points m) (cells m) [] (update (cell_data m) data) (field_data m)).
