(** Faces and interfaces measured: /repo/toughio/_mesh/_properties.py (face_normals,
    face_areas, qualities) and _mesh/tough/_tough.py (block CONNE).  Exact arithmetic;
    where the code divides by zero the model answers Unmodelled. *)
From Coq Require Import String Ascii Arith ZArith QArith Qcanon Reals Qreals Bool List.
From Verif Require Import Base.Str Model.Py Model.Numpy Model.Mesh Model.MeshOps Model.Geometry Model.MeshFile Model.Import.
Import ListNotations.
Local Open Scope nat_scope.

Definition arrow_sub (a b : arrow) : arrow :=   (* a - b: _properties.py:248, _tough.py:348, 355, 411, 423 *)
  let '(a1, a2, a3) := a in let '(b1, b2, b3) := b in (a1 - b1, a2 - b2, a3 - b3)%R.
Definition arrow_cross (a b : arrow) : arrow :=   (* _cross, _properties.py:251-253 *)
  let '(a1, a2, a3) := a in let '(b1, b2, b3) := b in (a2 * b3 - a3 * b2, a3 * b1 - a1 * b3, a1 * b2 - a2 * b1)%R.
Definition arrow_dot (a b : arrow) : R :=   (* _dot, _tough.py:442-444; _properties.py:207 *)
  let '(a1, a2, a3) := a in let '(b1, b2, b3) := b in (a1 * b1 + a2 * b2 + a3 * b3)%R.
Definition arrow_norm (a : arrow) : R := sqrt (arrow_dot a a).   (* numpy.linalg.norm: _properties.py:74, 94, _tough.py:350-358 *)
Definition quotient (x y : R) : res R := if Req_EM_T y 0 then Err Unmodelled else Ok (x / y)%R.   (* divisions: _properties.py:75, 206, _tough.py:350, 411 *)
Definition normalized (a : arrow) : res arrow := let* k := quotient 1 (arrow_norm a) in Ok (arrow_mul k a).   (* _properties.py:75, 206 *)

(** _get_triangle_normals for one face, _properties.py:241-248; in two dimensions
    _cross fails, which is not modelled *)
Definition corner (points : list (list Qc)) (f : list nat) (k : nat) : res arrow :=   (* _properties.py:245-246 *)
  let* n := item f k in let* p := item points n in place3 p.
Definition triangle_normal (points : list (list Qc)) (i j k : nat) (f : list nat) : res arrow :=   (* _properties.py:241-248 *)
  let* a := corner points f i in let* b := corner points f j in let* c := corner points f k in
  Ok (arrow_cross (arrow_sub b a) (arrow_sub c a)).
(** The faces by kind, triangles first, with their cell: _get_faces, _properties.py:218-238 *)
Definition by_kind (F : list (list (list nat))) : list ((nat * nat) * list nat) :=
  of_kind 3 (occurrences F) ++ of_kind 4 (occurrences F).
(** The values back by cell, _properties.py:78-81, 108-111, 210-213 *)
Definition add_row {A} (rows : list (list A)) (ix : nat * A) : res (list (list A)) :=
  match nth_error rows (fst ix) with Some l => Ok (set_nth (fst ix) (l ++ [snd ix]) rows) | None => Err IndexError end.
Definition regroup {A} (n : nat) (l : list (nat * A)) : res (list (list A)) := foldM add_row (repeat [] n) l.   (* _properties.py:78-81, 108-111, 210-213 *)
(** _face_normals, _properties.py:66-83; concatenating nothing is a ValueError *)
Definition face_normals {V} (m : mesh Qc V) : res (list (list arrow)) :=
  let* F := faces (cells m) in
  let* _ := guard (negb (List.length (by_kind F) =? 0)) ValueError in
  let* ns := mapM (fun o => let* n := triangle_normal (points m) 0 1 2 (snd o) in let* u := normalized n in Ok (fst (fst o), u)) (by_kind F) in
  regroup (n_cells (cells m)) ns.
Definition face_area (points : list (list Qc)) (f : list nat) : res R :=   (* _properties.py:91-105 *)
  let* n1 := triangle_normal points 0 1 2 f in
  let* a2 := (if List.length f =? 4 then let* n2 := triangle_normal points 0 2 3 f in Ok (arrow_norm n2) else Ok 0%R) in
  Ok ((arrow_norm n1 + a2) * / 2)%R.
(** _face_areas, _properties.py:86-113 *)
Definition face_areas {V} (m : mesh Qc V) : res (list (list R)) :=
  let* F := faces (cells m) in
  let* _ := guard (negb (List.length (by_kind F) =? 0)) ValueError in
  let* areas := mapM (fun o => let* a := face_area (points m) (snd o) in Ok (fst (fst o), a)) (by_kind F) in
  regroup (n_cells (cells m)) areas.

(** ** Block CONNE, _tough.py:296-366 *)
Inductive nodal := ByLine | Orthogonal.   (* nodal_distance, _tough.py:47 *)
Record gap := Gap { g_isot : Z; g_d1 : R; g_d2 : R; g_area : R; g_angle : R }.   (* the arguments of the writer, _tough.py:365 *)
Definition gravity : arrow := (0, 0, -1)%R.   (* _tough.py:69 *)
Definition billionth : R := (1 / 1000000000)%R.   (* 1.0e-9, _tough.py:355, 358, 423 *)
(** _isot, _tough.py:426-439 *)
Definition isot (line : arrow) : Z :=
  let '(x, y, z) := line in
  match Req_EM_T x 0, Req_EM_T y 0, Req_EM_T z 0 with
  | right _, left _, left _ => 1%Z
  | left _, right _, left _ => 2%Z
  | left _, left _, right _ => 3%Z
  | _, _, _ => 1%Z
  end.
(** _intersection_line_plane, _tough.py:403-412 *)
Definition intersection (center line point normal : arrow) : res arrow :=
  let* t := quotient (arrow_dot (arrow_sub point center) normal) (arrow_dot line normal) in
  Ok (arrow_add center (arrow_mul t line)).
(** What is written of one interface, _tough.py:316-362 *)
Definition measure (kind : nodal) (bounds : nat -> bool) (points : list (list Qc)) (cs : list (list Qc)) (F : list (list (list nat)))
    (normals : list (list arrow)) (areas : list (list R)) (l : nat * nat * nat) : res gap :=
  let '(i, f, j) := l in
  let* p1 := item cs i in let* c1 := place3 p1 in
  let* p2 := item cs j in let* c2 := place3 p2 in
  let* row := item F i in let* face := item row f in
  let* point := corner points face 0 in
  let* ns := item normals i in let* normal := item ns f in
  let* ars := item areas i in let* area := item ars f in
  let line := arrow_sub c2 c1 in
  let* angle := quotient (arrow_dot line gravity) (arrow_norm line) in
  match kind with
  | ByLine =>
      let* fp := intersection c1 line point normal in
      Ok (Gap (isot line) (if bounds i then billionth else arrow_norm (arrow_sub c1 fp))
              (if bounds j then billionth else arrow_norm (arrow_sub c2 fp)) area angle)
  | Orthogonal =>
      Ok (Gap (isot line) (if bounds i then billionth else Rabs (arrow_dot (arrow_sub c1 point) normal))
              (if bounds j then billionth else Rabs (arrow_dot (arrow_sub c2 point) normal)) area angle)
  end.
(** The interfaces of a mesh with their measures, _tough.py:57-76, 313-362 *)
Definition gaps {V} (kind : nodal) (bounds : nat -> bool) (m : mesh Qc V) : res (list ((nat * nat * nat) * gap)) :=
  let* cs := centers m in
  let* conn := connections (dim m) (cells m) in
  let* F := faces (cells m) in
  let* normals := face_normals m in
  let* areas := face_areas m in
  mapM (fun l => let* g := measure kind bounds (points m) cs F normals areas l in Ok (l, g)) (links conn).

(** ** qualities, _properties.py:187-215, _mesh.py:809-817 *)
Definition cosine (cs : list (list Qc)) (normals : list (list arrow)) (l : nat * nat * nat) : res R :=   (* _properties.py:198-199, 204-207 *)
  let '(i, f, j) := l in
  let* p1 := item cs i in let* c1 := place3 p1 in
  let* p2 := item cs j in let* c2 := place3 p2 in
  let* ns := item normals i in let* normal := item ns f in
  let* u := normalized (arrow_sub c2 c1) in
  Ok (Rabs (arrow_dot u normal)).
Definition rmin (l : list R) : res R := match l with [] => Err ValueError | x :: r => Ok (fold_left Rmin r x) end.   (* numpy.min, _mesh.py:817 *)
Definition qualities {V} (m : mesh Qc V) : res (list R) :=   (* _properties.py:187-215, _mesh.py:817; numpy.diff of nothing is an error *)
  let* cs := centers m in
  let* conn := connections (dim m) (cells m) in
  let* normals := face_normals m in
  let* _ := guard (negb (List.length (links conn) =? 0)) ValueError in
  let* angles := mapM (fun l => let* a := cosine cs normals l in Ok [(fst (fst l), a); (snd l, a)]) (links conn) in
  let* rows := regroup (n_cells (cells m)) (concat angles) in
  mapM rmin rows.
