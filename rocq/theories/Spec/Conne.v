(** Planes, areas and distances. *)
From Coq Require Import String Ascii ZArith QArith Qcanon Reals Qreals Bool List.
From Verif Require Import Base.Str Model.MeshOps Model.Conne Spec.MeshCells Spec.Geometry Spec.Import.
Import ListNotations.

Definition real3 (x y z : Qc) : xyz := (Q2R (this x), Q2R (this y), Q2R (this z)).
(** The nodes [f] are at [ps]. *)
Definition corners (points : list (list Qc)) (f : list nat) (ps : list xyz) : Prop :=
  Forall2 (fun n p => exists x y z, nth_error points n = Some [x; y; z] /\ p = real3 x y z) f ps.
(** Cell number [i] has its centre at [p]. *)
Definition centre3 (points : list (list Qc)) (bs : list (str * list (list nat))) (i : nat) (p : xyz) : Prop :=
  exists tc x y z, nth_error (typed_cells bs) i = Some tc /\ centre_of 3 points (snd tc) [x; y; z] /\ p = real3 x y z.
(** The value for face [snd p] of cell [fst p]. *)
Definition value_of {A} (rows : list (list A)) (p : nat * nat) : option A :=
  match nth_error rows (fst p) with Some r => nth_error r (snd p) | None => None end.
(** One value for each face of each cell. *)
Definition like {A B} (F : list (list A)) (rows : list (list B)) : Prop := map (@List.length B) rows = map (@List.length A) F.

Local Open Scope R_scope.
Definition dot3 (a b : xyz) : R := let '(ax, ay, az) := a in let '(bx, b_y, bz) := b in ax * bx + ay * b_y + az * bz.
Definition dist3 (a b : xyz) : R := norm3 (minus3 a b).
Definition height (a : xyz) : R := snd a.
(** The determinant of three vectors. *)
Definition det3 (a b c : xyz) : R :=
  let '(ax, ay, az) := a in let '(bx, b_y, bz) := b in let '(cx, cy, cz) := c in
  ax * (b_y * cz - bz * cy) - ay * (bx * cz - bz * cx) + az * (bx * cy - b_y * cx).
(** From the lengths of two sides and their angle. *)
Definition triangle_area (a b c : xyz) : R :=
  let u := minus3 b a in let v := minus3 c a in sqrt (dot3 u u * dot3 v v - dot3 u v * dot3 u v) / 2.
Inductive polygon_area : list xyz -> R -> Prop :=
| area_triangle a b c : polygon_area [a; b; c] (triangle_area a b c)
| area_quad a b c d : polygon_area [a; b; c; d] (triangle_area a b c + triangle_area a c d).
(** The vector of length 1 square to the plane of [a], [b], [c], on the side from
    which they turn to the left. *)
Definition unit_normal (a b c n : xyz) : Prop :=
  norm3 n = 1 /\ dot3 n (minus3 b a) = 0 /\ dot3 n (minus3 c a) = 0 /\ 0 < det3 (minus3 b a) (minus3 c a) n.
(** Three points that are not on a line. *)
Definition bent (a b c : xyz) : Prop := 0 < triangle_area a b c.
Definition bent_face (ps : list xyz) : Prop := match ps with a :: b :: c :: _ => bent a b c | _ => False end.
Definition on_line (a b q : xyz) : Prop := exists t, q = plus3 a (scale3 t (minus3 b a)).
Definition on_segment (a b q : xyz) : Prop := exists t, 0 <= t <= 1 /\ q = plus3 a (scale3 t (minus3 b a)).
Definition on_plane (a b c q : xyz) : Prop := exists s t, q = plus3 a (plus3 (scale3 s (minus3 b a)) (scale3 t (minus3 c a))).
(** The line crosses the plane in [q] only. *)
Definition crosses (c1 c2 a b c q : xyz) : Prop :=
  on_line c1 c2 q /\ on_plane a b c q /\ forall q', on_line c1 c2 q' -> on_plane a b c q' -> q' = q.
(** [d] is the least distance from [p] to the plane. *)
Definition plane_distance (p a b c : xyz) (d : R) : Prop :=
  (exists q, on_plane a b c q /\ dist3 p q = d) /\ forall q, on_plane a b c q -> d <= dist3 p q.
(** The two points are on different sides of the plane. *)
Definition separated (c1 c2 a b c : xyz) : Prop :=
  det3 (minus3 b a) (minus3 c a) (minus3 c1 a) * det3 (minus3 b a) (minus3 c a) (minus3 c2 a) <= 0.
(** The axis along which two points differ: X, Y or Z. *)
Definition along (c1 c2 : xyz) (k : Z) : Prop :=
  let '(x, y, z) := minus3 c2 c1 in
  (k = 1%Z /\ x <> 0 /\ y = 0 /\ z = 0) \/ (k = 2%Z /\ x = 0 /\ y <> 0 /\ z = 0) \/ (k = 3%Z /\ x = 0 /\ y = 0 /\ z <> 0).
(** The corners of the same quad from another one, or the other way round. *)
Definition same_quad {A} (f g : list A) : Prop :=
  exists a b c d, f = [a; b; c; d] /\ In g [[a; b; c; d]; [b; c; d; a]; [c; d; a; b]; [d; a; b; c]; [d; c; b; a]; [c; b; a; d]; [b; a; d; c]; [a; d; c; b]].
(** Plane and convex: the diagonals cross. *)
Definition convex_quad (ps : list xyz) : Prop :=
  exists a b c d q, ps = [a; b; c; d] /\ on_segment a c q /\ on_segment b d q.
(** A cell that is the image of the usual one: the nodes are at [o + x u + y v + z w]
    for the coordinates of the usual nodes. *)
Definition usual (type : str) : list xyz :=
  if streqb type $"tetra" then [(0, 0, 0); (1, 0, 0); (0, 1, 0); (0, 0, 1)]
  else if streqb type $"pyramid" then [(0, 0, 0); (1, 0, 0); (1, 1, 0); (0, 1, 0); (1 / 2, 1 / 2, 1)]
  else if streqb type $"wedge" then [(0, 0, 0); (1, 0, 0); (0, 1, 0); (0, 0, 1); (1, 0, 1); (0, 1, 1)]
  else if streqb type $"hexahedron" then [(0, 0, 0); (1, 0, 0); (1, 1, 0); (0, 1, 0); (0, 0, 1); (1, 0, 1); (1, 1, 1); (0, 1, 1)]
  else [].
Definition image (o u v w : xyz) (p : xyz) : xyz := let '(x, y, z) := p in plus3 o (plus3 (scale3 x u) (plus3 (scale3 y v) (scale3 z w))).
Definition regular (type : str) (ps : list xyz) : Prop := exists o u v w, 0 < det3 u v w /\ ps = map (image o u v w) (usual type).
(** [x] is the least of the values of [P]. *)
Definition least (P : R -> Prop) (x : R) : Prop := P x /\ forall y, P y -> x <= y.
(** How square the line between the centres of two cells is to their common face:
    1 when it is, 0 when it is parallel.  The plane of the face is that of the
    first three corners given by the first cell. *)
Definition alignment (points : list (list Qc)) (bs : list (str * list (list nat))) (F : list (list (list nat))) (p p' : nat * nat) (x : R) : Prop :=
  exists i j k r a b c c1 c2 n, face F p = Some (i :: j :: k :: r) /\ corners points [i; j; k] [a; b; c] /\
    centre3 points bs (fst p) c1 /\ centre3 points bs (fst p') c2 /\ c1 <> c2 /\ unit_normal a b c n /\
    x = Rabs (dot3 n (minus3 c2 c1)) / dist3 c1 c2.

(** The distances of an interface: along the line between the centres, or square to
    the plane; next to nothing for a cell with a boundary condition. *)
Definition measured (kind : nodal) (bounds : nat -> bool) (i j : nat) (c1 c2 a b c : xyz) (g : gap) : Prop :=
  match kind with
  | ByLine => exists q, crosses c1 c2 a b c q /\ g_d1 g = (if bounds i then 1 / 1000000000 else dist3 c1 q) /\ g_d2 g = (if bounds j then 1 / 1000000000 else dist3 c2 q)
  | Orthogonal => (if bounds i then g_d1 g = 1 / 1000000000 else plane_distance c1 a b c (g_d1 g)) /\ (if bounds j then g_d2 g = 1 / 1000000000 else plane_distance c2 a b c (g_d2 g))
  end.
(** The interface between two cells, with its corners and the centres of the cells. *)
Definition situated (points : list (list Qc)) (bs : list (str * list (list nat))) (F : list (list (list nat))) (p p' : nat * nat) (ps : list xyz) (c1 c2 : xyz) : Prop :=
  interface F p p' /\ (exists f, face F p = Some f /\ corners points f ps) /\ centre3 points bs (fst p) c1 /\ centre3 points bs (fst p') c2.
(** Faces with an area, centres that differ and, for distances along the line, lines
    that are not parallel to the face. *)
Definition measurable (kind : nodal) (points : list (list Qc)) (bs : list (str * list (list nat))) (F : list (list (list nat))) : Prop :=
  (forall p f ps, face F p = Some f -> corners points f ps -> bent_face ps) /\
  forall p p' a b c r c1 c2, situated points bs F p p' (a :: b :: c :: r) c1 c2 -> c1 <> c2 /\ (kind = ByLine -> exists q, crosses c1 c2 a b c q).
(** The alignments of the interfaces of cell [i]. *)
Definition alignments (points : list (list Qc)) (bs : list (str * list (list nat))) (F : list (list (list nat))) (i : nat) (x : R) : Prop :=
  exists p p', interface F p p' /\ (fst p <= fst p')%nat /\ (i = fst p \/ i = fst p') /\ alignment points bs F p p' x.
(** The line between the centres is square to two sides of the face. *)
Definition square (points : list (list Qc)) (bs : list (str * list (list nat))) (F : list (list (list nat))) (p p' : nat * nat) : Prop :=
  forall i j k r a b c c1 c2, face F p = Some (i :: j :: k :: r) -> corners points [i; j; k] [a; b; c] -> centre3 points bs (fst p) c1 -> centre3 points bs (fst p') c2 ->
    dot3 (minus3 c2 c1) (minus3 b a) = 0 /\ dot3 (minus3 c2 c1) (minus3 c a) = 0.
