(** C67-C69: faces, interfaces and the quality of cells. *)
From Coq Require Import String Ascii Arith ZArith QArith Qcanon Reals Qreals Lra Bool Lia Permutation List.
From Verif Require Import Base.Str Model.Py Model.Numpy Model.Mesh Model.MeshOps Model.Geometry Model.Conne.
From Verif Require Import Spec.MeshCells Spec.Geometry Spec.Import Spec.Conne.
From Verif Require Import Proofs.GapProof Proofs.QualityProof Proofs.ConneSamples.
Import ListNotations.
Local Open Scope nat_scope.

(** C67.  There is one area for each face of each cell, that of the polygon of its
    corners (a quad is cut along the diagonal from its first corner). *)
Theorem C67_areas : forall V (m : mesh Qc V) areas, face_areas m = Ok areas -> exists F, faces (cells m) = Ok F /\ surfaces (cells m) F /\ like F areas /\
  forall p f, face F p = Some f -> exists ps x, corners (points m) f ps /\ value_of areas p = Some x /\ polygon_area ps x.
Proof. exact @areas_spec. Qed.
Print Assumptions C67_areas.
(** C67.  And one normal: of length 1 and square to the plane of the first three corners. *)
Theorem C67_normals : forall V (m : mesh Qc V) normals, face_normals m = Ok normals -> exists F, faces (cells m) = Ok F /\ surfaces (cells m) F /\ like F normals /\
  forall p f, face F p = Some f -> exists i j k r a b c n, f = i :: j :: k :: r /\ corners (points m) [i; j; k] [a; b; c] /\ value_of normals p = Some n /\ unit_normal a b c n.
Proof. exact @normals_spec. Qed.
Print Assumptions C67_normals.
(** C67.  A mesh of solid cells has them, if no face is flat. *)
Theorem C67_exist : forall V (m : mesh Qc V), solid (cells m) -> sound 3 (points m) (cells m) -> n_cells (cells m) <> 0 ->
  (exists areas, face_areas m = Ok areas) /\
  ((forall F p f ps, faces (cells m) = Ok F -> face F p = Some f -> corners (points m) f ps -> bent_face ps) -> exists normals, face_normals m = Ok normals).
Proof. intros V m S SO N. split; [now apply areas_total|]. intros B. now apply normals_total. Qed.
Print Assumptions C67_exist.
(** C67.  The normals of a cell point away from it, when it is the image of the usual
    cell (any tetrahedron, any parallelepiped, ...) with the usual orientation. *)
Theorem C67_outward : forall V (m : mesh Qc V) normals F i k f type cell ps, face_normals m = Ok normals -> faces (cells m) = Ok F -> face F (i, k) = Some f ->
  nth_error (typed_cells (cells m)) i = Some (type, cell) -> corners (points m) cell ps -> regular type ps ->
  exists n a, value_of normals (i, k) = Some n /\ (exists h t, f = h :: t /\ corners (points m) [h] [a]) /\
    (forall p, In p ps -> dot3 n (minus3 p a) <= 0)%R /\ exists p, In p ps /\ (dot3 n (minus3 p a) < 0)%R.
Proof. exact @normals_outward. Qed.
Print Assumptions C67_outward.
(** C67.  The two sides of a triangle, or of a plane convex quad, have the same area. *)
Theorem C67_sides : forall V (m : mesh Qc V) areas F p q f g, face_areas m = Ok areas -> faces (cells m) = Ok F -> face F p = Some f -> face F q = Some g ->
  (List.length f = 3 /\ Permutation f g) \/ (same_quad f g /\ exists ps, corners (points m) f ps /\ convex_quad ps) -> value_of areas p = value_of areas q /\ value_of areas p <> None.
Proof. exact @areas_sides. Qed.
Print Assumptions C67_sides.
Example C67_case : solid (cells two_cubes) /\ sound 3 (points two_cubes) (cells two_cubes) /\ n_cells (cells two_cubes) <> 0 /\
  (forall F p f ps, faces (cells two_cubes) = Ok F -> face F p = Some f -> corners (points two_cubes) f ps -> bent_face ps) /\
  polygon_area [(0, 0, 0); (0, 1, 0); (1, 1, 0); (1, 0, 0)]%R 1 /\
  exists ps, corners (points two_cubes) [0; 1; 4; 3; 6; 7; 10; 9] ps /\ regular $"hexahedron" ps /\ convex_quad [(0, 0, 0); (0, 1, 0); (1, 1, 0); (1, 0, 0)]%R.
Proof. exact cubes_faces. Qed.
(** C67 fails for quads that are not plane: the area depends on the first corner, so
    that the two cells of an interface have different areas for it. *)
Theorem C67_sides_refuted : ~ (forall ps qs x y, same_quad ps qs -> polygon_area ps x -> polygon_area qs y -> x = y).
Proof. exact warped_quad. Qed.
Print Assumptions C67_sides_refuted.

(** C68.  Each interface between two cells is measured once: with its area, the cosine
    of the line with the vertical, the axis of the line, and the distances from the
    centres to the interface. *)
Theorem C68_measures : forall V kind bounds (m : mesh Qc V) gs, gaps kind bounds m = Ok gs -> exists F, faces (cells m) = Ok F /\ surfaces (cells m) F /\ NoDup (map fst gs) /\
  (forall i f j, In (i, f, j) (map fst gs) <-> i <= j /\ exists g, interface F (i, f) (j, g)) /\
  forall i f j g, In ((i, f, j), g) gs -> exists k a b c r c1 c2, situated (points m) (cells m) F (i, f) (j, k) (a :: b :: c :: r) c1 c2 /\ c1 <> c2 /\ bent a b c /\
    polygon_area (a :: b :: c :: r) (g_area g) /\ (g_angle g * dist3 c1 c2 = height c1 - height c2)%R /\ (-1 <= g_angle g <= 1)%R /\
    (along c1 c2 (g_isot g) \/ (g_isot g = 1%Z /\ forall k, ~ along c1 c2 k)) /\ measured kind bounds i j c1 c2 a b c g.
Proof. exact @gaps_spec. Qed.
Print Assumptions C68_measures.
(** C68.  A mesh of solid cells can be measured when its faces and interfaces can. *)
Theorem C68_exist : forall V kind bounds (m : mesh Qc V), dim m = 3 -> solid (cells m) -> sound 3 (points m) (cells m) -> n_cells (cells m) <> 0 ->
  (forall F, faces (cells m) = Ok F -> measurable kind (points m) (cells m) F) -> exists gs, gaps kind bounds m = Ok gs.
Proof. exact @gaps_total. Qed.
Print Assumptions C68_exist.
(** C68.  When the interface is between the centres, the distances along the line add
    up to the distance of the centres. *)
Theorem C68_between : forall V bounds (m : mesh Qc V) gs F i f j k g a b c r c1 c2, gaps ByLine bounds m = Ok gs -> faces (cells m) = Ok F -> In ((i, f, j), g) gs ->
  situated (points m) (cells m) F (i, f) (j, k) (a :: b :: c :: r) c1 c2 -> bounds i = false -> bounds j = false -> separated c1 c2 a b c -> (g_d1 g + g_d2 g = dist3 c1 c2)%R.
Proof. exact @gaps_between. Qed.
Print Assumptions C68_between.
(** C68.  Orthogonal distances are not longer. *)
Theorem C68_shorter : forall V bounds (m : mesh Qc V) gs gs' i f j g g', gaps ByLine bounds m = Ok gs -> gaps Orthogonal bounds m = Ok gs' -> In ((i, f, j), g) gs -> In ((i, f, j), g') gs' ->
  (g_d1 g' <= g_d1 g)%R /\ (g_d2 g' <= g_d2 g)%R.
Proof. exact @gaps_shorter. Qed.
Print Assumptions C68_shorter.
Example C68_case : dim two_cubes = 3 /\ (forall kind F, faces (cells two_cubes) = Ok F -> measurable kind (points two_cubes) (cells two_cubes) F) /\
  (forall kind bounds gs, gaps kind bounds two_cubes = Ok gs -> exists g, gs = [((0, 3, 1), g)] /\ g_isot g = 1%Z /\ g_area g = 1%R /\ g_angle g = 0%R /\
    g_d1 g = (if bounds 0%nat then 1 / 1000000000 else 1 / 2)%R /\ g_d2 g = (if bounds 1%nat then 1 / 1000000000 else 1 / 2)%R).
Proof. exact cubes_gaps. Qed.

(** C69.  The quality of a cell is the least alignment of its interfaces; it is
    between 0 and 1. *)
Theorem C69_quality : forall V (m : mesh Qc V) qs, qualities m = Ok qs -> exists F, faces (cells m) = Ok F /\ surfaces (cells m) F /\ List.length qs = n_cells (cells m) /\
  forall i q, nth_error qs i = Some q -> least (alignments (points m) (cells m) F i) q /\ (0 <= q <= 1)%R.
Proof. exact @qualities_spec. Qed.
Print Assumptions C69_quality.
(** C69.  It is 1 exactly for a cell whose lines to its neighbours are all square to
    the common faces. *)
Theorem C69_perfect : forall V (m : mesh Qc V) qs, qualities m = Ok qs -> exists F, faces (cells m) = Ok F /\ surfaces (cells m) F /\
  forall i q, nth_error qs i = Some q -> (q = 1%R <-> forall p p', interface F p p' -> fst p <= fst p' -> i = fst p \/ i = fst p' -> square (points m) (cells m) F p p').
Proof. exact @qualities_perfect. Qed.
Print Assumptions C69_perfect.
(** C69.  A mesh where each cell has a neighbour has qualities. *)
Theorem C69_exist : forall V (m : mesh Qc V), dim m = 3 -> solid (cells m) -> sound 3 (points m) (cells m) -> n_cells (cells m) <> 0 ->
  (forall F, faces (cells m) = Ok F -> measurable Orthogonal (points m) (cells m) F) ->
  (forall F i, faces (cells m) = Ok F -> i < n_cells (cells m) -> exists p p', interface F p p' /\ fst p = i) -> exists qs, qualities m = Ok qs.
Proof. exact @qualities_total. Qed.
Print Assumptions C69_exist.
Example C69_case : (forall F i, faces (cells two_cubes) = Ok F -> i < n_cells (cells two_cubes) -> exists p p', interface F p p' /\ fst p = i) /\
  (forall qs, qualities two_cubes = Ok qs -> qs = [1; 1]%R).
Proof. exact cubes_quality. Qed.
(** C69 fails when one cell has no neighbour: then no cell of the mesh has a quality. *)
Theorem C69_alone : forall V (m : mesh Qc V) F i, faces (cells m) = Ok F -> i < n_cells (cells m) -> (forall p p', interface F p p' -> fst p <> i) -> forall qs, qualities m <> Ok qs.
Proof. exact @qualities_alone. Qed.
Print Assumptions C69_alone.
Theorem C69_alone_refuted : ~ (forall (m : mesh Qc Qc), dim m = 3 -> solid (cells m) -> sound 3 (points m) (cells m) -> n_cells (cells m) <> 0 ->
  (forall F, faces (cells m) = Ok F -> measurable Orthogonal (points m) (cells m) F) -> exists qs, qualities m = Ok qs).
Proof. exact single_quality. Qed.
Print Assumptions C69_alone_refuted.
