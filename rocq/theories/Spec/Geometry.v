(** Centres, distances and volumes. *)
From Coq Require Import String Ascii ZArith QArith Qcanon Bool List.
From Verif Require Import Base.Str.
Import ListNotations.

Inductive adds_up : list Qc -> Qc -> Prop :=
| adds_nil : adds_up [] 0
| adds_cons x l s : adds_up l s -> adds_up (x :: l) (x + s).
Definition rational (n : nat) : Qc := Q2Qc (inject_Z (Z.of_nat n)).
(** [x] is the mean of [l]: as many times [x] make the sum. *)
Definition mean_of (l : list Qc) (x : Qc) : Prop := l <> [] /\ adds_up l (rational (List.length l) * x)%Qc.
(** [c] is the centre of the nodes [cell] in space of [d] dimensions. *)
Definition centre_of (d : nat) (points : list (list Qc)) (cell : list nat) (c : list Qc) : Prop :=
  List.length c = d /\
  forall a x, nth_error c a = Some x ->
    exists col, Forall2 (fun n v => exists p, nth_error points n = Some p /\ nth_error p a = Some v) cell col /\ mean_of col x.
Inductive dist2 : list Qc -> list Qc -> Qc -> Prop :=
| dist_nil : dist2 [] [] 0
| dist_cons x y p q s : dist2 p q s -> dist2 (x :: p) (y :: q) ((x - y) * (x - y) + s).
(** The cells of a mesh with their types, in order. *)
Definition typed_cells (bs : list (str * list (list nat))) : list (str * list nat) :=
  flat_map (fun b => map (fun c => (fst b, c)) (snd b)) bs.
(** A mesh fit for geometry: cells with nodes among the points, points of [d] coordinates. *)
Definition sound (d : nat) (points : list (list Qc)) (bs : list (str * list (list nat))) : Prop :=
  (forall p, In p points -> List.length p = d) /\
  forall tc, In tc (typed_cells bs) -> snd tc <> [] /\ forall n, In n (snd tc) -> (n < List.length points)%nat.
(** Inside an interval given by its start and its length, either of which may be missing. *)
Definition within (x0 dx : option Qc) (x : Qc) : Prop :=
  (forall a, x0 = Some a -> (a <= x)%Qc) /\ (forall a d, x0 = Some a -> dx = Some d -> (x <= a + d)%Qc).

(** ** Volumes *)
Definition point := (Qc * Qc * Qc)%type.
Local Open Scope Qc_scope.
(** The determinant of three vectors. *)
Definition det (a b c : point) : Qc :=
  let '(ax, ay, az) := a in let '(bx, b_y, bz) := b in let '(cx, cy, cz) := c in
  ax * (b_y * cz - bz * cy) - ay * (bx * cz - bz * cx) + az * (bx * cy - b_y * cx).
Definition minus (a b : point) : point := let '(ax, ay, az) := a in let '(bx, b_y, bz) := b in (ax - bx, ay - b_y, az - bz).
Definition plus (a b : point) : point := let '(ax, ay, az) := a in let '(bx, b_y, bz) := b in (ax + bx, ay + b_y, az + bz).
(** Six times the signed volume of a tetrahedron. *)
Definition six (a b c d : point) : Qc := det (minus b a) (minus c a) (minus d a).
Definition planar (a b c d : point) : Prop := six a b c d = 0.
(** The cone from the origin over a face, cut into triangles; the sum over the faces
    of a closed surface, taken outward, is six times the volume enclosed. *)
Definition cone3 (a b c : point) : Qc := det a b c.
Definition cone4 (a b c d : point) : Qc := det a b c + det a c d.
(** A cell of type [type] has its nodes at [ps], number [i] of the mesh. *)
Definition cell_at (points : list (list Qc)) (bs : list (str * list (list nat))) (i : nat) (type : str) (ps : list point) : Prop :=
  exists cell, nth_error (typed_cells bs) i = Some (type, cell) /\
    Forall2 (fun n p => let '(x, y, z) := p in nth_error points n = Some [x; y; z]) cell ps.
(** [v] is the absolute value of [x]. *)
Definition magnitude (x v : Qc) : Prop := 0 <= v /\ (v = x \/ v = - x).
(** All with the sign [s]: 1 or -1. *)
Definition same_sign (s : Qc) (l : list Qc) : Prop := (s = 1 \/ s = -(1)) /\ Forall (fun x => 0 <= s * x) l.
(** Moving a point. *)
Definition moved (t : point) (p : list Qc) : list Qc :=
  let '(tx, ty, tz) := t in match p with [x; y; z] => [x + tx; y + ty; z + tz] | _ => p end.
(** Node counts of the solid cells. *)
Definition solid_cell (tc : str * list nat) : Prop :=
  (fst tc = $"tetra" /\ List.length (snd tc) = 4%nat) \/ (fst tc = $"pyramid" /\ List.length (snd tc) = 5%nat) \/
  (fst tc = $"wedge" /\ List.length (snd tc) = 6%nat) \/ (fst tc = $"hexahedron" /\ List.length (snd tc) = 8%nat).

(** ** Data *)
Fixpoint value {B} (k : str) (d : list (str * B)) : option B := match d with [] => None | (k', x) :: r => if streqb k k' then Some x else value k r end.
(** [v] is between the least and the greatest of the values taken by [P]. *)
Definition between (P : Qc -> Prop) (v : Qc) : Prop := forall lo hi, (forall x, P x -> lo <= x /\ x <= hi) -> lo <= v /\ v <= hi.
(** The values in [vals] of the cells having [p] as a node; of the nodes of a cell. *)
Definition cell_values (bs : list (str * list (list nat))) (vals : list Qc) (p : nat) (x : Qc) : Prop :=
  exists i tc, nth_error (typed_cells bs) i = Some tc /\ In p (snd tc) /\ nth_error vals i = Some x.
Definition node_values (cell : list nat) (vals : list Qc) (x : Qc) : Prop := exists p, In p cell /\ nth_error vals p = Some x.
