(** Results of a simulation on the cells of a mesh. *)
From Coq Require Import String Ascii ZArith QArith Qcanon Reals Qreals Bool List.
From Verif Require Import Base.Str Base.Flt Model.MeshOps Spec.Geometry.
Import ListNotations.

Definition find_column {B} (k : str) (d : list (str * B)) : option B := option_map snd (find (fun kx => streqb (fst kx) k) d).

(** Only the data of the cells may differ. *)
Definition geometry_kept {C V} (m m' : mesh C V) : Prop :=
  dim m' = dim m /\ points m' = points m /\ cells m' = cells m /\ point_data m' = point_data m /\ field_data m' = field_data m.

Definition xyz := (R * R * R)%type.
Local Open Scope R_scope.
Definition zero3 : xyz := (0, 0, 0).
Definition plus3 (a b : xyz) : xyz := let '(ax, ay, az) := a in let '(bx, b_y, bz) := b in (ax + bx, ay + b_y, az + bz).
Definition minus3 (a b : xyz) : xyz := let '(ax, ay, az) := a in let '(bx, b_y, bz) := b in (ax - bx, ay - b_y, az - bz).
Definition scale3 (x : R) (a : xyz) : xyz := let '(ax, ay, az) := a in (x * ax, x * ay, x * az).
Definition norm3 (a : xyz) : R := let '(ax, ay, az) := a in sqrt (ax * ax + ay * ay + az * az).
(** The vector of length [q] that points from one place to another. *)
Definition towards (from to : xyz) (q : R) : xyz := scale3 (q / norm3 (minus3 to from)) (minus3 to from).

(** What cell [c] receives: the vectors of all flows which enter it.  A positive
    flow goes from the second cell of a connection to the first, a negative one
    from the first to the second. *)
Inductive inflow (pos : str -> xyz -> Prop) (c : str) : list ((str * str) * R) -> xyz -> Prop :=
| inflow_nil : inflow pos c [] zero3
| inflow_first b v pc pb rows s : 0 < v -> pos c pc -> pos b pb -> inflow pos c rows s ->
    inflow pos c (((c, b), v) :: rows) (plus3 (towards pb pc v) s)
| inflow_second a v pa pc rows s : v < 0 -> pos a pa -> pos c pc -> inflow pos c rows s ->
    inflow pos c (((a, c), v) :: rows) (plus3 (towards pa pc (- v)) s)
| inflow_other a b v rows s : (0 < v -> a <> c) -> (v < 0 -> b <> c) -> inflow pos c rows s ->
    inflow pos c (((a, b), v) :: rows) s.

(** The number written in a file. *)
Definition finite (x : flt) : Prop := exists s m e, x = Fin s m e.
Definition amount (x : flt) : R := match x with Fin s m e => (if s then -1 else 1) * IZR m * powerRZ 2 e | _ => 0 end.
(** The place of a cell given by its label. *)
Definition cell_place (points : list (list Qc)) (bs : list (str * list (list nat))) (labels : list str) (l : str) (p : xyz) : Prop :=
  exists j tc x y z, nth_error labels j = Some l /\ nth_error (typed_cells bs) j = Some tc /\
    centre_of 3 points (snd tc) [x; y; z] /\ p = (Q2R (this x), Q2R (this y), Q2R (this z)).
(** The other way to write the same connection. *)
Inductive same_flow : (str * str) * R -> (str * str) * R -> Prop :=
| same_way a b v : same_flow ((a, b), v) ((a, b), v)
| other_way a b v : same_flow ((a, b), v) ((b, a), - v).
(** The labels of a connection in an output. *)
Definition pair_labels (ab : str * str) : list str := [fst ab; snd ab].
(** Two cells of the mesh at different places. *)
Definition connected (place : str -> xyz -> Prop) (labels : list str) (ab : str * str) : Prop :=
  In (fst ab) labels /\ In (snd ab) labels /\ forall pa pb, place (fst ab) pa -> place (snd ab) pb -> pa <> pb.
