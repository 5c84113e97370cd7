(** Results exported without a mesh. *)
From Coq Require Import String Ascii Arith ZArith QArith Qcanon Bool Sorted List.
From Verif Require Import Base.Str Base.Flt Base.FltRound Model.Output Model.ExportPlain Spec.Output Spec.Import Spec.Export Spec.Grid.
Import ListNotations.
Local Open Scope nat_scope.

(** The step asked, the last by default. *)
Definition asked (outs : list output) (time_step : option Z) (o : output) : Prop :=
  match time_step with
  | Some z => exists i, nth_error outs i = Some o /\ (Z.of_nat i = z \/ (Z.of_nat i = z + Z.of_nat (List.length outs))%Z)
  | None => nth_error outs (List.length outs - 1) = Some o
  end.
(** The number [q] is what the column holds. *)
Definition valued (x : flt) (q : Qc) : Prop := match x with Fin s m e => (this q == qval 2 (if s then - m else m) e)%Q | _ => False end.
(** [n] elements whose coordinate number [a] is [C a]: that of the column X, Y or Z,
    zero without such a column. *)
Definition located (o : output) (n : nat) (C : nat -> list Qc) : Prop :=
  n <> 0 /\ o_data o <> [] /\ (forall k c, In (k, c) (o_data o) -> List.length c = n) /\ (exists k, coordinate_name k /\ In k (names o)) /\
  forall a k, nth_error [$"X"; $"Y"; $"Z"] a = Some k -> match find_column k (o_data o) with Some c => Forall2 valued c (C a) | None => C a = repeat (Q2Qc 0) n end.
(** The axes along which they vary; the first when they do not. *)
Definition axes (C : nat -> list Qc) (axis : list nat) : Prop :=
  StronglySorted lt axis /\
  ((exists a, a < 3 /\ varying (C a)) -> forall a, In a axis <-> a < 3 /\ varying (C a)) /\
  (~ (exists a, a < 3 /\ varying (C a)) -> axis = [0]).
(** The centres along these axes; and in space, zero along the others. *)
Definition centres_along (C : nat -> list Qc) (axis : list nat) (n : nat) : list (list Qc) :=
  map (fun i => map (fun a => nth i (C a) (Q2Qc 0)) axis) (seq 0 n).
Definition centres_in_space (C : nat -> list Qc) (axis : list nat) (n : nat) : list (list Qc) :=
  map (fun i => map (fun a => if existsb (Nat.eqb a) axis then nth i (C a) (Q2Qc 0) else Q2Qc 0) [0; 1; 2]) (seq 0 n).
(** All columns but the coordinates. *)
Definition results_only (o : output) (d : list (str * list flt)) : Prop := forall k c, In (k, c) d <-> In (k, c) (o_data o) /\ ~ coordinate_name k.

(** Bounds of cells along an axis, from the origin: the centres are in the middle; a
    single cell has size one. *)
Definition edges (xs : list Qc) (x0 : Qc) (v : list Qc) : Prop :=
  nth_error v 0 = Some x0 /\ List.length v = List.length xs + 1 /\ (List.length xs = 1 -> v = [x0; x0 + 1]%Qc) /\
  (1 < List.length xs -> forall i c a b, nth_error xs i = Some c -> nth_error v i = Some a -> nth_error v (i + 1) = Some b -> ((a + b) / Q2Qc 2 = c)%Qc).
(** The boxes between these bounds, at their ranks. *)
Definition voxels (xs ys zs : list Qc) (x0 y0 z0 : Qc) (layer : bool) (points : list (list Qc)) (cells : list (str * list (list nat))) : Prop :=
  exists vx vy vz cs, edges xs x0 vx /\ edges ys y0 vy /\ edges zs z0 vz /\ cells = [($"hexahedron", cs)] /\
    List.length cs = List.length xs * List.length ys * List.length zs /\
    forall i j k, i < List.length xs -> j < List.length ys -> k < List.length zs ->
      exists vs ax bx ay by_ az bz, nth_error cs (rank3 layer (List.length xs) (List.length ys) (List.length zs) i j k) = Some vs /\
        map (nth_error points) vs = map Some (box ax bx ay by_ az bz) /\
        nth_error vx i = Some ax /\ nth_error vx (i + 1) = Some bx /\ nth_error vy j = Some ay /\ nth_error vy (j + 1) = Some by_ /\ nth_error vz k = Some az /\ nth_error vz (k + 1) = Some bz.
(** The column [w] of the cells has, in each box, the value of [c] of the element
    there. *)
Definition in_boxes (xs ys zs : list Qc) (layer : bool) (centres : list (list Qc)) (c w : list flt) : Prop :=
  List.length w = List.length xs * List.length ys * List.length zs /\
  forall i j k x y z e, nth_error xs i = Some x -> nth_error ys j = Some y -> nth_error zs k = Some z -> nth_error centres e = Some [x; y; z] ->
    nth_error w (rank3 layer (List.length xs) (List.length ys) (List.length zs) i j k) = nth_error c e.
(** The origin is before the first centre, if there are several. *)
Definition before (x0 : Qc) (xs : list Qc) : Prop := List.length xs = 1 \/ exists a, nth_error xs 0 = Some a /\ (x0 < a)%Qc.
(** No mesh is used: none given, or Tecplot results. *)
Definition meshless (a : export_args) (outs : list output) : Prop := a_mesh a = None \/ Forall (fun o => o_format o = $"tecplot") outs.
(** The cells of a triangulation. *)
Definition simplex (axis : list nat) : str := if List.length axis =? 2 then $"triangle" else $"tetra".
Definition timed (o : output) : Prop := exists t, o_time o = Some t.
(** A single layer of boxes, numbered as the elements. *)
Definition one_layer (xs ys zs : list Qc) (layer : bool) : Prop := List.length zs = 1 /\ (layer = true \/ List.length xs = 1 \/ List.length ys = 1).
(** An origin which cannot be used. *)
Definition bad_origin (a : export_args) : Prop := a_origin a = None \/ exists p, a_origin a = Some p /\ List.length p <> 3.
