(** Cells of grids. *)
From Coq Require Import Arith Bool List.
Import ListNotations.

(** The rank of the cell in interval [i] along x, [j] along y, [k] along z: by
    layers from the top, or by columns, each from the top. *)
Definition rank3 (layer : bool) (nx ny nz i j k : nat) : nat :=
  if layer then ((nz - 1 - k) * ny + j) * nx + i else (i * ny + j) * nz + (nz - 1 - k).
Definition rank2 (layer : bool) (nx ny i j : nat) : nat := if layer then j * nx + i else i * ny + j.
(** The corners of a box, in the order of the nodes of a hexahedron. *)
Definition box {C} (x0 x1 y0 y1 z0 z1 : C) : list (list C) :=
  [[x0; y0; z0]; [x1; y0; z0]; [x1; y1; z0]; [x0; y1; z0]; [x0; y0; z1]; [x1; y0; z1]; [x1; y1; z1]; [x0; y1; z1]].
Definition rectangle {C} (x0 x1 y0 y1 z : C) : list (list C) := [[x0; y0; z]; [x1; y0; z]; [x1; y1; z]; [x0; y1; z]].

(** Intervals of widths [d] one after the other from [o]: their bounds and their
    centres. *)
From Coq Require Import QArith Qcanon.
Fixpoint bounds (o : Qc) (d : list Qc) : list Qc := o :: match d with [] => [] | w :: r => bounds (o + w)%Qc r end.
Fixpoint centres (o : Qc) (d : list Qc) : list Qc := match d with [] => [] | w :: r => (o + w / Q2Qc 2)%Qc :: centres (o + w)%Qc r end.
(** All points with coordinates in three lists, in any order. *)
Definition full_grid {A} (xs ys zs : list A) (points : list (list A)) : Prop :=
  NoDup points /\ (forall p, In p points <-> exists x y z, p = [x; y; z] /\ In x xs /\ In y ys /\ In z zs).
Definition increasing (l : list Qc) : Prop := forall i j x y, (i < j)%nat -> nth_error l i = Some x -> nth_error l j = Some y -> (x < y)%Qc.

(** The element whose data the voxel of rank [n] gets: number [n] in the order of
    heights, then y, then x. *)
Definition source (layer : bool) (nx ny nz i j k : nat) : (nat * nat * nat)%type :=
  let n := rank3 layer nx ny nz i j k in (n mod nx, (n / nx) mod ny, n / nx / ny)%nat.

(** The coordinates of output elements along an axis: zeros when there are none. *)
Definition coordinate (n : nat) (o : option (list Qc)) : list Qc := match o with Some l => l | None => repeat (Q2Qc 0) n end.
Definition varying (l : list Qc) : Prop := exists x y, In x l /\ In y l /\ x <> y.
