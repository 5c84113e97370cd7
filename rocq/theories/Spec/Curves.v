(** What is expected of the relative permeability and capillarity models. *)
From Coq Require Import Reals List.
From Verif Require Import Model.Py.
Import ListNotations.
Local Open Scope R_scope.

(** Arithmetic on a set of representable numbers: results are rounded monotonically,
    representable numbers are kept, and the difference of two different representable
    numbers is not rounded to zero (gradual underflow).  Holds of IEEE arithmetic as
    long as nothing overflows, and of exact arithmetic. *)
Record rounding (rd : R -> R) (rep : R -> Prop) : Prop := {
  rd_mono : forall x y, x <= y -> rd x <= rd y;
  rd_rep : forall x, rep x -> rd x = x;
  rd_in : forall x, rep (rd x);
  rep_0 : rep 0;
  rep_1 : rep 1;
  rep_opp : forall x, rep x -> rep (- x);
  rd_sub : forall x y, rep x -> rep y -> x <> y -> rd (y - x) <> 0 }.

Definition fraction (x : R) : Prop := 0 <= x <= 1.
(** A pair of relative permeabilities, both fractions *)
Definition fractions (r : res (R * R)) : Prop := exists kl kg, r = Ok (kl, kg) /\ fraction kl /\ fraction kg.
(** From a saturation to a larger one, the liquid permeability does not decrease and
    the gas permeability does not increase *)
Definition ordered (r r' : res (R * R)) : Prop :=
  exists kl kg kl' kg', r = Ok (kl, kg) /\ r' = Ok (kl', kg') /\ kl <= kl' /\ kg' <= kg.
(** A capillary pressure: not positive and not below the cut-off *)
Definition suction (cut : R) (r : res R) : Prop := exists p, r = Ok p /\ - cut <= p <= 0.
Definition not_positive (r : res R) : Prop := exists p, r = Ok p /\ p <= 0.
Definition rising (r r' : res R) : Prop := exists p p', r = Ok p /\ r' = Ok p' /\ p <= p'.
(** The ramp near full saturation never amplifies: beyond 0.999, 1 - sl is at most 0.001,
    also after rounding *)
Definition gentle (rd : R -> R) (rep : R -> Prop) : Prop :=
  0 < rd (1 / 1000) /\ forall s, rep s -> rd (999 / 1000) < s -> rd (1 - s) <= rd (1 / 1000).
