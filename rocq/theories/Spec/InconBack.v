(** What reading the INCON file of a mesh gives. *)
From Coq Require Import String Ascii Arith ZArith QArith Bool List.
From Verif Require Import Base.Str Base.Digits Base.Flt Base.FltText Base.FltRound Model.Py Model.MeshFile Spec.Fields Spec.Values Spec.Rocks Spec.Labels Spec.Incon Spec.MeshBack.
Import ListNotations.
Local Open Scope nat_scope.

(** Values of minus one billion or less are undefined. *)
Definition given (v : flt) : option flt := if Qle_bool (fval v) (- (Qmake 1000000000 1)) then None else Some v.
Definition is_given (v : flt) : bool := match given v with Some _ => true | None => false end.
Definition is_some {A} (x : option A) : bool := match x with Some _ => true | None => false end.
(** The cells in the file: those where something is defined. *)
Definition has_conditions (c : icell) : bool := existsb is_given (ic_values c) || is_some (ic_porosity c) || is_some (ic_userx c).

(** ** Cells whose numbers fit their columns *)
Definition fits_if (w k : nat) (x : option flt) : bool := match x with Some v => sci_fits w k v | None => true end.
(** [k] values, at most eight; with more than four, one after the fourth is defined. *)
Definition condition_fits (n k : nat) (c : icell) : bool :=
  label_ok (ic_label c) && word (ic_label c) && Nat.eqb (List.length (ic_label c)) n &&
  fits_if 15 9 (ic_porosity c) && match ic_userx c with Some u => Nat.eqb (List.length u) 3 && forallb (sci_fits 10 3) u | None => true end &&
  Nat.eqb (List.length (ic_values c)) k && forallb (fun v => is_finite v && fits_if 20 13 (given v)) (ic_values c).
Definition long_filled (k : nat) (c : icell) : bool := Nat.leb k 8 && (Nat.leb k 4 || existsb is_given (skipn 4 (ic_values c))).
(** A cell with a defined value has one that is not negative. *)
Definition not_all_negative (c : icell) : Prop := existsb is_given (ic_values c) = true -> exists v, In v (ic_values c) /\ (0 <= fval v)%Q.

(** ** What is read *)
Definition e_value_if (k : nat) (x : option flt) : pyval := match x with Some v => e_value k v | None => PNone end.
Definition condition_read (c : icell) : dict :=
  known [(#"porosity", e_value_if 9 (ic_porosity c));
         (#"userx", match ic_userx c with Some u => PSeq SList (map (e_value 3) u) | None => PNone end);
         (#"values", PSeq SList (trim (map (fun v => e_value_if 13 (given v)) (ic_values c))))].
Definition conditions_read (cs : list icell) : dict :=
  [(#"initial_conditions", PDict (map (fun c => (KS (ic_label c), PDict (condition_read c))) cs));
   (#"initial_conditions_order", PSeq SList (map (fun c => PStr (ic_label c)) cs))].
