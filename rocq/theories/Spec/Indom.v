(** What the user sees of the INDOM block, and of values that may take two
    records (INDOM, INCON). *)
From Coq Require Import String Ascii ZArith Bool List.
From Verif Require Import Base.Str Base.Flt Model.Py Spec.Fields Spec.Values Spec.Types Spec.Rocks Spec.Flac.
Import ListNotations.

(** Text that does not read as a number, even with the exponent letter left out
    as Fortran does for three-digit exponents. *)
Definition not_number (s : str) : bool :=
  match parse_float s, parse_float (drop_last 4 s ++ "e"%char :: last_n 4 s) with
  | None, None => true
  | _, _ => false
  end.

(** Up to eight values; more than four take a second record, which must hold
    something. *)
Definition present (v : pyval) : bool := negb (absent v).
Definition long (l : list pyval) : bool := Nat.ltb 4 (List.length l).
Definition values_ok (l : list pyval) : bool :=
  Nat.leb (List.length l) 8 && forallb (col_ok (CSci 20 13)) l
  && implb (long l) (existsb present (skipn 4 l)).
(** Entries with a second record come first. *)
Fixpoint longs_first (l : list bool) : bool :=
  match l with
  | [] => true
  | true :: r => longs_first r
  | false :: r => forallb negb r
  end.

(** ** INDOM: the rocks with an initial condition, in the order written *)
Definition condition_of (r : dict) : list pyval := items (val #"initial_condition" r).
Definition has_condition (r : dict) : bool := existsb not_none (condition_of r).
Definition indom_rocks (p : dict) : list pyval :=
  filter (fun x => has_condition (rock_named (rocks_of p) x)) (rocks_order_of p).

Definition INDOM_ok (p : dict) : Prop :=
  dget #"rocks" p = Some (PDict (rocks_of p)) /\ dmem #"rocks_order" p = true /\
  order_ok (val #"rocks_order" p) (rocks_of p) /\ order_plain (val #"rocks_order" p) /\
  keys_unique (rocks_of p) /\
  Forall (fun kv => exists s r, kv = (KS s, PDict r) /\
            match dget #"initial_condition" r with None | Some (PSeq _ _) => True | _ => False end /\
            (has_condition r = true -> name_ok 5 s = true /\ not_number s = true /\ values_ok (condition_of r) = true))
         (rocks_of p) /\
  longs_first (map (fun x => long (condition_of (rock_named (rocks_of p) x))) (indom_rocks p)) = true.

Definition indom_back (p : dict) : dict :=
  map (fun x => (name_key x, PDict [(#"initial_condition", sci_list 13 (condition_of (rock_named (rocks_of p) x)))]))
      (indom_rocks p).
