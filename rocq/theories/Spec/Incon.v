(** What the user sees of the INCON block. *)
From Coq Require Import String Ascii ZArith Bool List.
From Verif Require Import Base.Str Base.Digits Base.Flt Model.Py Spec.Fields Spec.Values Spec.Types Spec.Rocks Spec.Layouts Spec.Labels Spec.Indom.
Import ListNotations.
Local Open Scope Z_scope.

Definition incons_of (p : dict) : dict := entries (val #"initial_conditions" p).
Definition incons_order_of (p : dict) : list pyval :=
  order_list (val #"initial_conditions_order" p) (incons_of p).

(** A word: it starts with a letter and does not spell infinity or NaN. *)
Definition is_letter (c : ascii) : bool := is_upper c || is_lower c.
Definition word (s : str) : bool :=
  match s with c :: _ => is_letter c | [] => false end
  && negb (existsb (streqb (lower s)) [$"inf"; $"infinity"; $"nan"]).

Definition userx_of (e : dict) : list pyval := firstn 5 (items (val #"userx" e)).
Definition values_of (e : dict) : list pyval := items (val #"values" e).
Definition absent_or_seq (k : key) (e : dict) : Prop :=
  match dget k e with None | Some (PSeq _ _) => True | _ => False end.
Definition incon_ok (e : dict) : Prop :=
  keys_unique e /\ well_typed kinds_INCON e = true /\
  col_ok (CSci 15 9) (val #"porosity" e) = true /\
  absent_or_seq #"userx" e /\ forallb (fits 3) (userx_of e) = true /\
  absent_or_seq #"values" e /\ values_ok (values_of e) = true.
Definition incon_back (e : dict) : dict :=
  known [(#"porosity", sci 9 (val #"porosity" e));
         (#"userx", match trim (map (sci 3) (userx_of e)) with [] => PNone | l => PSeq SList l end);
         (#"values", sci_list 13 (values_of e))].

Definition INCON_ok (p : dict) : Prop :=
  let d := incons_of p in
  dget #"initial_conditions" p = Some (PDict d) /\ dmem #"initial_conditions_order" p = true /\ d <> [] /\
  keys_unique d /\ subset_ok (val #"initial_conditions_order" p) d /\
  (5 <= label_width d <= 9)%nat /\
  Forall (fun kv => exists s e, kv = (KS s, PDict e) /\ label_ok s = true /\ word s = true /\ incon_ok e) d /\
  longs_first (map (fun x => long (values_of (rock_named d x))) (incons_order_of p)) = true.
Definition INCON_known (ll : option nat) (p : dict) : Prop :=
  first_known ll (label_width (incons_of p)) (incons_order_of p) (fun _ => false).
Definition incons_back (p : dict) : dict :=
  map (fun x => (name_key x, PDict (incon_back (rock_named (incons_of p) x)))) (incons_order_of p).
Definition INCON_back (p : dict) : dict :=
  [(#"initial_conditions", PDict (incons_back p));
   (#"initial_conditions_order", PSeq SList (incons_order_of p))].
