(** What the user sees of the OUTPU block. *)
From Coq Require Import String Ascii ZArith Bool List.
From Verif Require Import Base.Str Base.Digits Base.Flt Model.Py Spec.Fields Spec.Values Spec.Types Spec.Rocks Spec.Simple.
Import ListNotations.
Local Open Scope Z_scope.

Definition output_of (p : dict) : dict := entries (val #"output" p).
Definition variables_of (p : dict) : dict := entries (val #"variables" (output_of p)).

(** The format in capitals; it must not look like the number of variables. *)
Definition format_ok (v : pyval) : Prop :=
  match v with
  | PNone | PStr [] => True
  | PStr s => name_ok 20 (upper s) = true /\ forallb is_digit (upper s) = false
  | _ => False
  end.
Definition format_back (v : pyval) : dict :=
  match v with
  | PStr (c :: s) => [(#"format", PStr (upper (c :: s)))]
  | _ => []
  end.

(** The index lists of a variable: none or one index, a list of indices, or
    several such lists of the same length. *)
Definition index_rows (v : pyval) : list (list pyval) :=
  match v with
  | PSeq _ (PSeq k x :: l) => map items (PSeq k x :: l)
  | PSeq _ l => [l]
  | v => [[v]]
  end.
Definition indices_ok (l : list pyval) : bool := forallb (col_ok (CInt 5)) l.
Definition variable_ok (v : pyval) : Prop :=
  Forall (fun r => indices_ok r = true) (index_rows v) /\
  match v with
  | PSeq _ (PSeq k x :: l) =>
      Forall (fun y => is_seq y = true /\ List.length (items y) = List.length x) l
  | PSeq _ l => l <> []
  | PDict _ => False
  | _ => True
  end.
Definition indices_back (r : list pyval) : list pyval := trim (map (col_val (CInt 5)) (firstn 2 r)).
Definition variable_back (v : pyval) : pyval :=
  match map indices_back (index_rows v) with
  | [[]] => PNone
  | [[x]] => x
  | [r] => PSeq SList r
  | rs => PSeq SList (map (PSeq SList) rs)
  end.

Definition n_variables (p : dict) : nat :=
  fold_right Nat.add 0%nat (map (fun kv => List.length (index_rows (snd kv))) (variables_of p)).
Definition key_lower (k : key) : key := match k with KS s => KS (lower s) | k => k end.

Definition OUTPU_ok (p : dict) : Prop :=
  dget #"output" p = Some (PDict (output_of p)) /\ keys_unique (output_of p) /\
  well_typed kinds_OUTPU (output_of p) = true /\
  format_ok (val #"format" (output_of p)) /\
  dget #"variables" (output_of p) = Some (PDict (variables_of p)) /\
  variables_of p <> [] /\
  Forall (fun kv => exists s, fst kv = KS s /\ name_ok 20 (upper s) = true /\ variable_ok (snd kv)) (variables_of p) /\
  NoDup (map key_lower (dkeys (variables_of p))) /\
  (List.length (print_Z (Z.of_nat (n_variables p))) <= 15)%nat.
Definition OUTPU_back (p : dict) : dict :=
  [(#"output", PDict (format_back (val #"format" (output_of p))
      ++ [(#"variables", PDict (map (fun kv => (key_lower (fst kv), variable_back (snd kv))) (variables_of p)))]))].
