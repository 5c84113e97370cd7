(** What the user sees of the GENER block. *)
From Coq Require Import String Ascii ZArith Bool List.
From Verif Require Import Base.Str Base.Digits Base.Flt Model.Py Spec.Fields Spec.Values Spec.Types Spec.Rocks Spec.Layouts Spec.Labels.
Import ListNotations.
Local Open Scope Z_scope.

Definition generators_of (p : dict) : dict := entries (val #"generators" p).
Definition gener_fields : list key :=
  [#"name"; #"nseq"; #"nadd"; #"nads"; #"type"; #"times"; #"rates"; #"specific_enthalpy"; #"layer_thickness"].
Definition other_fields : list key :=
  [#"name"; #"nseq"; #"nadd"; #"nads"; #"times"; #"rates"; #"specific_enthalpy"; #"layer_thickness"].

(** The sources of an element: one when the type is a text, as many as types
    when it is a list of types. *)
Definition sources (g : dict) : list dict :=
  match val #"type" g with
  | PSeq _ l => map (fun i => map (fun k => (k, nth i (items (val k g)) PNone)) gener_fields) (seq 0 (List.length l))
  | _ => [map (fun k => (k, val k g)) gener_fields]
  end.

(** A constant source, or a table of times and rates with or without enthalpies. *)
Definition table_of (m : nat) (v : pyval) : bool :=
  is_seq v && Nat.eqb (List.length (items v)) m && forallb (num_fits 14 7) (items v).
Definition tabular (s : dict) : bool := is_seq (val #"times" s).
Definition steps_of (s : dict) : nat := List.length (items (val #"times" s)).
Definition source_ok (n : nat) (s : dict) : bool :=
  let '(a, b, c) := gener_ints n in
  col_ok (CText 5) (val #"name" s) && col_ok (CInt a) (val #"nseq" s) && col_ok (CInt b) (val #"nadd" s)
  && col_ok (CInt c) (val #"nads" s) && col_ok (CText 4) (val #"type" s) && fits 3 (val #"layer_thickness" s)
  && if tabular s
     then Nat.ltb 1 (steps_of s) && Z.ltb (Z.of_nat (steps_of s)) 100000
          && table_of (steps_of s) (val #"times" s) && table_of (steps_of s) (val #"rates" s)
          && (is_none (val #"specific_enthalpy" s) || table_of (steps_of s) (val #"specific_enthalpy" s))
     else is_none (val #"times" s) && fits 3 (val #"rates" s) && fits 3 (val #"specific_enthalpy" s).
(** A table without enthalpies has no enthalpy entry at all. *)
Definition with_enthalpy (s : dict) : bool := negb (tabular s && is_none (val #"specific_enthalpy" s)).

Definition table_back (v : pyval) : pyval :=
  match v with PSeq _ l => PSeq SList (map (sci 7) l) | _ => sci 3 v end.
Definition source_back (s : dict) : dict :=
  [(#"name", col_val (CText 5) (val #"name" s)); (#"nseq", col_val (CInt 0) (val #"nseq" s));
   (#"nadd", col_val (CInt 0) (val #"nadd" s)); (#"nads", col_val (CInt 0) (val #"nads" s));
   (#"type", col_val (CText 4) (val #"type" s)); (#"layer_thickness", sci 3 (val #"layer_thickness" s));
   (#"times", table_back (val #"times" s)); (#"rates", table_back (val #"rates" s))]
  ++ if with_enthalpy s then [(#"specific_enthalpy", table_back (val #"specific_enthalpy" s))] else [].
(** One source gives its values, several give lists of values. *)
Definition several (vs : list pyval) : pyval :=
  match vs with [v] => v | _ => if forallb is_none vs then PNone else PSeq SList vs end.
Definition generator_back (g : dict) : dict :=
  known (map (fun k => (k, several (map (fun s => val k (source_back s)) (sources g)))) (dkeys (source_back (hd [] (sources g))))).

Definition generator_ok (n : nat) (g : dict) : Prop :=
  keys_unique g /\ well_typed kinds_GENER g = true /\
  match val #"type" g with
  | PStr _ => True
  | PSeq _ l => l <> [] /\
      forallb (fun k => is_none (val k g) || (is_seq (val k g) && Nat.eqb (List.length (items (val k g))) (List.length l))) other_fields = true
  | _ => False
  end /\
  forallb (source_ok n) (sources g) = true /\
  (forallb with_enthalpy (sources g) = true \/ forallb (fun s => negb (with_enthalpy s)) (sources g) = true).

Definition GENER_ok (p : dict) : Prop :=
  let d := generators_of p in
  dget #"generators" p = Some (PDict d) /\ d <> [] /\ keys_unique d /\
  (5 <= label_width d <= 9)%nat /\
  Forall (fun kv => exists s g, kv = (KS s, PDict g) /\ label_ok s = true /\ generator_ok (label_width d) g) d.
(** The label length is given or can be guessed; the name of the first source
    must not start with a digit then. *)
Definition GENER_known (ll : option nat) (p : dict) : Prop :=
  let d := generators_of p in
  match d with
  | [] => True
  | (k, v) :: _ =>
      length_known ll (label_width d) (key_text k)
        (match val #"name" (hd [] (sources (entries v))) with PStr (c :: _) => is_digit c | _ => false end)
  end.
Definition generators_back (p : dict) : dict :=
  map (fun kv => (fst kv, PDict (generator_back (entries (snd kv))))) (generators_of p).
Definition GENER_back (p : dict) : dict := [(#"generators", PDict (generators_back p))].
