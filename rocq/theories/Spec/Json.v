(** What a JSON input file should keep of the parameters. *)
From Coq Require Import String Ascii ZArith Bool List.
From Verif Require Import Base.Str Base.Flt Model.Py Model.Json.
Import ListNotations.
Local Open Scope Z_scope.

Definition all {A} (P : A -> Prop) : list A -> Prop :=
  fix go l := match l with [] => True | a :: r => P a /\ go r end.
Definition is_name (k : okey) : Prop := exists s, k = OKey (KS s).
Definition is_number (k : okey) : Prop := exists z, k = OKey (KI z).

(** Elements of a numpy array: scalars and nested arrays. *)
Fixpoint array_item (x : obj) : Prop :=
  match x with
  | OOther | ODict _ | OSeq SList _ | OSeq STuple _ => False
  | OSeq SArray l => all array_item l
  | _ => True
  end.
(** Objects of the usual classes, dictionaries having distinct names as keys. *)
Fixpoint writable (x : obj) : Prop :=
  match x with
  | OOther => False
  | OSeq SArray l => all array_item l
  | OSeq _ l => all writable l
  | ODict d => NoDup (map fst d) /\ all (fun kv => match kv with (k, v) => is_name k /\ writable v end) d
  | _ => True
  end.

(** The same object, with lists for sequences and plain integers; names in the
    same order. *)
Inductive same : obj -> obj -> Prop :=
| same_none : same ONone ONone
| same_bool b : same (OBool b) (OBool b)
| same_int z : same (OInt z) (OInt z)
| same_np z : same (ONpInt z) (OInt z)
| same_float x : same (OFloat x) (OFloat x)
| same_str s : same (OStr s) (OStr s)
| same_seq k l l' : Forall2 same l l' -> same (OSeq k l) (OSeq SList l')
| same_dict d d' : Forall2 (fun a b => fst a = fst b /\ same (snd a) (snd b)) d d' -> same (ODict d) (ODict d').

(** Options: distinct integers as keys. *)
Definition options_ok (v : obj) : Prop :=
  exists d, v = ODict d /\ NoDup (map fst d) /\ Forall (fun kv => is_number (fst kv) /\ writable (snd kv)) d.
(** The same options, in any order. *)
Definition same_options (v w : obj) : Prop :=
  exists d d', v = ODict d /\ w = ODict d' /\ NoDup (map fst d') /\
    forall k, match oget k d, oget k d' with
              | Some x, Some y => same x y
              | None, None => True
              | _, _ => False
              end.
(** Selections: names, of which "integers" holds options. *)
Definition selection_ok (kv : okey * obj) : Prop :=
  is_name (fst kv) /\ (fst kv = OKey #"integers" -> options_ok (snd kv)) /\
  (fst kv <> OKey #"integers" -> writable (snd kv)).
Definition selections_ok (v : obj) : Prop :=
  exists d, v = ODict d /\ NoDup (map fst d) /\ In (OKey #"integers") (map fst d) /\ Forall selection_ok d.
Definition same_selections (v w : obj) : Prop :=
  exists d d', v = ODict d /\ w = ODict d' /\
    Forall2 (fun a b => fst a = fst b /\ (fst a = OKey #"integers" -> same_options (snd a) (snd b)) /\
                        (fst a <> OKey #"integers" -> same (snd a) (snd b))) d d'.

(** A parameter, by its name. *)
Definition numbered_names : list okey := [OKey #"extra_options"; OKey #"more_options"].
Definition param_ok (k : okey) (v : obj) : Prop :=
  (In k numbered_names -> options_ok v) /\ (k = OKey #"selections" -> selections_ok v) /\
  (~ In k numbered_names -> k <> OKey #"selections" -> writable v).
Definition same_param (k : okey) (v w : obj) : Prop :=
  (In k numbered_names -> same_options v w) /\ (k = OKey #"selections" -> same_selections v w) /\
  (~ In k numbered_names -> k <> OKey #"selections" -> same v w).
Definition params_ok (p : odict) : Prop :=
  NoDup (map fst p) /\ Forall (fun kv => is_name (fst kv) /\ param_ok (fst kv) (snd kv)) p.
Definition same_params (p q : odict) : Prop :=
  Forall2 (fun a b => fst a = fst b /\ same_param (fst a) (snd a) (snd b)) p q.
