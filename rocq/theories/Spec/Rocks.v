(** What the ROCKS and RPCAP blocks must preserve.  The parameters are those the
    writer works on: every rock holds all the keys below (the writer fills the
    missing ones with the defaults before writing, see Spec/File.v). *)
From Coq Require Import String Ascii ZArith Bool List.
From Verif Require Import Base.Str Base.Flt Model.Py Spec.Fields Spec.Values Spec.Types.
Import ListNotations.

(** A name that fits [w] columns. *)
Definition name_ok (w : nat) (s : str) : bool :=
  nonempty s && trimmed s && Nat.leb (List.length s) w && one_line s.

Definition scalar_keys : list key := [#"density"; #"porosity"; #"conductivity"; #"specific_heat"].
Definition extra_keys : list key :=
  [#"compressibility"; #"expansivity"; #"conductivity_dry"; #"tortuosity";
   #"klinkenberg_parameter"; #"distribution_coefficient_3"; #"distribution_coefficient_4"].
Definition model_keys : list key := [#"relative_permeability"; #"capillarity"].

(** A number, or nothing, that fits a 10-column field with [k] decimals. *)
Definition fits (k : nat) (v : pyval) : bool := col_ok (CSci 10 k) v.

(** The three permeabilities. *)
Definition perms (v : pyval) : list pyval := match v with PSeq _ l => l | v => [v; v; v] end.
Definition perm_ok (v : pyval) : bool :=
  match v with
  | PSeq _ l => Nat.eqb (List.length l) 3 && forallb (fits 4) l
  | PDict _ => false
  | v => fits 4 v
  end.
Definition perm_back (v : pyval) : pyval :=
  match map (sci 4) (perms v) with
  | [a; b; c] => if simple_eqb a b && simple_eqb a c then a else PSeq SList [a; b; c]
  | _ => PNone
  end.

(** A relative permeability or capillarity model: an id and up to seven numbers. *)
Definition model_ok (w k : nat) (v : pyval) : bool :=
  match v with
  | PDict m =>
      well_typed kinds_MODEL m && dmem #"id" m && dmem #"parameters" m
      && col_ok (CInt w) (val #"id" m) && is_seq (val #"parameters" m)
      && forallb (fits k) (firstn 7 (items (val #"parameters" m)))
  | _ => false
  end.
Definition model_id (m : dict) : pyval := col_val (CInt 0) (val #"id" m).
Definition model_back (m : dict) : pyval :=
  PDict [(#"id", model_id m); (#"parameters", sci_list 3 (firstn 7 (items (val #"parameters" m))))].

(** The models of a rock (or of the defaults) that come back: those with an id. *)
Definition models_back (r : dict) : dict :=
  flat_map (fun k => match dget k r with
                     | Some (PDict m) => if is_none (model_id m) then [] else [(k, model_back m)]
                     | _ => []
                     end) model_keys.

Definition rock_ok (r : dict) : bool :=
  well_typed kinds_ROCKS r
  && forallb (fun k => dmem k r) (#"permeability" :: scalar_keys ++ extra_keys)
  && forallb (fun k => fits 4 (val k r)) (scalar_keys ++ extra_keys)
  && perm_ok (val #"permeability" r)
  && forallb (fun k => match dget k r with Some m => model_ok 5 3 m | None => true end) model_keys.

Definition rock_back (r : dict) : dict :=
  known ([(#"density", sci 4 (val #"density" r)); (#"porosity", sci 4 (val #"porosity" r));
          (#"permeability", perm_back (val #"permeability" r));
          (#"conductivity", sci 4 (val #"conductivity" r));
          (#"specific_heat", sci 4 (val #"specific_heat" r))]
         ++ map (fun k => (k, sci 4 (val k r))) extra_keys)
  ++ models_back r.

(** The names in the order in which they are written: the given order first,
    then the missing ones. *)
Definition full_order (given : pyval) (d : dict) : list pyval :=
  match given with
  | PSeq _ l => l ++ filter (fun x => negb (existsb (simple_eqb x) l)) (map key_val (dkeys d))
  | _ => map key_val (dkeys d)
  end.

(** A usable order: no name twice, no unknown name; a tuple or array cannot be
    completed, so it must hold all names. *)
Definition order_ok (given : pyval) (d : dict) : Prop :=
  match given with
  | PNone => True
  | PSeq k l =>
      NoDup l /\ Forall (fun x => exists s, x = PStr s /\ In (KS s) (dkeys d)) l /\
      (k = SList \/ forall s, In (KS s) (dkeys d) -> In (PStr s) l)
  | _ => False
  end.

Definition rocks_of (p : dict) : dict := entries (val #"rocks" p).
Definition rocks_order_of (p : dict) : list pyval := full_order (val #"rocks_order" p) (rocks_of p).

Definition ROCKS_ok (p : dict) : Prop :=
  (exists def, dget #"default" p = Some (PDict def) /\ well_typed kinds_ROCKS def = true) /\
  dget #"rocks" p = Some (PDict (rocks_of p)) /\ dmem #"rocks_order" p = true /\
  order_ok (val #"rocks_order" p) (rocks_of p) /\
  keys_unique (rocks_of p) /\
  Forall (fun kv => exists s r, kv = (KS s, PDict r) /\ name_ok 5 s = true /\ rock_ok r = true) (rocks_of p).

(** The rock of a name. *)
Definition rock_named (d : dict) (x : pyval) : dict :=
  match x with PStr s => entries (val (KS s) d) | _ => [] end.
Definition name_key (x : pyval) : key := match x with PStr s => KS s | _ => KNone end.

Definition rocks_back (p : dict) : dict :=
  map (fun x => (name_key x, PDict (rock_back (rock_named (rocks_of p) x)))) (rocks_order_of p).
Definition ROCKS_back (p : dict) : dict :=
  [(#"rocks", PDict (rocks_back p)); (#"rocks_order", PSeq SList (rocks_order_of p))].

(** RPCAP: the default models. *)
Definition RPCAP_ok (p : dict) : Prop :=
  exists def, dget #"default" p = Some (PDict def) /\ keys_unique def /\
    forallb (fun k => match dget k def with Some m => model_ok 5 3 m | None => false end) model_keys = true.
