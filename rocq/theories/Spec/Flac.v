(** What the RPCAP and FLAC blocks must preserve. *)
From Coq Require Import String Ascii ZArith Bool List.
From Verif Require Import Base.Str Base.Flt Model.Py Spec.Fields Spec.Values Spec.Types Spec.Rocks.
Import ListNotations.

(** ** RPCAP: the default models *)
(** The parameters after having read default values [u]. *)
Definition with_default (u q : dict) : dict :=
  dset #"default" (PDict (dupdate (entries (val #"default" q)) u)) q.
Definition default_readable (q : dict) : Prop :=
  dget #"default" q = None \/ exists d, dget #"default" q = Some (PDict d).

(** ** Values read per rock *)
(** Every rock of [rq] that has an entry in [u] receives its keys. *)
Definition merge_rocks (u rq : dict) : dict :=
  map (fun kv => (fst kv, match dget (fst kv) u with
                          | Some (PDict m) => PDict (dupdate (entries (snd kv)) m)
                          | _ => snd kv
                          end)) rq.
Definition with_rocks (u q : dict) : dict :=
  dset #"rocks" (PDict (merge_rocks u (entries (val #"rocks" q)))) q.
(** The rocks of [q] are dictionaries named as in [order]. *)
Definition has_rocks (order : list pyval) (q : dict) : Prop :=
  exists rq, dget #"rocks" q = Some (PDict rq) /\ dkeys rq = map name_key order /\
    Forall (fun kv => is_dict (snd kv) = true) rq.

(** The order of the rocks usable by FLAC and INDOM: not a numpy array. *)
Definition order_plain (o : pyval) : Prop :=
  match o with PSeq SArray _ => False | _ => True end.

(** ** FLAC *)
Definition flac_model_keys : list key := [#"permeability_model"; #"equivalent_pore_pressure"].
Definition flac_rock_ok (r : dict) : bool :=
  match dget #"permeability_model" r with Some m => model_ok 10 3 m | None => false end
  && match dget #"equivalent_pore_pressure" r with Some m => model_ok 5 3 m | None => false end.
Definition flac_of (p : dict) : dict := entries (val #"flac" p).

Definition FLAC_ok (p : dict) : Prop :=
  dget #"flac" p = Some (PDict (flac_of p)) /\ keys_unique (flac_of p) /\
  well_typed kinds_FLAC (flac_of p) = true /\
  col_ok (CInt 5) (val #"porosity_model" (flac_of p)) = true /\
  col_ok (CInt 5) (val #"version" (flac_of p)) = true /\
  (exists def, dget #"default" p = Some (PDict def) /\ flac_rock_ok def = true) /\
  dget #"rocks" p = Some (PDict (rocks_of p)) /\ dmem #"rocks_order" p = true /\
  order_ok (val #"rocks_order" p) (rocks_of p) /\ order_plain (val #"rocks_order" p) /\
  keys_unique (rocks_of p) /\
  Forall (fun kv => exists s r, kv = (KS s, PDict r) /\ keys_unique r /\ flac_rock_ok r = true) (rocks_of p).

Definition creep_flag (v : pyval) : pyval := match v with PBool true => PInt 1 | _ => PInt 0 end.
Definition flac_back (p : dict) : dict :=
  known [(#"creep", creep_flag (val #"creep" (flac_of p)));
         (#"porosity_model", col_val (CInt 5) (val #"porosity_model" (flac_of p)));
         (#"version", col_val (CInt 5) (val #"version" (flac_of p)))].
Definition flac_rock_back (r : dict) : dict :=
  map (fun k => (k, model_back (entries (val k r)))) flac_model_keys.
Definition flac_rocks_back (p : dict) : dict :=
  map (fun x => (name_key x, PDict (flac_rock_back (rock_named (rocks_of p) x)))) (rocks_order_of p).

(** When the block is read the rocks are known, and they receive the models. *)
Definition FLAC_pre (p : dict) (q : dict) : Prop :=
  dget #"rocks_order" q = Some (PSeq SList (rocks_order_of p)) /\ has_rocks (rocks_order_of p) q.
Definition FLAC_upd (p q : dict) : dict :=
  with_rocks (flac_rocks_back p) (dset #"flac" (PDict (flac_back p)) q).
