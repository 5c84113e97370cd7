(** What the type checks of the writer demand. *)
From Coq Require Import String Ascii ZArith Bool List.
From Verif Require Import Base.Str Model.Py Model.Write Spec.Types Spec.Values Spec.Rocks Spec.File.
Import ListNotations.

(** The entry [k] is a dictionary with values of the listed kinds. *)
Definition dict_typed (t : kinds) (k : key) (p : dict) : Prop :=
  exists d, dget k p = Some (PDict d) /\ well_typed t d = true.
(** The entry [k] is a dictionary of such dictionaries. *)
Definition each_typed (t : kinds) (k : key) (p : dict) : Prop :=
  exists d, dget k p = Some (PDict d) /\ Forall (fun kv => exists x, snd kv = PDict x /\ well_typed t x = true) d.
(** Every rock that has a model [k] has a well-typed one. *)
Definition models_typed (k : key) (p : dict) : Prop :=
  exists d, dget #"rocks" p = Some (PDict d) /\
    Forall (fun kv => exists x, snd kv = PDict x /\
              match dget k x with Some m => exists y, m = PDict y /\ well_typed kinds_MODEL y = true | None => True end) d.
Definition default_typed (k : key) (p : dict) : Prop :=
  exists d m, dget #"default" p = Some (PDict d) /\ dget k d = Some (PDict m) /\ well_typed kinds_MODEL m = true.

Definition GENER_checked (p : dict) : Prop := filled (val #"generators" p) = true -> each_typed kinds_GENER #"generators" p.
Definition MESH_checked (p : dict) : Prop :=
  (filled (val #"elements" p) = true -> each_typed kinds_ELEME #"elements" p) /\
  (filled (val #"connections" p) = true -> each_typed kinds_CONNE #"connections" p).
Definition INCON_checked (p : dict) : Prop :=
  filled (val #"initial_conditions" p) = true -> each_typed kinds_INCON #"initial_conditions" p.

(** All that is checked when all blocks are written. *)
Definition FILE_checked (p : dict) : Prop :=
  well_typed kinds_PARAMETERS p = true /\
  dict_typed kinds_ROCKS #"default" p /\ each_typed kinds_ROCKS #"rocks" p /\
  models_typed #"relative_permeability" p /\ models_typed #"capillarity" p /\
  (rpcap_given p = true -> default_typed #"relative_permeability" p /\ default_typed #"capillarity" p) /\
  (given #"flac" p = true -> dict_typed kinds_FLAC #"flac" p /\
     default_typed #"permeability_model" p /\ default_typed #"equivalent_pore_pressure" p /\
     models_typed #"permeability_model" p /\ models_typed #"equivalent_pore_pressure" p) /\
  (filled (val #"solver" p) = true -> dict_typed kinds_SOLVR #"solver" p) /\
  dict_typed kinds_PARAM #"options" p /\ dict_typed (numbered 24) #"extra_options" p /\
  (filled (val #"selections" p) = true -> dict_typed kinds_SELEC #"selections" p) /\
  (filled (val #"more_options" p) = true -> dict_typed (numbered 40) #"more_options" p) /\
  (filled (val #"output" p) = true -> dict_typed kinds_OUTPU #"output" p) /\
  GENER_checked p /\ MESH_checked p /\ INCON_checked p.

(** Blocks with one dictionary, and blocks with one per name. *)
Definition single_blocks : list ((dict -> res (list str)) * key * kinds) :=
  [(write_flac, #"flac", kinds_FLAC); (write_solvr, #"solver", kinds_SOLVR); (write_param, #"options", kinds_PARAM);
   (write_selec, #"selections", kinds_SELEC); (write_momop, #"more_options", numbered 40);
   (write_outpu, #"output", kinds_OUTPU)].
Definition named_blocks : list ((dict -> res (list str)) * key * kinds) :=
  [(write_gener, #"generators", kinds_GENER); (write_eleme, #"elements", kinds_ELEME);
   (write_conne, #"connections", kinds_CONNE); (write_incon, #"initial_conditions", kinds_INCON)].
