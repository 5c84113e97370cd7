(** The documented kinds of the parameters. *)
From Coq Require Import String Ascii ZArith Bool List.
From Verif Require Import Base.Str Base.Flt Model.Py.
Import ListNotations.

(** Kinds of values.  Python's bool is an int, and an int is a number. *)
Inductive kind :=
| Integer | Number | Boolean | Text | TextOrInteger | Sequence | Dictionary
| NumberOrSequence | TextOrSequence.

Definition integer (v : pyval) : bool :=
  match v with PBool _ | PInt _ | PNpInt _ => true | _ => false end.
Definition number (v : pyval) : bool :=
  integer v || match v with PFloat _ => true | _ => false end.
Definition of_kind (k : kind) (v : pyval) : bool :=
  match k with
  | Integer => integer v
  | Number => number v
  | Boolean => match v with PBool _ => true | _ => false end
  | Text => is_str v
  | TextOrInteger => is_str v || integer v
  | Sequence => is_seq v
  | Dictionary => match v with PDict _ => true | _ => false end
  | NumberOrSequence => number v || is_seq v
  | TextOrSequence => is_str v || is_seq v
  end.

Definition kinds := list (key * kind).
Fixpoint kind_of (k : key) (t : kinds) : option kind :=
  match t with
  | [] => None
  | (k', d) :: r => if key_eqb k k' then Some d else kind_of k r
  end.

(** Every known key holds None or a value of its kind; other keys are free. *)
Definition entry_typed (t : kinds) (kv : key * pyval) : bool :=
  match kind_of (fst kv) t with
  | Some kd => is_none (snd kv) || of_kind kd (snd kv)
  | None => true
  end.
Definition well_typed (t : kinds) (d : dict) : bool := forallb (entry_typed t) d.

Definition same_kind (kd : kind) (ks : list string) : kinds := map (fun s => (KS (lit s), kd)) ks.

Definition kinds_PARAMETERS : kinds :=
  same_kind TextOrSequence ["title"%string] ++ same_kind Text ["eos"%string]
  ++ same_kind Integer ["n_component"; "n_phase"; "n_component_mass"]%string
  ++ same_kind Boolean ["isothermal"; "start"; "nover"; "coordinates"]%string
  ++ same_kind NumberOrSequence ["times"%string]
  ++ same_kind Dictionary ["flac"; "rocks"; "options"; "extra_options"; "more_options";
       "selections"; "solver"; "generators"; "output"; "elements"; "connections";
       "initial_conditions"; "default"]%string
  ++ same_kind Sequence ["rocks_order"; "element_history"; "connection_history";
       "generator_history"; "diffusion"; "elements_order"; "connections_order";
       "initial_conditions_order"]%string.
Definition kinds_ROCKS : kinds :=
  same_kind Number ["density"; "porosity"; "conductivity"; "specific_heat"; "compressibility";
    "expansivity"; "conductivity_dry"; "tortuosity"; "klinkenberg_parameter";
    "distribution_coefficient_3"; "distribution_coefficient_4"]%string
  ++ same_kind NumberOrSequence ["permeability"%string]
  ++ same_kind Sequence ["initial_condition"%string]
  ++ same_kind Dictionary ["relative_permeability"; "capillarity"; "permeability_model";
       "equivalent_pore_pressure"]%string.
Definition kinds_FLAC : kinds :=
  same_kind Boolean ["creep"%string] ++ same_kind Integer ["porosity_model"; "version"]%string.
Definition kinds_MODEL : kinds :=
  same_kind Integer ["id"%string] ++ same_kind Sequence ["parameters"%string].
Definition kinds_PARAM : kinds :=
  same_kind Integer ["n_iteration"; "n_cycle"; "n_second"; "n_cycle_print"; "verbosity"]%string
  ++ same_kind Number ["temperature_dependence_gas"; "effective_strength_vapor"; "t_ini"; "t_max";
       "t_step_max"; "t_reduce_factor"; "gravity"; "mesh_scale_factor"; "eps1"; "eps2";
       "w_upstream"; "w_newton"; "derivative_factor"]%string
  ++ same_kind NumberOrSequence ["t_steps"%string].
Definition numbered (n : nat) : kinds := map (fun i => (KI (Z.of_nat i), Integer)) (seq 1 n).
Definition kinds_SELEC : kinds :=
  same_kind Dictionary ["integers"%string] ++ same_kind Sequence ["floats"%string].
Definition kinds_SOLVR : kinds :=
  same_kind Integer ["method"%string] ++ same_kind Text ["z_precond"; "o_precond"]%string
  ++ same_kind Number ["rel_iter_max"; "eps"]%string.
Definition kinds_GENER : kinds :=
  same_kind TextOrSequence ["name"; "type"]%string
  ++ same_kind NumberOrSequence ["nseq"; "nadd"; "nads"; "times"; "rates"; "specific_enthalpy";
       "layer_thickness"]%string.
Definition kinds_OUTPU : kinds :=
  same_kind Text ["format"%string] ++ same_kind Dictionary ["variables"%string].
Definition kinds_ELEME : kinds :=
  same_kind Integer ["nseq"; "nadd"]%string ++ same_kind TextOrInteger ["material"%string]
  ++ same_kind Number ["volume"; "heat_exchange_area"; "permeability_modifier"]%string
  ++ same_kind Sequence ["center"%string].
Definition kinds_CONNE : kinds :=
  same_kind Integer ["nseq"; "permeability_direction"]%string
  ++ same_kind Sequence ["nadd"; "nodal_distances"]%string
  ++ same_kind Number ["interface_area"; "gravity_cosine_angle"; "radiant_emittance_factor"]%string.
Definition kinds_INCON : kinds :=
  same_kind Number ["porosity"%string] ++ same_kind Sequence ["userx"; "values"]%string.
