(** Parameters that differ by entries with names the package does not know. *)
From Coq Require Import String Ascii ZArith Bool List.
From Verif Require Import Base.Str Model.Py Spec.DictOrder.
Import ListNotations.

(** The names of the parameters at all levels, /repo/toughio/_io/input/tough/_helpers.py:9-126. *)
Definition known_names : list string :=
  ["title"; "eos"; "n_component"; "n_phase"; "n_component_mass"; "flac"; "isothermal"; "start"; "nover"; "rocks"; "rocks_order";
   "options"; "extra_options"; "more_options"; "selections"; "solver"; "generators"; "diffusion"; "times"; "element_history";
   "connection_history"; "generator_history"; "output"; "elements"; "elements_order"; "coordinates"; "connections";
   "connections_order"; "initial_conditions"; "initial_conditions_order"; "default";
   "density"; "porosity"; "permeability"; "conductivity"; "specific_heat"; "compressibility"; "expansivity"; "conductivity_dry";
   "tortuosity"; "klinkenberg_parameter"; "distribution_coefficient_3"; "distribution_coefficient_4"; "initial_condition";
   "relative_permeability"; "capillarity"; "permeability_model"; "equivalent_pore_pressure"; "id"; "parameters";
   "creep"; "porosity_model"; "version";
   "n_iteration"; "n_cycle"; "n_second"; "n_cycle_print"; "verbosity"; "temperature_dependence_gas"; "effective_strength_vapor";
   "t_ini"; "t_max"; "t_steps"; "t_step_max"; "t_reduce_factor"; "gravity"; "mesh_scale_factor"; "eps1"; "eps2"; "w_upstream";
   "w_newton"; "derivative_factor"; "integers"; "floats"; "method"; "z_precond"; "o_precond"; "rel_iter_max"; "eps";
   "name"; "nseq"; "nadd"; "nads"; "type"; "rates"; "specific_enthalpy"; "layer_thickness"; "format"; "variables";
   "material"; "volume"; "heat_exchange_area"; "permeability_modifier"; "center";
   "permeability_direction"; "nodal_distances"; "interface_area"; "gravity_cosine_angle"; "radiant_emittance_factor";
   "userx"; "values"]%string.
Definition known (k : key) : bool := existsb (fun s => key_eqb k (KS (lit s))) known_names.

(** The same entries among those with a known name, in any order. *)
Definition entries_known (R : key -> pyval -> pyval -> Prop) (d d' : dict) : Prop :=
  NoDup (dkeys d) /\ NoDup (dkeys d') /\
  forall k, known k = true -> match dget k d, dget k d' with Some v, Some w => R k v w | None, None => True | _, _ => False end.
Definition known_in (R : key -> pyval -> pyval -> Prop) (v w : pyval) : Prop :=
  match v, w with PDict d, PDict d' => entries_known R d d' | _, _ => v = w end.
(** Inside a rock, default or selections: the integers keep their entries, the models may have others. *)
Definition inside_known (k : key) (v w : pyval) : Prop :=
  if key_eqb k #"integers" then mixed (fun _ => eq) v w
  else if existsb (key_eqb k) model_names then known_in (fun _ => eq) v w else v = w.
(** Dictionaries whose keys are numbers; dictionaries that are written only if they are not empty. *)
Definition number_names : list key := [#"extra_options"; #"more_options"].
Definition switch_names : list key := [#"solver"; #"selections"; #"output"].
Definition parameter_known (k : key) (v w : pyval) : Prop :=
  if existsb (key_eqb k) number_names then mixed inside v w
  else if existsb (key_eqb k) switch_names then known_in inside_known v w /\ (v = PDict [] <-> w = PDict [])
  else if existsb (key_eqb k) group_names then known_in inside_known v w
  else if existsb (key_eqb k) table_names then rows (known_in inside_known) v w
  else v = w.
