(** Parameters with entries that have their default values. *)
From Coq Require Import String Ascii ZArith Bool List.
From Verif Require Import Base.Str Base.Flt Model.Py.
Import ListNotations.

(** The same entries and others, which have the values of the table of defaults. *)
Inductive padded (defaults : dict) : dict -> dict -> Prop :=
| padded_nil : padded defaults [] []
| padded_same : forall kv d d', padded defaults d d' -> padded defaults (kv :: d) (kv :: d')
| padded_more : forall k v d d', dget k defaults = Some v -> padded defaults d d' -> padded defaults d ((k, v) :: d').
Definition longer (defaults : dict) (v w : pyval) : Prop :=
  v = w \/ exists d d', v = PDict d /\ w = PDict d' /\ NoDup (dkeys d') /\ padded defaults d d'.

(** The default values, as documented. *)
Definition nothing (l : list key) : dict := map (fun k => (k, PNone)) l.
Definition numbers (n : nat) : list key := map (fun i => KI (Z.of_nat i)) (seq 1 n).
Definition options_defaults : dict := nothing
  [#"n_iteration"; #"n_cycle"; #"n_second"; #"n_cycle_print"; #"verbosity"; #"temperature_dependence_gas"; #"effective_strength_vapor"; #"t_ini"; #"t_max"; #"t_steps"; #"t_step_max";
   #"t_reduce_factor"; #"gravity"; #"mesh_scale_factor"; #"eps1"; #"eps2"; #"w_upstream"; #"w_newton"; #"derivative_factor"].
Definition solver_defaults : dict :=
  [(#"z_precond", PStr ($"Z0")); (#"o_precond", PStr ($"O0")); (#"rel_iter_max", PFloat (flt_of_dec false 1 (-1))); (#"eps", PFloat (flt_of_dec false 1 (-6)))].
Definition flac_defaults : dict := (#"creep", PBool false) :: nothing [#"porosity_model"; #"version"].
Definition generators_defaults : dict := nothing [#"name"; #"nseq"; #"nadd"; #"nads"; #"type"; #"times"; #"rates"; #"specific_enthalpy"; #"layer_thickness"].
Definition elements_defaults : dict := (#"material", PStr []) :: nothing [#"nseq"; #"nadd"; #"volume"; #"heat_exchange_area"; #"permeability_modifier"].
Definition connections_defaults : dict :=
  nothing [#"nseq"; #"nadd"; #"permeability_direction"; #"nodal_distances"; #"interface_area"; #"gravity_cosine_angle"; #"radiant_emittance_factor"].
Definition initial_defaults : dict := [(#"porosity", PNone); (#"userx", PSeq SList (repeat PNone 5)); (#"values", PSeq SList (repeat PNone 4))].
Definition parameters_defaults : dict :=
  [(#"title", PStr []); (#"eos", PStr []); (#"isothermal", PBool false); (#"start", PBool true); (#"nover", PBool false); (#"coordinates", PBool false)] ++
  nothing [#"n_component"; #"n_phase"; #"n_component_mass"; #"flac"; #"rocks_order"; #"diffusion"; #"times"; #"element_history"; #"connection_history"; #"generator_history"; #"output";
    #"elements_order"; #"connections_order"; #"initial_conditions_order"] ++
  map (fun k => (k, PDict [])) [#"rocks"; #"options"; #"extra_options"; #"more_options"; #"selections"; #"solver"; #"generators"; #"elements"; #"connections"; #"initial_conditions"; #"default"].
Definition group_defaults : list (key * dict) :=
  [(#"options", options_defaults); (#"extra_options", nothing (numbers 24)); (#"more_options", nothing (numbers 40)); (#"solver", solver_defaults); (#"flac", flac_defaults);
   (#"output", nothing [#"format"; #"variables"])].
Definition row_defaults : list (key * dict) :=
  [(#"generators", generators_defaults); (#"elements", elements_defaults); (#"connections", connections_defaults); (#"initial_conditions", initial_defaults)].
Fixpoint table_of (k : key) (l : list (key * dict)) : option dict :=
  match l with [] => None | (k', d) :: r => if key_eqb k k' then Some d else table_of k r end.

(** Two dictionaries with the same keys and related values. *)
Definition rows_of (R : key -> pyval -> pyval -> Prop) (v w : pyval) : Prop :=
  v = w \/ exists d d', v = PDict d /\ w = PDict d' /\ Forall2 (fun a b => fst a = fst b /\ R (fst a) (snd a) (snd b)) d d'.
(** A value and the same value with default values spelled out; what is written when it is not empty must not be empty. *)
Definition spelled (k : key) (v w : pyval) : Prop :=
  match table_of k group_defaults with
  | Some t => longer t v w /\ (In k [#"more_options"; #"solver"; #"output"] -> v = PDict [] -> w = PDict [])
  | None => match table_of k row_defaults with
            | Some t => rows_of (fun _ => longer t) v w
            | None => if key_eqb k #"selections" then rows_of (fun k => if key_eqb k #"integers" then longer (nothing (numbers 16)) else eq) v w else v = w
            end
  end.
Definition all_spelled (u u' : dict) : Prop := Forall2 (fun a b => fst a = fst b /\ spelled (fst a) (snd a) (snd b)) u u'.
