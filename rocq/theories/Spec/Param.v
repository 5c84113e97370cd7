(** What the user of write_input / read_input sees of the PARAM block. *)
From Coq Require Import String Ascii ZArith Bool List.
From Verif Require Import Base.Str Base.Flt Model.Py Spec.Fields Spec.Values Spec.Types Spec.Rocks Spec.Simple.
Import ListNotations.
Local Open Scope Z_scope.

Definition options_of (p : dict) : dict := entries (val #"options" p).
Definition mop_of (p : dict) : dict := entries (val #"extra_options" p).
Definition conditions_of (p : dict) : list pyval :=
  items (val #"initial_condition" (entries (val #"default" p))).

(** Settings with their columns: small integers, and numbers. *)
Definition int_options : list (key * nat) :=
  [(#"n_iteration", 2%nat); (#"verbosity", 2%nat); (#"n_cycle", 4%nat); (#"n_second", 4%nat); (#"n_cycle_print", 4%nat)].
Definition num_options : list key :=
  [#"temperature_dependence_gas"; #"effective_strength_vapor"; #"t_ini"; #"t_max"; #"t_step_max"; #"gravity";
   #"t_reduce_factor"; #"mesh_scale_factor"; #"eps1"; #"eps2"; #"w_upstream"; #"w_newton"; #"derivative_factor"].

(** Time steps: numbers, or nothing at all. *)
Definition steps_of (p : dict) : list pyval := times_list (val #"t_steps" (options_of p)).
Definition steps_ok (l : list pyval) : Prop :=
  (Forall (fun v => num_fits 10 4 v = true) l \/ l = [PNone]) /\ Z.of_nat (List.length l) < 10000000.
(** Without time steps an empty list comes back, and an empty list is a zero. *)
Definition steps_back (l : list pyval) : pyval :=
  match l with
  | [] => PInt 0
  | [PNone] => PSeq SList []
  | l => one_or_list (map (sci 4) l)
  end.

Definition PARAM_ok (p : dict) : Prop :=
  dget #"options" p = Some (PDict (options_of p)) /\ keys_unique (options_of p) /\
  well_typed kinds_PARAM (options_of p) = true /\
  dget #"extra_options" p = Some (PDict (mop_of p)) /\ options_ok 24 (mop_of p) /\
  (exists def sk, dget #"default" p = Some (PDict def) /\
     dget #"initial_condition" def = Some (PSeq sk (conditions_of p))) /\
  (List.length (conditions_of p) <= 8)%nat /\
  forallb (col_ok (CSci 20 13)) (conditions_of p) = true /\
  forallb (fun kw => col_ok (CInt (snd kw)) (val (fst kw) (options_of p))) int_options = true /\
  forallb (fun k => fits 4 (val k (options_of p))) num_options = true /\
  steps_ok (steps_of p).

Definition PARAM_options (p : dict) : dict :=
  let o := options_of p in
  let int k := (k, col_val (CInt 4) (val k o)) in
  let n k := (k, sci 4 (val k o)) in
  known [int #"n_iteration"; int #"verbosity"; int #"n_cycle"; int #"n_second"; int #"n_cycle_print";
         n #"temperature_dependence_gas"; n #"effective_strength_vapor"; n #"t_ini"; n #"t_max";
         (#"t_steps", steps_back (steps_of p)); n #"t_step_max"; n #"gravity"; n #"t_reduce_factor";
         n #"mesh_scale_factor"; n #"eps1"; n #"eps2"; n #"w_upstream"; n #"w_newton"; n #"derivative_factor"].
Definition conditions_back (p : dict) : dict :=
  match trim (map (sci 13) (conditions_of p)) with
  | [] => []
  | l => [(#"initial_condition", PSeq SList l)]
  end.
(** The parameters [q] read so far, with the options and the initial conditions. *)
Definition PARAM_upd (p q : dict) : dict :=
  let q := dset #"extra_options" (PDict (options_back 24 (mop_of p)))
             (dset #"options" (PDict (PARAM_options p)) q) in
  dset #"default" (PDict (dupdate (entries (val #"default" q)) (conditions_back p))) q.
