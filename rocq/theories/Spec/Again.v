(** When the parameters read from a file, written again, give the same file. *)
From Coq Require Import String Ascii ZArith Bool List.
From Verif Require Import Base.Str Base.Digits Base.Flt Base.FltText Model.Py Spec.Fields Spec.Values Spec.Types Spec.Rocks Spec.Flac Spec.Simple Spec.Param Spec.Indom Spec.Outpu Spec.Labels Spec.Mesh Spec.Incon Spec.Gener Spec.File.
Import ListNotations.
Local Open Scope Z_scope.

(** ** Numbers *)
(** Zero, of magnitude 10^-99 to 10^99, or not finite. *)
Definition calm_num (x : flt) : bool := flt_rng x || negb (is_finite x).
(** Every number met in a value. *)
Fixpoint calm (v : pyval) : bool :=
  match v with
  | PFloat x => calm_num x
  | PInt z | PNpInt z => calm_num (flt_of_Z z)
  | PSeq _ l => forallb calm l
  | PDict d => forallb (fun kv => calm (snd kv)) d
  | _ => true
  end.

(** ** Rocks *)
(** A model without id does not come back. *)
Definition has_id (m : pyval) : bool := not_none (val #"id" (entries m)).
Definition rock_steady (r : dict) : bool :=
  forallb (fun k => match dget k r with Some m => has_id m | None => true end) model_keys.
(** A default model without id leaves its parameters behind. *)
Definition default_steady (def : dict) : bool :=
  forallb (fun k => match dget k def with
                    | Some m => has_id m || forallb absent (firstn 7 (items (val #"parameters" (entries m))))
                    | None => true end) model_keys.

(** ** INDOM: a rock whose values are all empty texts does not come back *)
Definition no_texts (l : list pyval) : bool := forallb (fun v => negb (is_str v)) l.

(** ** PARAM: time steps are needed, and the default conditions keep their number of records *)
Definition steps_steady (l : list pyval) : bool := match l with [] | [PNone] => false | _ => true end.
Definition conditions_steady (l : list pyval) : bool :=
  if existsb present l then implb (long l) (existsb present (skipn 4 l)) else long l.
(** ** SELEC: there are floats *)
Definition floats_steady (rows : list pyval) : bool :=
  match rows with [] => false | [r] => existsb present (items r) | _ => true end.
(** ** MULTI: the number of components written with the mass does not come back *)
Definition mass_steady (v : pyval) : bool := match int_of v with Some z => Z.eqb z 0 | None => true end.
(** ** MOMOP: there is an option *)
Definition some_option (d : dict) : bool := existsb (fun kv => not_none (snd kv)) d.
(** ** ELEME, CONNE, INCON: the labels written are as long as the longest label *)
Definition order_steady (o : pyval) (d : dict) : bool :=
  Nat.eqb (label_width (map (fun x => (name_key x, PNone)) (order_list o d))) (label_width d).
(** ** COORD: the centre read with more digits prints like the first one in ELEME *)
Definition rounds_once (v : pyval) : bool :=
  match num_of v with Some x => streqb (fmt_e 3 (rnd_e 13 x)) (fmt_e 3 x) | None => true end.
Definition center_steady (e : dict) : bool := forallb rounds_once (three (val #"center" e)).
(** ** GENER: an element has a source with a type *)
Definition type_steady (g : dict) : bool := existsb present (times_list (val #"type" g)).
(** ** OUTPU: the lists of indices of a variable still have the same length *)
Definition rows_steady (v : pyval) : bool :=
  let rs := map indices_back (index_rows v) in
  forallb (fun r => Nat.eqb (List.length r) (List.length (hd [] rs))) rs.

(** ** The whole file *)
Definition FILE_steady (p : dict) : bool :=
  let each (f : dict -> bool) (d : dict) := forallb (fun kv => f (entries (snd kv))) d in
  calm (PDict p) && filled (val #"start" p) && negb (given #"flac" p)
  && negb (Nat.eqb (List.length (titles_of p)) 0)
  && steps_steady (Param.steps_of p) && conditions_steady (conditions_of p)
  && each rock_steady (rocks_of p)
  && implb (indom_given p) (each (fun r => no_texts (condition_of r)) (rocks_of p))
  && implb (rpcap_given p) (default_steady (default_of p))
  && implb (multi_given p) (mass_steady (val #"n_component_mass" p))
  && implb (filled (val #"selections" p)) (floats_steady (float_rows (selec_floats p)))
  && implb (filled (val #"more_options" p)) (some_option (momop_of p))
  && implb (filled (val #"generators" p)) (each type_steady (generators_of p))
  && implb (filled (val #"output" p)) (forallb (fun kv => rows_steady (snd kv)) (variables_of p))
  && implb (filled (val #"elements" p)) (order_steady (val #"elements_order" p) (elements_of p))
  && implb (filled (val #"coordinates" p)) (each center_steady (elements_of p))
  && implb (filled (val #"connections" p)) (order_steady (val #"connections_order" p) (connections_of p))
  && implb (filled (val #"initial_conditions" p)) (order_steady (val #"initial_conditions_order" p) (incons_of p)).
