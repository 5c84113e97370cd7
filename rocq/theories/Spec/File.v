(** What the user sees of a whole input file. *)
From Coq Require Import String Ascii ZArith Bool List.
From Verif Require Import Base.Str Base.Digits Base.Flt Model.Py Spec.Fields Spec.Values Spec.Types Spec.Rocks Spec.Flac
  Spec.Simple Spec.Param Spec.Indom Spec.Outpu Spec.Labels Spec.Mesh Spec.Incon Spec.Gener.
Import ListNotations.
Local Open Scope Z_scope.

(** ** The title: lines that do not look like the start of a block *)
Definition starts_block (s : str) : bool := existsb (fun kw => startswith kw s) block_names.
Definition title_ok (v : pyval) : Prop :=
  exists s, v = PStr s /\ trimmed s = true /\ one_line s = true /\ starts_block s = false.
Definition titles_of (p : dict) : list pyval := times_list (val #"title" p).
(** One line comes back as a text, several as a list; no line, no title. *)
Definition title_back (p : dict) : dict :=
  match titles_of p with
  | [] => []
  | l => [(#"title", one_or_list l)]
  end.

(** ** Which blocks a file holds *)
(** Neither missing, empty, zero nor false. *)
Definition filled (v : pyval) : bool :=
  match v with
  | PNone => false
  | PBool b => b
  | PInt z | PNpInt z => negb (Z.eqb z 0)
  | PFloat _ => true
  | PStr s => nonempty s
  | PSeq _ l => negb (Nat.eqb (List.length l) 0)
  | PDict d => negb (Nat.eqb (List.length d) 0)
  end.
Definition given (k : key) (p : dict) : bool := not_none (val k p).
Definition default_of (p : dict) : dict := entries (val #"default" p).
(** A default model with an id. *)
Definition model_given (def : dict) (k : key) : bool := not_none (val #"id" (entries (val k def))).
Definition rpcap_given (p : dict) : bool := existsb (model_given (default_of p)) model_keys.
Definition multi_given (p : dict) : bool :=
  filled (val #"eos" p) || (filled (val #"n_component" p) && filled (val #"n_phase" p)).
(** A rock with a value among its first four initial conditions. *)
Definition indom_given (p : dict) : bool :=
  existsb (fun kv => existsb not_none (firstn 4 (condition_of (entries (snd kv))))) (rocks_of p).

(** ** The parameters that come back: one step per block of the file *)
Definition FILE_steps (p : dict) : list (bool * (dict -> dict)) :=
  [(rpcap_given p, with_default (models_back (default_of p)));
   (given #"flac" p, FLAC_upd p);
   (multi_given p, fun q => dupdate q (MULTI_back p));
   (filled (val #"solver" p), fun q => dupdate q (SOLVR_back p));
   (filled (val #"start" p), dset #"start" (PBool true));
   (true, PARAM_upd p);
   (filled (val #"selections" p), fun q => dupdate q (SELEC_back p));
   (indom_given p, with_rocks (indom_back p));
   (filled (val #"more_options" p), fun q => dupdate q (MOMOP_back p));
   (given #"times" p, fun q => dupdate q (TIMES_back p));
   (given #"element_history" p, fun q => dupdate q (OFT_back #"element_history" p));
   (given #"connection_history" p, fun q => dupdate q (OFT_back #"connection_history" p));
   (given #"generator_history" p, fun q => dupdate q (OFT_back #"generator_history" p));
   (filled (val #"generators" p), fun q => dupdate q (GENER_back p));
   (given #"diffusion" p, fun q => dupdate q (DIFFU_back p));
   (filled (val #"output" p), fun q => dupdate q (OUTPU_back p));
   (filled (val #"elements" p), ELEME_upd p);
   (filled (val #"coordinates" p), COORD_upd p);
   (filled (val #"connections" p), fun q => dupdate q (CONNE_back p));
   (filled (val #"initial_conditions" p), fun q => dupdate q (INCON_back p));
   (filled (val #"nover" p), dset #"nover" (PBool true))].
Definition run_steps (l : list (bool * (dict -> dict))) (q : dict) : dict :=
  fold_left (fun q s => if fst s : bool then snd s q else q) l q.
Definition FILE_back (p : dict) : dict :=
  run_steps (FILE_steps p) (dupdate (title_back p) (ROCKS_back p)).

(** ** Parameters that can be written: the blocks present are well formed *)
Definition FILE_ok (p : dict) : Prop :=
  well_typed kinds_PARAMETERS p = true /\
  Forall title_ok (titles_of p) /\
  ROCKS_ok p /\ RPCAP_ok p /\ PARAM_ok p /\
  Forall (fun kv => match dget #"initial_condition" (entries (snd kv)) with
                    | None | Some (PSeq _ _) => True | _ => False end) (rocks_of p) /\
  (given #"flac" p = true -> FLAC_ok p) /\
  (multi_given p = true -> MULTI_ok p) /\
  (filled (val #"solver" p) = true -> SOLVR_ok p) /\
  (filled (val #"selections" p) = true -> SELEC_ok p) /\
  (indom_given p = true -> INDOM_ok p) /\
  (filled (val #"more_options" p) = true -> MOMOP_ok p) /\
  (given #"times" p = true -> TIMES_ok p) /\
  (given #"element_history" p = true -> OFT_ok 5 #"element_history" p) /\
  (given #"connection_history" p = true -> OFT_ok 10 #"connection_history" p) /\
  (given #"generator_history" p = true -> OFT_ok 5 #"generator_history" p) /\
  (filled (val #"generators" p) = true -> GENER_ok p) /\
  (given #"diffusion" p = true -> DIFFU_ok p) /\
  (filled (val #"output" p) = true -> OUTPU_ok p) /\
  (filled (val #"elements" p) = true -> ELEME_ok p) /\
  (filled (val #"coordinates" p) = true -> filled (val #"elements" p) = true /\ COORD_ok p) /\
  (filled (val #"connections" p) = true -> CONNE_ok p) /\
  (filled (val #"initial_conditions" p) = true -> INCON_ok p).

(** The label length given to the reader, or what it can guess. *)
Definition FILE_known (ll : option nat) (p : dict) : Prop :=
  (filled (val #"generators" p) = true -> GENER_known ll p) /\
  (filled (val #"elements" p) = true -> ELEME_known ll p) /\
  (filled (val #"connections" p) = true -> CONNE_known ll p) /\
  (filled (val #"initial_conditions" p) = true -> INCON_known ll p).

(** ** What the writer completes before writing *)
(** Own value first, else the other one. *)
Definition pick (own other : option pyval) : option pyval := match own with Some v => Some v | None => other end.
Definition blank_dict (ks : list key) : dict := map (fun k => (k, PNone)) ks.
(** Top-level entries of the package: START is on, everything else is off. *)
Definition top_defaults : dict :=
  [(#"eos", PStr []); (#"start", PBool true)]
  ++ map (fun k => (k, PBool false)) [#"isothermal"; #"nover"; #"coordinates"]
  ++ blank_dict [#"n_component"; #"n_phase"; #"n_component_mass"; #"flac"; #"rocks_order"; #"diffusion"; #"times";
                 #"element_history"; #"connection_history"; #"generator_history"; #"output"; #"elements_order";
                 #"connections_order"; #"initial_conditions_order"]
  ++ map (fun k => (k, PDict [])) [#"options"; #"extra_options"; #"more_options"; #"selections"; #"solver"; #"generators";
                                   #"elements"; #"connections"; #"initial_conditions"].
Definition bare_model (id : pyval) : pyval := PDict [(#"id", id); (#"parameters", PSeq SList [])].
Definition rock_defaults : dict :=
  [(#"initial_condition", PSeq SList [PNone; PNone; PNone; PNone; PNone; PNone]);
   (#"relative_permeability", bare_model PNone); (#"capillarity", bare_model PNone);
   (#"permeability_model", bare_model (PInt 1)); (#"equivalent_pore_pressure", bare_model (PInt 3))]
  ++ blank_dict (#"permeability" :: scalar_keys ++ extra_keys).
(** Entries a rock does not take from the defaults. *)
Definition rock_own : list key := [#"initial_condition"; #"relative_permeability"; #"capillarity"].
Definition completes (u p : dict) : Prop :=
  (forall k, ~ In k [#"title"; #"default"; #"rocks"] -> dget k p = pick (dget k u) (dget k top_defaults)) /\
  titles_of p = times_list (match dget #"title" u with Some t => t | None => PStr [] end) /\
  (exists def, dget #"default" p = Some (PDict def) /\
     forall k, dget k def = pick (dget k (entries (val #"default" u))) (dget k rock_defaults)) /\
  (exists rs, dget #"rocks" p = Some (PDict rs) /\ dkeys rs = dkeys (entries (val #"rocks" u)) /\
     forall name r, In (name, r) rs -> exists own, dget name (entries (val #"rocks" u)) = Some (PDict own) /\
       forall k, dget k (entries r) = pick (dget k own)
                   (if existsb (key_eqb k) rock_own then None else dget k (default_of p))).

(** ** The parameters read, entry by entry *)
Definition when_some (b : bool) (v : pyval) : option pyval := if b then Some v else None.
Definition rocks_read (p : dict) : dict :=
  let r := rocks_back p in
  let r := if given #"flac" p then merge_rocks (flac_rocks_back p) r else r in
  if indom_given p then merge_rocks (indom_back p) r else r.
Definition default_read (p : dict) : dict :=
  dupdate (if rpcap_given p then models_back (default_of p) else []) (conditions_back p).
Definition FILE_entry (p : dict) (k : key) : option pyval :=
  let is s := key_eqb k s in
  if is #"title" then match titles_of p with [] => None | l => Some (one_or_list l) end
  else if is #"rocks" then Some (PDict (rocks_read p))
  else if is #"rocks_order" then Some (PSeq SList (rocks_order_of p))
  else if is #"default" then Some (PDict (default_read p))
  else if is #"options" then Some (PDict (PARAM_options p))
  else if is #"extra_options" then Some (PDict (options_back 24 (mop_of p)))
  else if is #"start" then when_some (filled (val #"start" p)) (PBool true)
  else if is #"nover" then when_some (filled (val #"nover" p)) (PBool true)
  else if is #"flac" then when_some (given #"flac" p) (PDict (flac_back p))
  else if existsb is [#"n_component"; #"isothermal"; #"n_phase"] then if multi_given p then dget k (MULTI_back p) else None
  else if is #"solver" then if filled (val k p) then dget k (SOLVR_back p) else None
  else if is #"selections" then if filled (val k p) then dget k (SELEC_back p) else None
  else if is #"more_options" then if filled (val k p) then dget k (MOMOP_back p) else None
  else if is #"times" then if given k p then dget k (TIMES_back p) else None
  else if existsb is [#"element_history"; #"connection_history"; #"generator_history"]
       then if given k p then dget k (OFT_back k p) else None
  else if is #"generators" then if filled (val k p) then dget k (GENER_back p) else None
  else if is #"diffusion" then if given k p then dget k (DIFFU_back p) else None
  else if is #"output" then if filled (val k p) then dget k (OUTPU_back p) else None
  else if is #"elements" then when_some (filled (val #"elements" p))
         (PDict (if filled (val #"coordinates" p) then with_centers p (elements_back p) else elements_back p))
  else if is #"elements_order" then when_some (filled (val #"elements" p)) (PSeq SList (elements_order_of p))
  else if is #"coordinates" then when_some (filled (val #"elements" p)) (PBool (filled (val #"coordinates" p)))
  else if existsb is [#"connections"; #"connections_order"] then if filled (val #"connections" p) then dget k (CONNE_back p) else None
  else if existsb is [#"initial_conditions"; #"initial_conditions_order"]
       then if filled (val #"initial_conditions" p) then dget k (INCON_back p) else None
  else None.

(** ** When the title ends *)
(** The first line opens a block, or some later line opens ROCKS; spaces around
    the line do not matter. *)
Definition title_ends (ls : list str) : bool :=
  match ls with
  | [] => false
  | l :: r => existsb (fun kw => startswith kw (strip l)) [$"ROCKS"; $"ELEME"; $"INCON"; $"GENER"]
              || existsb (fun l => startswith ($"ROCKS") (strip l)) r
  end.
(** Label lengths that the reader takes. *)
Definition label_length_ok (ll : option Z) : bool :=
  match ll with None => true | Some z => (5 <=? z) && (z <=? 9) end.

(** ** The mesh blocks alone *)
Definition MESH_back (p : dict) : dict :=
  run_steps [(true, ELEME_upd p); (filled (val #"coordinates" p), COORD_upd p);
             (filled (val #"connections" p), fun q => dupdate q (CONNE_back p))] [].
