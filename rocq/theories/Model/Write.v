(** Input file writer: /repo/toughio/_io/input/tough/_write.py, with the
    defaults of /repo/toughio/_io/input/tough/_common.py.

    Python mutates deep copies; here every function takes the parameter
    dictionary and returns its records.  The only mutation one block makes that
    a later block sees is the extension of "rocks_order" in _write_rocks
    (_write.py:164-168), which is threaded explicitly. *)
From Coq Require Import String Ascii ZArith Bool Lia List.
From Verif Require Import Base.Str Base.Digits Base.Flt Base.FltInt Model.Py Model.Records.
Import ListNotations.
Local Open Scope Z_scope.

Definition pnil : pyval := PSeq SList [].  (* the literal [], _common.py:139-142 *)
Definition pnones (n : nat) : pyval := PSeq SList (repeat PNone n).  (* [None for _ in range(n)], _common.py:121,122,138 *)

(** _Parameters, _common.py:1-33 *)
Definition d_Parameters : dict :=
  [(#"title", PStr []); (#"eos", PStr []); (#"n_component", PNone); (#"n_phase", PNone);
   (#"n_component_mass", PNone); (#"flac", PNone); (#"isothermal", PBool false);
   (#"start", PBool true); (#"nover", PBool false); (#"rocks", PDict []);
   (#"rocks_order", PNone); (#"options", PDict []); (#"extra_options", PDict []);
   (#"more_options", PDict []); (#"selections", PDict []); (#"solver", PDict []);
   (#"generators", PDict []); (#"diffusion", PNone); (#"times", PNone);
   (#"element_history", PNone); (#"connection_history", PNone);
   (#"generator_history", PNone); (#"output", PNone); (#"elements", PDict []);
   (#"elements_order", PNone); (#"coordinates", PBool false); (#"connections", PDict []);
   (#"connections_order", PNone); (#"initial_conditions", PDict []);
   (#"initial_conditions_order", PNone); (#"default", PDict [])].

(** flac, _common.py:37-41 *)
Definition d_flac : dict :=
  [(#"creep", PBool false); (#"porosity_model", PNone); (#"version", PNone)].

(** selections["integers"], _common.py:44 *)
Definition d_integers : dict := map (fun k => (k, PNone)) (int_keys 16).

(** options, _common.py:48-68 *)
Definition d_options : dict :=
  map (fun k => (k, PNone))
    [#"n_iteration"; #"n_cycle"; #"n_second"; #"n_cycle_print"; #"verbosity";
     #"temperature_dependence_gas"; #"effective_strength_vapor"; #"t_ini"; #"t_max";
     #"t_steps"; #"t_step_max"; #"t_reduce_factor"; #"gravity"; #"mesh_scale_factor";
     #"eps1"; #"eps2"; #"w_upstream"; #"w_newton"; #"derivative_factor"].

(** extra_options and more_options, _common.py:70,72 *)
Definition d_extra_options : dict := map (fun k => (k, PNone)) (int_keys 24).
Definition d_more_options : dict := map (fun k => (k, PNone)) (int_keys 40).  (* _common.py:72 *)

(** solver, _common.py:74-80; the two floats are 0.1 and 1.0e-6 *)
Definition d_solver : dict :=
  [(#"id", PInt 3); (#"z_precond", PStr ($"Z0")); (#"o_precond", PStr ($"O0"));
   (#"rel_iter_max", PFloat (flt_of_dec false 1 (-1))); (#"eps", PFloat (flt_of_dec false 1 (-6)))].

(** generators, _common.py:82-92 *)
Definition d_generators : dict :=
  map (fun k => (k, PNone))
    [#"name"; #"nseq"; #"nadd"; #"nads"; #"type"; #"times"; #"rates"; #"specific_enthalpy";
     #"layer_thickness"].

(** output, _common.py:94-97 *)
Definition d_output : dict := [(#"format", PNone); (#"variables", PNone)].

(** elements, _common.py:99-107 *)
Definition d_elements : dict :=
  [(#"nseq", PNone); (#"nadd", PNone); (#"material", PStr []); (#"volume", PNone);
   (#"heat_exchange_area", PNone); (#"permeability_modifier", PNone); (#"center", PNone)].

(** connections, _common.py:109-117 *)
Definition d_connections : dict :=
  map (fun k => (k, PNone))
    [#"nseq"; #"nadd"; #"permeability_direction"; #"nodal_distances"; #"interface_area";
     #"gravity_cosine_angle"; #"radiant_emittance_factor"].

(** initial_conditions, _common.py:119-123 *)
Definition d_initial_conditions : dict :=
  [(#"porosity", PNone); (#"userx", pnones 5); (#"values", pnones 4)].

(** {"id": ..., "parameters": []}, _common.py:139-142 *)
Definition model_of (id : pyval) : pyval := PDict [(#"id", id); (#"parameters", pnil)].

(** default, _common.py:125-143 *)
Definition d_default : dict :=
  map (fun k => (k, PNone))
    [#"density"; #"porosity"; #"permeability"; #"conductivity"; #"specific_heat";
     #"compressibility"; #"expansivity"; #"conductivity_dry"; #"tortuosity";
     #"klinkenberg_parameter"; #"distribution_coefficient_3"; #"distribution_coefficient_4"]
  ++ [(#"initial_condition", pnones 6); (#"relative_permeability", model_of PNone);
      (#"capillarity", model_of PNone); (#"permeability_model", model_of (PInt 1));
      (#"equivalent_pore_pressure", model_of (PInt 3))].

(** eos, _common.py:145-158 *)
Definition d_eos : list (str * list Z) :=
  [($"eos1", [1; 2; 2; 6]); ($"eos2", [2; 3; 2; 6]); ($"eos3", [2; 3; 2; 6]);
   ($"eos4", [2; 3; 2; 6]); ($"eos5", [2; 3; 2; 6]); ($"eos7", [3; 3; 2; 6]);
   ($"eos8", [3; 3; 3; 6]); ($"eos9", [1; 1; 1; 6]); ($"eoswasg", [3; 4; 3; 6]);
   ($"eco2n", [3; 4; 3; 6]); ($"eco2n_v2", [3; 4; 3; 6]); ($"eco2m", [3; 4; 4; 6])].
Fixpoint eos_get (s : str) (t : list (str * list Z)) : option (list Z) :=  (* eos[...], _write.py:74,344 *)
  match t with
  | [] => None
  | (k, v) :: r => if streqb s k then Some v else eos_get s r
  end.

(** [any(...)] over a fallible generator: stops at the first True.
    _write.py:93,186-197,552 *)
Fixpoint anyM {A} (f : A -> res bool) (l : list A) : res bool :=
  match l with
  | [] => Ok false
  | a :: r => let* b := f a in if b then Ok true else anyM f r
  end.

(** Concatenation of the records of each item, [out += ...] in the loops of
    _write.py. *)
Fixpoint concatM {A} (f : A -> res (list str)) (l : list A) : res (list str) :=   (* _write.py:181-252 *)
  match l with
  | [] => Ok []
  | a :: r => let* x := f a in let* y := concatM f r in Ok (x ++ y)
  end.

(** [if c: e else []], e.g. _write.py:108 *)
Definition when (c : bool) (e : res (list str)) : res (list str) := if c then e else Ok [].

(** The sequence behind [len(data)] and [data[i:j]] in write_record with
    multi=True, _helpers.py:272-277. *)
Definition py_seq (v : pyval) : res (list pyval) :=
  match v with
  | PSeq _ l => Ok l
  | PStr s => Ok (map (fun c => PStr [c]) s)
  | _ => Err TypeError
  end.

(** Extension of rocks_order with the missing rocks, _write.py:165-168,
    294-297, 536-539: tuples and arrays have no append. *)
Definition extend_order (order : pyval) (rocks : dict) : res pyval :=
  foldM (fun o rock =>
           match o with
           | PSeq k l =>
               if existsb (simple_eqb (key_val rock)) l then Ok o
               else match k with
                    | SList => Ok (PSeq k (l ++ [key_val rock]))
                    | _ => Err AttributeError
                    end
           | _ => Err TypeError
           end) order (dkeys rocks).

(** The dictionary of rocks, parameters["rocks"], _write.py:166,170,183 *)
Definition get_dict (k : key) (p : dict) : res dict := let* v := dgetE k p in as_dict v.

(** parameters["rocks"][k], also used for elements, connections and initial
    conditions, _write.py:183,845,884,910,950 *)
Definition lookup (d : dict) (k : pyval) : res pyval := let* k' := val_key k in dgetE k' d.

(** values [id, None] + parameters of a model record, _write.py:243-244,267-268,328-329 *)
Definition model_values (m : pyval) : res (list pyval) :=
  let* id := subscript m #"id" in
  let* ps := subscript m #"parameters" in
  let* l := py_iter ps in
  Ok (id :: PNone :: l).

(** The additional-record keys, _write.py:188-196,226-234 *)
Definition rock_keys2 : list key :=
  [#"compressibility"; #"expansivity"; #"conductivity_dry"; #"tortuosity";
   #"klinkenberg_parameter"; #"distribution_coefficient_3"; #"distribution_coefficient_4"].

(** Body of the loop over rocks, _write.py:181-247 *)
Definition write_rock (rocks : dict) (k : pyval) : res (list str) :=
  let* data := (let* v := lookup rocks k in as_dict v) in
  let* cond := anyM (fun k => let* v := dgetE k data in Ok (not_none v)) rock_keys2 in
  let nad := if dmem #"relative_permeability" data || dmem #"capillarity" data then 2
             else if cond then 1 else 0 in
  let* per := dgetE #"permeability" data in
  let* nd := py_ndim per in
  let per := match nd with O => PSeq SList [per; per; per] | _ => per end in
  let* pl := match per with
             | PSeq _ l => if Nat.eqb (List.length l) 3 then Ok l else Err TypeError
             | _ => Err TypeError
             end in
  let* density := dgetE #"density" data in
  let* porosity := dgetE #"porosity" data in
  let* conductivity := dgetE #"conductivity" data in
  let* specific_heat := dgetE #"specific_heat" data in
  let* rec1 := write_record
    ([k; if Z.eqb nad 0 then PStr [] else PInt nad; density; porosity] ++ pl
       ++ [conductivity; specific_heat]) (str2format fmt_ROCKS_1 []) in
  let* rec2 := (if cond then
                  let* vs := mapM (fun k => dgetE k data) rock_keys2 in
                  write_record vs (str2format fmt_ROCKS_2 [])
                else when (Z.eqb nad 2) (write_record [] [])) in
  let* rec3 := when (Z.eqb nad 2)
    (concatM (fun key => match dget key data with
                         | Some m => let* vs := model_values m in
                                     write_record vs (str2format fmt_RPCAP [])
                         | None => write_record [] []
                         end) [#"relative_permeability"; #"capillarity"]) in
  Ok (rec1 ++ rec2 ++ rec3).

(** _write_rocks, _write.py:154-249; returns the records and the parameters
    with the extended rocks_order. *)
Definition write_rocks (p : dict) : res (list str * dict) :=
  let* _ := check_at dt_ROCKS #"default" [] p in
  let* _ := check_list dt_ROCKS #"rocks" [] p in
  let* _ := check_list dt_MODEL #"rocks" [#"relative_permeability"] p in
  let* _ := check_list dt_MODEL #"rocks" [#"capillarity"] p in
  let* rocks := get_dict #"rocks" p in
  let* o := dgetE #"rocks_order" p in
  let* (order, p) :=
    (if is_none o then Ok (map key_val (dkeys rocks), p)
     else let* o' := extend_order o rocks in
          let* l := py_iter o' in
          Ok (l, dset #"rocks_order" o' p)) in
  let* out := block ($"ROCKS") true (concatM (write_rock rocks) order) in
  Ok (out, p).

(** _write_rpcap, _write.py:252-273 *)
Definition write_rpcap (p : dict) : res (list str) :=
  let* _ := check_at dt_MODEL #"default" [#"relative_permeability"] p in
  let* _ := check_at dt_MODEL #"default" [#"capillarity"] p in
  block ($"RPCAP") false
    (let* def := get_dict #"default" p in
     let data := dupdate d_default def in
     concatM (fun key => match dget key data with
                         | Some m => let* vs := model_values m in
                                     write_record vs (str2format fmt_RPCAP [])
                         | None => write_record [] []
                         end) [#"relative_permeability"; #"capillarity"]).

(** Order of the rocks in FLAC and INDOM, _write.py:293-299,535-541 *)
Definition rock_order (p rocks : dict) : res (list pyval) :=
  let* o := dgetE #"rocks_order" p in
  let* t := truthy o in
  if t then let* o' := extend_order o rocks in py_iter o'
  else Ok (map key_val (dkeys rocks)).

(** Body of the loop over rocks, _write.py:316-330 *)
Definition write_flac_rock (def rocks : dict) (k : pyval) : res (list str) :=
  let* r := (let* v := lookup rocks k in as_dict v) in
  let data := dupdate (dupdate d_default def) r in
  let* pm := dgetE #"permeability_model" data in
  let* vs := model_values pm in
  let* rec1 := write_record (hd PNone vs :: skipn 2 vs) (str2format fmt_FLAC_2 []) in
  let* ep := dgetE #"equivalent_pore_pressure" data in
  let* vs := model_values ep in
  let* rec2 := write_record vs (str2format fmt_FLAC_3 []) in
  Ok (rec1 ++ rec2).

(** _write_flac, _write.py:276-332 *)
Definition write_flac (p : dict) : res (list str) :=
  let* _ := check_at dt_FLAC #"flac" [] p in
  let* _ := check_at dt_MODEL #"default" [#"permeability_model"] p in
  let* _ := check_at dt_MODEL #"default" [#"equivalent_pore_pressure"] p in
  let* _ := check_list dt_MODEL #"rocks" [#"permeability_model"] p in
  let* _ := check_list dt_MODEL #"rocks" [#"equivalent_pore_pressure"] p in
  block ($"FLAC") true
    (let* fl := get_dict #"flac" p in
     let data := dupdate d_flac fl in
     let* rocks := get_dict #"rocks" p in
     let* order := rock_order p rocks in
     let* cr := dgetE #"creep" data in
     let* creep := truthy cr in
     let* pm := dgetE #"porosity_model" data in
     let* ve := dgetE #"version" data in
     let* rec1 := write_record [PBool creep; pm; ve] (str2format fmt_FLAC_1 []) in
     let* def := get_dict #"default" p in
     let* recs := concatM (write_flac_rock def rocks) order in
     Ok (rec1 ++ recs)).

(** values[0] + 1, _write.py:346 *)
Definition add1 (v : pyval) : res pyval :=
  match v with
  | PInt z => Ok (PInt (z + 1))
  | PNpInt z => Ok (PNpInt (z + 1))
  | PBool b => Ok (PInt (if b then 2 else 1))
  | _ => Err Unmodelled
  end.

(** _write_multi, _write.py:335-360.  The assignment to parameters["n_phase"]
    at line 352 is never read again. *)
Definition write_multi (p : dict) : res (list str) :=
  block ($"MULTI") false
    (let* e := dgetE #"eos" p in
     let* te := truthy e in
     let* base := (if te then
                     match e with
                     | PStr s => match eos_get s d_eos with Some l => Ok l | None => Err KeyError end
                     | _ => Err KeyError
                     end
                   else Ok [0; 0; 0; 6]) in
     match map PInt base with
     | v0 :: v1 :: v2 :: v3 :: rest =>
         let* nc := dgetE #"n_component" p in
         let* tc := truthy nc in
         let v0 := if tc then nc else v0 in
         let* iso := dgetE #"isothermal" p in
         let* ti := truthy iso in
         let* v1 := (if ti then Ok v0 else add1 v0) in
         let* np := dgetE #"n_phase" p in
         let* tp := truthy np in
         let v2 := if tp then np else v2 in
         let* df := dgetE #"diffusion" p in
         let* td := truthy df in
         let v3 := if td then PInt 8 else v3 in
         let* nm := dgetE #"n_component_mass" p in
         let* tm := truthy nm in
         write_record (v0 :: v1 :: v2 :: v3 :: rest ++ (if tm then [nm] else []))
           (str2format fmt_MULTI [])
     | _ => Err Unmodelled
     end).

(** _write_solvr, _write.py:363-387 *)
Definition write_solvr (p : dict) : res (list str) :=
  let* _ := check_at dt_SOLVR #"solver" [] p in
  block ($"SOLVR") false
    (let* s := get_dict #"solver" p in
     let data := dupdate d_solver s in
     let* m := dgetE #"method" data in
     let* z := dgetE #"z_precond" data in
     let* o := dgetE #"o_precond" data in
     let* r := dgetE #"rel_iter_max" data in
     let* e := dgetE #"eps" data in
     write_record [m; PNone; z; PNone; o; r; e] (str2format fmt_SOLVR [])).

(** _write_start, _write.py:390-396 *)
Definition start_line : str :=
  let out := ljust 5 ($"----*") ++ header ++ [nl] in
  firstn 11 out ++ $"MOP: 123456789*123456789*1234" ++ skipn 40 out.
Definition write_start : res (list str) := block ($"START") false (Ok [start_line]).  (* _write.py:390-396 *)

(** sorted(d.keys()) for integer keys, _write.py:425,519,583; a mixture with
    string or None keys cannot be compared (TypeError). *)
Fixpoint insert_Z (z : Z) (l : list Z) : list Z :=
  match l with
  | [] => [z]
  | x :: r => if z <=? x then z :: l else x :: insert_Z z r
  end.
Definition sorted_keys (d : dict) : res (list Z) :=  (* _write.py:425,519,583 *)
  let* zs := mapM (fun k => match k with KI z => Ok z | _ => Err TypeError end) (dkeys d) in
  Ok (fold_right insert_Z [] zs).

(** [" " if d[k] is None else str(d[k]) for k in sorted(d.keys())] joined,
    _write.py:425,433,583-584 *)
Definition option_string (d : dict) : res str :=
  let* ks := sorted_keys d in
  let* l := mapM (fun z => let* v := dgetE (KI z) d in
                           if is_none v then Ok ($" ") else py_str v) ks in
  Ok (concat l).

(** _write_param, _write.py:399-478 *)
Definition write_param (p : dict) : res (list str) :=
  let* _ := check_at dt_PARAM #"options" [] p in
  let* _ := check_at dt_MOP #"extra_options" [] p in
  block ($"PARAM") false
    (let* o := get_dict #"options" p in
     let data := dupdate d_options o in
     let* ts := dgetE #"t_steps" data in
     let tsteps := match ts with PSeq _ l => l | v => [v] end in
     let* xo := get_dict #"extra_options" p in
     let* mop := option_string (dupdate d_extra_options xo) in
     let* a1 := dgetE #"n_iteration" data in
     let* a2 := dgetE #"verbosity" data in
     let* a3 := dgetE #"n_cycle" data in
     let* a4 := dgetE #"n_second" data in
     let* a5 := dgetE #"n_cycle_print" data in
     let* a6 := dgetE #"temperature_dependence_gas" data in
     let* a7 := dgetE #"effective_strength_vapor" data in
     let* rec1 := write_record [a1; a2; a3; a4; a5; PStr mop; PNone; a6; a7]
                    (str2format fmt_PARAM_1 []) in
     let* b1 := dgetE #"t_ini" data in
     let* b2 := dgetE #"t_max" data in
     let n := - ((Z.of_nat (List.length tsteps) - 1) / 8 + 1) in
     let* b3 := dgetE #"t_step_max" data in
     let* b4 := dgetE #"gravity" data in
     let* b5 := dgetE #"t_reduce_factor" data in
     let* b6 := dgetE #"mesh_scale_factor" data in
     let* rec2 := write_record [b1; b2; PInt n; b3; PNone; b4; b5; b6]
                    (str2format fmt_PARAM_2 []) in
     let* rec21 := write_record_multi tsteps (str2format fmt_PARAM_3 []) in
     let* c1 := dgetE #"eps1" data in
     let* c2 := dgetE #"eps2" data in
     let* c3 := dgetE #"w_upstream" data in
     let* c4 := dgetE #"w_newton" data in
     let* c5 := dgetE #"derivative_factor" data in
     let* rec3 := write_record [c1; c2; PNone; c3; c4; c5] (str2format fmt_PARAM_4 []) in
     let* def := get_dict #"default" p in
     let* ic := dgetE #"initial_condition" def in
     let* len := py_len ic in
     let n := Nat.min 4 len in
     let* v4 := slice_to n ic in
     let* l4 := py_iter v4 in
     let* rec4 := write_record l4 (str2format fmt_PARAM_5 []) in
     let* rec5 := when (Nat.ltb 4 len)
       (let* v5 := slice_from n ic in
        let* l5 := py_iter v5 in
        write_record l5 (str2format fmt_PARAM_5 [])) in
     Ok (rec1 ++ rec2 ++ rec21 ++ rec3 ++ rec4 ++ rec5)).

(** _write_selec, _write.py:481-529 *)
Definition write_selec (p : dict) : res (list str) :=
  let* _ := check_at dt_SELEC #"selections" [] p in
  block ($"SELEC") false
    (let* s := get_dict #"selections" p in
     let* i := dgetE #"integers" s in
     let* ti := truthy i in
     let* ints := (if ti then let* d := as_dict i in Ok (dupdate d_integers d) else Ok d_integers) in
     let* f := dgetE #"floats" s in
     let* nf := py_len f in
     let* (ints, ndim) :=
       (match nf with
        | O => Ok (ints, 0%nat)
        | _ =>
            let* f0 := index f 0 in
            match f0 with
            | PSeq _ _ =>
                let* l := py_iter f in
                let* _ := mapM (fun x => let* n := py_len x in guard (Nat.leb n 8) ValueError) l in
                Ok (dset (KI 1) (PInt (Z.of_nat nf)) ints, 2%nat)
            | _ =>
                let* _ := guard (Nat.leb nf 8) ValueError in
                Ok (dset (KI 1) (PInt 1) ints, 1%nat)
            end
        end) in
     let* ks := sorted_keys ints in
     let* vs := mapM (fun z => dgetE (KI z) ints) ks in
     let* rec1 := write_record vs (str2format fmt_SELEC_1 []) in
     let* rec2 :=
       (match ndim with
        | 1%nat => let* l := py_iter f in write_record l (str2format fmt_SELEC_2 [])
        | 2%nat => let* l := py_iter f in
                   concatM (fun x => let* r := py_iter x in
                                     write_record r (str2format fmt_SELEC_2 [])) l
        | _ => Ok []
        end) in
     Ok (rec1 ++ rec2)).

(** Body of the loop over rocks, _write.py:549-565 *)
Definition write_indom_rock (rocks : dict) (k : pyval) : res (list str) :=
  let* r := (let* v := lookup rocks k in as_dict v) in
  match dget #"initial_condition" r with
  | None => Ok []
  | Some data =>
      let* l := py_iter data in
      if existsb not_none l then
        let* rec1 := write_record [k] (str2format fmt_INDOM_5 []) in
        let* rec2 := write_record (firstn (Nat.min 4 (List.length l)) l) (str2format fmt_INDOM_0 []) in
        let* rec3 := when (Nat.ltb 4 (List.length l))
                       (write_record (skipn 4 l) (str2format fmt_INDOM_0 [])) in
        Ok (rec1 ++ rec2 ++ rec3)
      else Ok []
  end.

(** _write_indom, _write.py:532-567 *)
Definition write_indom (p : dict) : res (list str) :=
  block ($"INDOM") true
    (let* rocks := get_dict #"rocks" p in
     let* order := rock_order p rocks in
     concatM (write_indom_rock rocks) order).

(** _write_momop, _write.py:570-586 *)
Definition write_momop (p : dict) : res (list str) :=
  let* _ := check_at dt_MOMOP #"more_options" [] p in
  block ($"MOMOP") false
    (let* mo := get_dict #"more_options" p in
     let* s := option_string (dupdate d_more_options mo) in
     write_record [PStr s] (str2format fmt_MOMOP [])).

(** _write_times, _write.py:589-606 *)
Definition write_times (p : dict) : res (list str) :=
  block ($"TIMES") false
    (let* data := dgetE #"times" p in
     let* nd := py_ndim data in
     let* l := (match nd with O => Ok [data] | _ => py_seq data end) in
     let* rec1 := write_record [PInt (Z.of_nat (List.length l))] (str2format fmt_TIMES_1 []) in
     let* rec2 := write_record_multi l (str2format fmt_TIMES_2 []) in
     Ok (rec1 ++ rec2)).

(** _write_foft, _write_coft, _write_goft, _write.py:609-645 *)
Definition write_oft (keyword : str) (k : key) (fmt : list token) (p : dict) : res (list str) :=
  block keyword true
    (let* v := dgetE k p in
     let* l := py_iter v in
     write_record_multi l (str2format fmt [])).
Definition write_foft := write_oft ($"FOFT") #"element_history" fmt_FOFT.  (* _write.py:609-619 *)
Definition write_coft := write_oft ($"COFT") #"connection_history" fmt_COFT.  (* _write.py:622-632 *)
Definition write_goft := write_oft ($"GOFT") #"generator_history" fmt_GOFT.  (* _write.py:635-645 *)

(** len(max(d, key=len)), _write.py:695,838,903,942 *)
Definition max_key_len (d : dict) : res nat :=
  let* ls := mapM (fun k => match k with KS s => Ok (List.length s) | _ => Err TypeError end) (dkeys d) in
  match ls with
  | [] => Err ValueError
  | _ => Ok (fold_right Nat.max 0%nat ls)
  end.

(** keys of [generators] except "type", _write.py:656 *)
Definition gener_keys : list key :=
  filter (fun k => negb (key_eqb k #"type")) (dkeys d_generators).

(** Splitting of one entry into single components, _write.py:657-692 *)
Definition split_generator (kv : key * pyval) : res (list (key * dict)) :=
  let* v := as_dict (snd kv) in
  let data := dupdate d_generators v in
  let* ty := dgetE #"type" data in
  if is_str ty then
    let* _ := mapM (fun k => let* x := dgetE k data in
                             let* n := py_ndim x in
                             guard (Nat.leb n 1) ValueError) gener_keys in
    Ok [(fst kv, data)]
  else
    let* n := py_len ty in
    let* _ := mapM (fun k => let* x := dgetE k data in
                             if is_none x then Ok tt
                             else let* _ := guard (is_seq x) TypeError in
                                  let* m := py_len x in
                                  guard (Nat.eqb m n) ValueError) gener_keys in
    mapM (fun i =>
            let* d := mapM (fun k => let* x := dgetE k data in
                                     let* y := (if is_none x then Ok PNone else index x i) in
                                     Ok (k, y)) (dkeys d_generators) in
            Ok (fst kv, d)) (seq 0 n).

(** Body of the writing loop, _write.py:701-757 *)
Definition write_generator (fmt1 : list token) (kv : key * dict) : res (list str) :=
  let v := snd kv in
  let fmt2 := str2format fmt_GENER_0 [] in
  let* times := dgetE #"times" v in
  let* rates := dgetE #"rates" v in
  let* enth := dgetE #"specific_enthalpy" v in
  let* ltab :=
    (match times with
     | PSeq _ l =>
         let ltab := List.length l in
         let* _ := mapM (fun x => if is_none x then Ok tt
                                  else let* _ := guard (is_seq x) TypeError in
                                       let* m := py_len x in
                                       guard (Nat.ltb 1 ltab && Nat.eqb ltab m) ValueError)
                        [rates; enth] in
         Ok (Some ltab)
     | _ =>
         let* _ := mapM (fun x => if is_none x then Ok tt
                                  else let* n := py_ndim x in guard (Nat.eqb n 0) ValueError)
                        [rates; enth] in
         Ok None
     end) in
  let itab := if is_seq enth then PInt 1 else PNone in
  let tab := match ltab with Some (S _) => true | _ => false end in
  let* name := dgetE #"name" v in
  let* nseq := dgetE #"nseq" v in
  let* nadd := dgetE #"nadd" v in
  let* nads := dgetE #"nads" v in
  let* ty := dgetE #"type" v in
  let* lt := dgetE #"layer_thickness" v in
  let* rec1 := write_record
    [key_val (fst kv); name; nseq; nadd; nads;
     match ltab with Some n => PInt (Z.of_nat n) | None => PNone end;
     PNone; ty; itab; if tab then PNone else rates; if tab then PNone else enth; lt]
    (str2format fmt1 []) in
  let* rec2 := when tab (let* l := py_seq times in write_record_multi l fmt2) in
  let* rec3 := when tab (let* l := py_seq rates in write_record_multi l fmt2) in
  let* rec4 := when (tab && not_none enth)
    (let* l := (match enth with
                | PSeq _ l => Ok l
                | x => Ok (repeat x (match ltab with Some n => n | None => 0%nat end))
                end) in
     write_record_multi l fmt2) in
  Ok (rec1 ++ rec2 ++ rec3 ++ rec4).

(** _write_gener, _write.py:648-759 *)
Definition write_gener (p : dict) : res (list str) :=
  let* _ := check_list dt_GENER #"generators" [] p in
  block ($"GENER") true
    (let* g := get_dict #"generators" p in
     let* gd := mapM split_generator g in
     let* n := max_key_len g in
     let* fmt1 := fmt_GENER n in
     concatM (write_generator fmt1) (concat gd)).

(** _write_diffu, _write.py:762-773 *)
Definition write_diffu (p : dict) : res (list str) :=
  block ($"DIFFU") false
    (let* v := dgetE #"diffusion" p in
     let* l := py_iter v in
     concatM (fun mass => let* m := py_seq mass in
                          write_record_multi m (str2format fmt_DIFFU [])) l).

(** k.upper() of a dictionary key, _write.py:802 *)
Definition key_upper (k : key) : res str :=
  match k with KS s => Ok (upper s) | _ => Err AttributeError end.

(** One entry of the output variables: its records and its count,
    _write.py:801-817 *)
Definition write_variable (kv : key * pyval) : res (list str * nat) :=
  let fmt3 := str2format fmt_OUTPU_3 [] in
  let* name := key_upper (fst kv) in
  let v := snd kv in
  let* nd := py_ndim v in
  match nd with
  | O => let* r := write_record [PStr name; v] fmt3 in Ok (r, 1%nat)
  | _ =>
      let* v0 := index v 0 in
      let* nd0 := py_ndim v0 in
      match nd0 with
      | O => let* l := py_iter v in
             let* r := write_record (PStr name :: l) fmt3 in Ok (r, 1%nat)
      | _ => let* l := py_iter v in
             let* r := concatM (fun vv => let* x := py_iter vv in
                                          write_record (PStr name :: x) fmt3) l in
             Ok (r, List.length l)
      end
  end.

(** _write_outpu, _write.py:776-822 *)
Definition write_outpu (p : dict) : res (list str) :=
  let* _ := check_at dt_OUTPU #"output" [] p in
  block ($"OUTPU") false
    (let* o := get_dict #"output" p in
     let data := dupdate d_output o in
     let* f := dgetE #"format" data in
     let* tf := truthy f in
     let* rec1 := when tf (match f with
                           | PStr s => write_record [PStr (upper s)] (str2format fmt_OUTPU_1 [])
                           | _ => Err AttributeError
                           end) in
     let* v := dgetE #"variables" data in
     let* tv := truthy v in
     let* rec2 := when tv
       (let* d := as_dict v in
        let* l := mapM write_variable d in
        let n := fold_right Nat.add 0%nat (map snd l) in
        let* r := write_record [PStr (print_Z (Z.of_nat n))] (str2format fmt_OUTPU_2 []) in
        Ok (r ++ concat (map fst l))) in
     Ok (rec1 ++ rec2)).

(** Order of elements, connections and initial conditions,
    _write.py:832-835,873-876,897-900,936-939 *)
Definition order_of (k : key) (p d : dict) : res (list pyval) :=
  let* o := dgetE k p in
  if is_none o then Ok (map key_val (dkeys d)) else py_iter o.

(** Body of the loop over elements, _write.py:843-864 *)
Definition write_element (fmt : list token) (elements : dict) (k : pyval) : res (list str) :=
  let* e := (let* v := lookup elements k in as_dict v) in
  let data := dupdate d_elements e in
  let* m := dgetE #"material" data in
  let* material := (match m with
                    | PInt _ | PBool _ => let* s := py_format (Spec true 5 None None) m in Ok (PStr s)
                    | v => Ok v
                    end) in
  let* nseq := dgetE #"nseq" data in
  let* nadd := dgetE #"nadd" data in
  let* volume := dgetE #"volume" data in
  let* hea := dgetE #"heat_exchange_area" data in
  let* pmod := dgetE #"permeability_modifier" data in
  let* c := dgetE #"center" data in
  let* c0 := index c 0 in
  let* c1 := index c 1 in
  let* c2 := index c 2 in
  write_record [k; nseq; nadd; material; volume; hea; pmod; c0; c1; c2] (str2format fmt []).

(** _write_eleme, _write.py:825-866 *)
Definition write_eleme (p : dict) : res (list str) :=
  let* _ := check_list dt_ELEME #"elements" [] p in
  block ($"ELEME") true
    (let* e := get_dict #"elements" p in
     let* order := order_of #"elements_order" p e in
     let* n := max_key_len e in
     let* fmt := fmt_ELEME n in
     concatM (write_element fmt e) order).

(** _write_coord, _write.py:869-887 *)
Definition write_coord (p : dict) : res (list str) :=
  block ($"COORD") true
    (let* e := get_dict #"elements" p in
     let* order := order_of #"elements_order" p e in
     concatM (fun k => let* v := lookup e k in
                       let* c := subscript v #"center" in
                       let* l := py_iter c in
                       write_record l (str2format fmt_COORD [])) order).

(** Body of the loop over connections, _write.py:908-924 *)
Definition write_connection (fmt : list token) (conns : dict) (k : pyval) : res (list str) :=
  let* e := (let* v := lookup conns k in as_dict v) in
  let data := dupdate d_connections e in
  let* nseq := dgetE #"nseq" data in
  let* nadd := dgetE #"nadd" data in
  let* n0 := (if is_none nadd then Ok PNone else index nadd 0) in
  let* n1 := (if is_none nadd then Ok PNone else index nadd 1) in
  let* dir := dgetE #"permeability_direction" data in
  let* nd := dgetE #"nodal_distances" data in
  let* d0 := index nd 0 in
  let* d1 := index nd 1 in
  let* area := dgetE #"interface_area" data in
  let* cosine := dgetE #"gravity_cosine_angle" data in
  let* rad := dgetE #"radiant_emittance_factor" data in
  write_record [k; nseq; n0; n1; dir; d0; d1; area; cosine; rad] (str2format fmt []).

(** _write_conne, _write.py:890-926 *)
Definition write_conne (p : dict) : res (list str) :=
  let* _ := check_list dt_CONNE #"connections" [] p in
  block ($"CONNE") true
    (let* e := get_dict #"connections" p in
     let* order := order_of #"connections_order" p e in
     let* n := max_key_len e in
     let* fmt := fmt_CONNE (Nat.div n 2) in
     concatM (write_connection fmt e) order).

(** Body of the loop over initial conditions, _write.py:948-968 *)
Definition write_initial (fmt : list token) (incons : dict) (k : pyval) : res (list str) :=
  let* e := (let* v := lookup incons k in as_dict v) in
  let data := dupdate d_initial_conditions e in
  let* por := dgetE #"porosity" data in
  let* ux := dgetE #"userx" data in
  let* lux := py_iter ux in
  let* rec1 := write_record ([k; PNone; PNone; por] ++ lux) (str2format fmt []) in
  let* vals := dgetE #"values" data in
  let* len := py_len vals in
  let* v4 := slice_to (Nat.min 4 len) vals in
  let* l4 := py_iter v4 in
  let* rec2 := write_record l4 (str2format fmt_INCON_0 []) in
  let* rec3 := when (Nat.ltb 4 len)
    (let* v5 := slice_from 4 vals in
     let* l5 := py_iter v5 in
     write_record l5 (str2format fmt_INCON_0 [])) in
  Ok (rec1 ++ rec2 ++ rec3).

(** _write_incon, _write.py:929-970 *)
Definition write_incon (p : dict) : res (list str) :=
  let* _ := check_list dt_INCON #"initial_conditions" [] p in
  block ($"INCON") true
    (let* e := get_dict #"initial_conditions" p in
     let* order := order_of #"initial_conditions_order" p e in
     let* n := max_key_len e in
     let* fmt1 := fmt_INCON n in
     concatM (write_initial fmt1 e) order).

(** _write_nover and _write_endcy, _write.py:973-982 *)
Definition write_nover : res (list str) := block ($"NOVER") false (Ok []).
Definition write_endcy : res (list str) := Ok [head_noend ($"ENDCY")].  (* _write.py:979-982 *)

(** The block selection, _write.py:37,105,132,139,144,147 *)
Inductive selection := SelAll | SelGener | SelMesh | SelIncon.
Definition sel_of (s : str) : option selection :=  (* _write.py:37-38 *)
  if streqb s ($"all") then Some SelAll
  else if streqb s ($"gener") then Some SelGener
  else if streqb s ($"mesh") then Some SelMesh
  else if streqb s ($"incon") then Some SelIncon
  else None.

(** parameters["default"][m]["id"] is not None, _write.py:80-87 *)
Definition model_set (def : dict) (m : key) : res bool :=
  match dget m def with
  | Some v => let* id := subscript v #"id" in Ok (not_none id)
  | None => Ok false
  end.

(** The INDOM flag, _write.py:90-95 *)
Definition indom_flag (rocks : dict) : res bool :=
  anyM (fun kv => let* r := as_dict (snd kv) in
                  match dget #"initial_condition" r with
                  | Some v => let* v4 := slice_to 4 v in
                              let* l := py_iter v4 in Ok (existsb not_none l)
                  | None => Ok false
                  end) rocks.

(** write a block when parameters[k] is not None / is truthy, _write.py:108-145 *)
Definition if_some (k : key) (f : dict -> res (list str)) (p : dict) : res (list str) :=
  let* v := dgetE k p in when (not_none v) (f p).
Definition if_true (k : key) (f : dict -> res (list str)) (p : dict) : res (list str) :=  (* _write.py:111-148 *)
  let* v := dgetE k p in let* t := truthy v in when t (f p).

(** The title records, _write.py:106 *)
Definition write_title (p : dict) : res (list str) :=
  let* t := dgetE #"title" p in
  let* l := py_iter t in
  mapM (fun x => let* s := py_format (Spec false 80 None None) x in Ok (s ++ [nl])) l.

(** write_buffer, _write.py:68-151.  The warning at line 101 is not modelled. *)
Definition write_buffer (p : dict) (sel : selection) : res (list str) :=
  let* _ := check_dict dt_PARAMETERS (PDict p) in
  let* e := dgetE #"eos" p in
  let* te := truthy e in
  let* _ := guard (negb te || match e with
                              | PStr s => match eos_get s d_eos with Some _ => true | None => false end
                              | _ => false end) ValueError in
  let* def := get_dict #"default" p in
  let* c1 := model_set def #"relative_permeability" in
  let* c2 := model_set def #"capillarity" in
  let rpcap := c1 || c2 in
  let* rocks := get_dict #"rocks" p in
  let* indom := indom_flag rocks in
  let* nc := dgetE #"n_component" p in
  let* tc := truthy nc in
  let* np := dgetE #"n_phase" p in
  let* tp := truthy np in
  let multi := te || (tc && tp) in
  let all := match sel with SelAll => true | _ => false end in
  let* (out1, p) :=
    (if all then
       let* o0 := write_title p in
       let* (o1, p) := write_rocks p in
       let* o2 := when rpcap (write_rpcap p) in
       let* o3 := if_some #"flac" write_flac p in
       let* o4 := when multi (write_multi p) in
       let* o5 := if_true #"solver" write_solvr p in
       let* o6 := if_true #"start" (fun _ => write_start) p in
       let* o7 := write_param p in
       let* o8 := if_true #"selections" write_selec p in
       let* o9 := when indom (write_indom p) in
       let* o10 := if_true #"more_options" write_momop p in
       let* o11 := if_some #"times" write_times p in
       let* o12 := if_some #"element_history" write_foft p in
       let* o13 := if_some #"connection_history" write_coft p in
       let* o14 := if_some #"generator_history" write_goft p in
       Ok (o0 ++ o1 ++ o2 ++ o3 ++ o4 ++ o5 ++ o6 ++ o7 ++ o8 ++ o9 ++ o10 ++ o11 ++ o12
             ++ o13 ++ o14, p)
     else Ok ([], p)) in
  let* out2 := (match sel with SelAll | SelGener => if_true #"generators" write_gener p | _ => Ok [] end) in
  let* out3 := (if all then
                  let* a := if_some #"diffusion" write_diffu p in
                  let* b := if_true #"output" write_outpu p in
                  Ok (a ++ b)
                else Ok []) in
  let* out4 := (match sel with
                | SelAll | SelMesh =>
                    let* a := if_true #"elements" write_eleme p in
                    let* b := if_true #"coordinates" write_coord p in
                    let* c := if_true #"connections" write_conne p in
                    Ok (a ++ b ++ c)
                | _ => Ok []
                end) in
  let* out5 := (match sel with
                | SelAll | SelIncon => if_true #"initial_conditions" write_incon p
                | _ => Ok []
                end) in
  let* out6 := (if all then
                  let* a := if_true #"nover" (fun _ => write_nover) p in
                  let* b := write_endcy in
                  Ok (a ++ b)
                else Ok []) in
  Ok (out1 ++ out2 ++ out3 ++ out4 ++ out5 ++ out6).

(** Filling params["default"] with the package defaults, _write.py:47-49 *)
Definition fill_default (def : dict) : dict :=
  fold_left (fun acc kv => if dmem (fst kv) acc then acc else dset (fst kv) (snd kv) acc)
    d_default def.

(** Filling one rock with the defaults, _write.py:52-60 *)
Definition fill_rock (def rock : dict) : dict :=
  fold_left (fun acc kv =>
               if dmem (fst kv) acc
                  || existsb (key_eqb (fst kv))
                       [#"initial_condition"; #"relative_permeability"; #"capillarity"]
               then acc else dset (fst kv) (snd kv) acc) def rock.

(** params before write_buffer, _write.py:40-60.  The "rocks" and "default"
    entries must be dictionaries (.keys()), and each rock too. *)
Definition prepare (parameters : dict) : res dict :=
  let p := dupdate d_Parameters parameters in
  let* t := dgetE #"title" p in
  let p := dset #"title" (if is_str t then PSeq SList [t] else t) p in
  let* def := get_dict #"default" p in
  let def := fill_default def in
  let p := dset #"default" (PDict def) p in
  let* rocks := get_dict #"rocks" p in
  let* rocks := mapM (fun kv => let* r := as_dict (snd kv) in
                                Ok (fst kv, PDict (fill_rock def r))) rocks in
  Ok (dset #"rocks" (PDict rocks) p).

(** The text produced by [write], _write.py:35-65 *)
Definition write_text (parameters : dict) (blk : str) : res str :=
  match sel_of blk with
  | None => Err ValueError
  | Some sel =>
      let* p := prepare parameters in
      let* recs := write_buffer p sel in
      Ok (concat recs)
  end.
