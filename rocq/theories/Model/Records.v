(** Fixed-column records: /repo/toughio/_common.py and
    /repo/toughio/_io/input/tough/_helpers.py *)
From Coq Require Import String Ascii ZArith Bool Lia List.
From Verif Require Import Base.Str Base.Digits Base.Flt Base.FltInt Model.Py.
Import ListNotations.
Local Open Scope Z_scope.

(** A column description such as "10.4e": width, precision, type letter.
    _common.py:80-87 and _helpers.py:247-250 both take the text apart at the
    last character and at the point; here it is taken apart once. *)
Record token := Tok { tok_w : nat; tok_p : option nat; tok_t : ascii }.

(** One token: [token[:-1]], [token[-1]] and [n.split(".")], _common.py:80-87,
    _helpers.py:247-250. *)
Definition parse_token (t : str) : token :=
  let n := drop_last 1 t in
  let ty := last t " "%char in
  match split_on "." n with
  | [w] => Tok (Z.to_nat (of_digits w)) None ty
  | w :: p :: _ => Tok (Z.to_nat (of_digits w)) (Some (Z.to_nat (of_digits p))) ty
  | [] => Tok 0 None ty
  end.

(** fmt.split(","), _common.py:80, _helpers.py:247. *)
Definition fields (fmt : str) : list token := map parse_token (split_on "," fmt).

(** ",".join(n * [fmt]), _common.py:6,10,14,15,20,22,24,26,31,38,47,56. *)
Definition times_fmt (n : nat) (fmt : str) : str := join ($",") (repeat fmt n).

(** block_to_format, _common.py:3-63: one definition per entry. *)
Definition fmt_ROCKS_1 := fields ($"5s,5d,10.4e,10.4e,10.4e,10.4e,10.4e,10.4e,10.4e").  (* _common.py:5 *)
Definition fmt_ROCKS_2 := fields (times_fmt 7 ($"10.4e")).  (* _common.py:6 *)
Definition fmt_RPCAP := fields ($"5d,5s,10.3e,10.3e,10.3e,10.3e,10.3e,10.3e,10.3e").  (* _common.py:8 *)
Definition fmt_FLAC_1 := fields (times_fmt 16 ($"5d")).  (* _common.py:10 *)
Definition fmt_FLAC_2 := fields ($"10d,10.3e,10.3e,10.3e,10.3e,10.3e,10.3e,10.3e").  (* _common.py:11 *)
Definition fmt_FLAC_3 := fields ($"5d,5s,10.3e,10.3e,10.3e,10.3e,10.3e,10.3e,10.3e").  (* _common.py:12 *)
Definition fmt_MULTI := fields (times_fmt 5 ($"5d")).  (* _common.py:14 *)
Definition fmt_SELEC_1 := fields (times_fmt 16 ($"5d")).  (* _common.py:15 *)
Definition fmt_SELEC_2 := fields (times_fmt 8 ($"10.3e")).  (* _common.py:15 *)
Definition fmt_SOLVR := fields ($"1d,2s,2s,3s,2s,10.4e,10.4e").  (* _common.py:16 *)
Definition fmt_PARAM_1 := fields ($"2d,2d,4d,4d,4d,24S,10s,10.4e,10.4e").  (* _common.py:18 *)
Definition fmt_PARAM_2 := fields ($"10.4e,10.4e,10.1f,10.4e,10s,10.4e,10.4e,10.4e").  (* _common.py:19 *)
Definition fmt_PARAM_3 := fields (times_fmt 8 ($"10.4e")).  (* _common.py:20 *)
Definition fmt_PARAM_4 := fields ($"10.4e,10.4e,10s,10.4e,10.4e,10.4e").  (* _common.py:21 *)
Definition fmt_PARAM_5 := fields (times_fmt 4 ($"20.13e")).  (* _common.py:22 *)
Definition fmt_INDOM_0 := fields (times_fmt 4 ($"20.13e")).  (* _common.py:24 *)
Definition fmt_INDOM_5 := fields ($"5s").  (* _common.py:24 *)
Definition fmt_MOMOP := fields ($"40S").  (* _common.py:25 *)
Definition fmt_TIMES_1 := fields ($"5d,5d,10.4e,10.4e").  (* _common.py:26 *)
Definition fmt_TIMES_2 := fields (times_fmt 8 ($"10.4e")).  (* _common.py:26 *)
Definition fmt_FOFT := fields ($"5s").  (* _common.py:27 *)
Definition fmt_COFT := fields ($"10s").  (* _common.py:28 *)
Definition fmt_GOFT := fields ($"5s").  (* _common.py:29 *)
Definition fmt_GENER_0 := fields (times_fmt 4 ($"14.7e")).  (* _common.py:31 *)
Definition fmt_DIFFU := fields (times_fmt 8 ($"10.3e")).  (* _common.py:38 *)
Definition fmt_OUTPU_1 := fields ($"20s").  (* _common.py:39 *)
Definition fmt_OUTPU_2 := fields ($"15s").  (* _common.py:39 *)
Definition fmt_OUTPU_3 := fields ($"20s,5d,5d").  (* _common.py:39 *)
Definition fmt_COORD := fields (times_fmt 3 ($"20.13e")).  (* _common.py:47 *)
Definition fmt_INCON_0 := fields (times_fmt 4 ($"20.13e")).  (* _common.py:56 *)

(** block_to_format["GENER"][n] for a label length, _common.py:30-37; another
    length is a KeyError. *)
Definition fmt_GENER (n : nat) : res (list token) :=
  match n with
  | 0%nat => Ok fmt_GENER_0
  | 5%nat => Ok (fields ($"5s,5s,5d,5d,5d,5d,5s,4s,1d,10.3e,10.3e,10.3e"))
  | 6%nat => Ok (fields ($"6s,5s,6d,4d,4d,5d,5s,4s,1d,10.3e,10.3e,10.3e"))
  | 7%nat => Ok (fields ($"7s,5s,5d,4d,4d,5d,5s,4s,1d,10.3e,10.3e,10.3e"))
  | 8%nat => Ok (fields ($"8s,5s,4d,4d,4d,5d,5s,4s,1d,10.3e,10.3e,10.3e"))
  | 9%nat => Ok (fields ($"9s,5s,5d,3d,3d,5d,5s,4s,1d,10.3e,10.3e,10.3e"))
  | _ => Err KeyError
  end.

(** block_to_format["ELEME"][n], _common.py:40-46. *)
Definition fmt_ELEME (n : nat) : res (list token) :=
  match n with
  | 5%nat => Ok (fields ($"5s,5d,5d,5s,10.4e,10.4e,10.4e,10.3e,10.3e,10.3e"))
  | 6%nat => Ok (fields ($"6s,5d,4d,5s,10.4e,10.4e,10.4e,10.3e,10.3e,10.3e"))
  | 7%nat => Ok (fields ($"7s,4d,4d,5s,10.4e,10.4e,10.4e,10.3e,10.3e,10.3e"))
  | 8%nat => Ok (fields ($"8s,4d,3d,5s,10.4e,10.4e,10.4e,10.3e,10.3e,10.3e"))
  | 9%nat => Ok (fields ($"9s,3d,3d,5s,10.4e,10.4e,10.4e,10.3e,10.3e,10.3e"))
  | _ => Err KeyError
  end.

(** block_to_format["CONNE"][n], _common.py:48-54. *)
Definition fmt_CONNE (n : nat) : res (list token) :=
  match n with
  | 5%nat => Ok (fields ($"10s,5d,5d,5d,5d,10.4e,10.4e,10.4e,10.3e,10.3e"))
  | 6%nat => Ok (fields ($"12s,5d,4d,4d,5d,10.4e,10.4e,10.4e,10.3e,10.3e"))
  | 7%nat => Ok (fields ($"14s,5d,3d,3d,5d,10.4e,10.4e,10.4e,10.3e,10.3e"))
  | 8%nat => Ok (fields ($"16s,3d,3d,3d,5d,10.4e,10.4e,10.4e,10.3e,10.3e"))
  | 9%nat => Ok (fields ($"18s,3d,2d,2d,5d,10.4e,10.4e,10.4e,10.3e,10.3e"))
  | _ => Err KeyError
  end.

(** block_to_format["INCON"][n], _common.py:55-62. *)
Definition fmt_INCON (n : nat) : res (list token) :=
  match n with
  | 0%nat => Ok fmt_INCON_0
  | 5%nat => Ok (fields ($"5s,5d,5d,15.9e,10.3e,10.3e,10.3e,10.3e,10.3e"))
  | 6%nat => Ok (fields ($"6s,5d,4d,15.9e,10.3e,10.3e,10.3e,10.3e,10.3e"))
  | 7%nat => Ok (fields ($"7s,4d,4d,15.9e,10.3e,10.3e,10.3e,10.3e,10.3e"))
  | 8%nat => Ok (fields ($"8s,4d,3d,15.9e,10.3e,10.3e,10.3e,10.3e,10.3e"))
  | 9%nat => Ok (fields ($"9s,3d,3d,15.9e,10.3e,10.3e,10.3e,10.3e,10.3e"))
  | _ => Err KeyError
  end.

(** token_to_format, _common.py:70-76 (only used for the non-string types). *)
Definition format_letter (t : ascii) : option ascii :=
  if Ascii.eqb t "d" then Some "g"%char
  else if Ascii.eqb t "f" then Some "f"%char
  else if Ascii.eqb t "e" then Some "e"%char
  else None.

(** One format string, _common.py:80-87.  For the string types the text is
    "{:n.n}", else "{:>n.pt}". *)
Definition spec_of (t : token) : spec :=
  if Ascii.eqb (lower_c (tok_t t)) "s" then Spec false (tok_w t) (Some (tok_w t)) None
  else Spec true (tok_w t) (tok_p t) (format_letter (tok_t t)).

(** A column listed in [ignore_types]: "{:n}", _common.py:82-83. *)
Definition spec_ignored (t : token) : spec := Spec false (tok_w t) None None.

(** str2format(fmt, ignore_types), _common.py:66-89. *)
Definition str2format (fmt : list token) (ignore : list nat) : list spec :=
  map (fun it => if existsb (Nat.eqb (fst it)) ignore then spec_ignored (snd it)
                 else spec_of (snd it))
      (combine (seq 0 (List.length fmt)) fmt).

(** to_str, _helpers.py:260-266: None becomes "", and for strings the letters
    "g" and "e" are deleted from the format (the widths contain none). *)
Definition no_ge (sp : spec) : spec :=
  match sp_t sp with
  | Some t => if Ascii.eqb t "g" || Ascii.eqb t "e"
              then Spec (sp_right sp) (sp_w sp) (sp_p sp) None else sp
  | None => sp
  end.
Definition to_str (x : pyval) (sp : spec) : res str :=  (* _helpers.py:260-266 *)
  match x with
  | PNone => py_format (no_ge sp) (PStr [])
  | PStr s => py_format (no_ge sp) (PStr s)
  | v => py_format sp v
  end.

(** "{:80}\n".format("".join(data)), _helpers.py:270,282. *)
Definition record80 (s : str) : str := ljust 80 s ++ [nl].

(** write_record(data, fmt) with multi=False, _helpers.py:268-270.  The result
    list always has one record. *)
Definition write_record (data : list pyval) (fmt : list spec) : res (list str) :=
  let* cols := mapM (fun p => to_str (fst p) (snd p)) (combine data fmt) in
  Ok [record80 (concat cols)].

(** Consecutive slices of [n] values, _helpers.py:272-277.  The list is the
    fuel: each slice consumes at least one value. *)
Fixpoint chunks_fuel {A} (fuel n : nat) (l : list A) : list (list A) :=
  match fuel with
  | O => []
  | S f => match l with
           | [] => []
           | _ => firstn n l :: chunks_fuel f n (skipn n l)
           end
  end.
Definition chunks {A} (n : nat) (l : list A) : list (list A) :=  (* _helpers.py:272-277 *)
  chunks_fuel (List.length l) n l.

(** write_record(data, fmt, multi=True), _helpers.py:271-282. *)
Definition write_record_multi (data : list pyval) (fmt : list spec) : res (list str) :=
  let* recs := mapM (fun d => write_record d fmt) (chunks (List.length fmt) data) in
  Ok (concat recs).

(** str2float, _helpers.py:287-294. *)
Definition str2float (s : str) : res flt :=
  match parse_float s with
  | Some x => Ok x
  | None =>
      match parse_float (drop_last 4 s ++ "e"%char :: last_n 4 s) with
      | Some x => Ok x
      | None => Err ValueError
      end
  end.

(** token_to_type[token[-1]](tmp), _helpers.py:237-243,251. *)
Definition convert (t : ascii) (s : str) : res pyval :=
  if Ascii.eqb t "s" || Ascii.eqb t "S" then Ok (PStr s)
  else if Ascii.eqb t "d" then
    match parse_int s with Some z => Ok (PInt z) | None => Err ValueError end
  else if Ascii.eqb t "f" || Ascii.eqb t "e" then
    let* x := str2float s in Ok (PFloat x)
  else Err KeyError.

(** One column, _helpers.py:248-251. *)
Definition read_field (t : token) (tmp : str) : res pyval :=
  let tmp := if Ascii.eqb (tok_t t) "S" then tmp else strip tmp in
  match tmp with [] => Ok PNone | _ => convert (tok_t t) tmp end.

(** read_record(data, fmt), _helpers.py:235-254; the running offset [i] is
    expressed by dropping the columns already read. *)
Fixpoint read_record (data : str) (fmt : list token) : res (list pyval) :=
  match fmt with
  | [] => Ok []
  | t :: r =>
      let* v := read_field t (firstn (tok_w t) data) in
      let* vs := read_record (skipn (tok_w t) data) r in
      Ok (v :: vs)
  end.

(** prune_nones_dict, _helpers.py:297-299. *)
Definition prune_nones_dict (d : dict) : dict := filter (fun kv => not_none (snd kv)) d.

(** prune_nones_list, _helpers.py:302-304. *)
Fixpoint prune_nones_list (l : list pyval) : list pyval :=
  match l with
  | [] => []
  | x :: r => if existsb not_none l then x :: prune_nones_list r else prune_nones_list r
  end.

(** get_label_length, _common.py:92-98: the loop advances over digits from
    column 5 on (ASCII digits only). *)
Fixpoint count_digits (s : str) : nat :=
  match s with
  | c :: r => if is_digit c then S (count_digits r) else O
  | [] => O
  end.
Definition get_label_length (label : str) : nat := (5 + count_digits (skipn 5 label))%nat.  (* _common.py:92-98 *)

(** header, /repo/toughio/_io/input/tough/_common.py:160. *)
Definition header : str :=
  $"----1----*----2----*----3----*----4----*----5----*----6----*----7----*----8".

(** Block decorator, _helpers.py:153-170. *)
Definition head (keyword : str) : str := ljust 5 keyword ++ header ++ [nl].
Definition head_noend (keyword : str) : str := ljust 5 keyword ++ header.  (* _helpers.py:161 *)
Definition block (keyword : str) (multi : bool) (body : res (list str)) : res (list str) :=  (* _helpers.py:160-166 *)
  let* out := body in Ok (head keyword :: out ++ (if multi then [[nl]] else [])).

(** str_to_dtype, _helpers.py:129-150: does a value have the named type?
    bool is a subclass of int; numpy.float32 is identified with float. *)
Inductive dtype :=
| TInt | TStr | TBool | TStrInt | TArray | TDict | TScalar | TScalarArray | TStrArray.
Definition has_type (t : dtype) (v : pyval) : bool :=  (* _helpers.py:129-150,190 *)
  match t, v with
  | TInt, (PBool _ | PInt _ | PNpInt _) => true
  | TStr, PStr _ => true
  | TBool, PBool _ => true
  | TStrInt, (PStr _ | PBool _ | PInt _ | PNpInt _) => true
  | TArray, PSeq _ _ => true
  | TDict, PDict _ => true
  | TScalar, (PBool _ | PInt _ | PNpInt _ | PFloat _) => true
  | TScalarArray, (PBool _ | PInt _ | PNpInt _ | PFloat _ | PSeq _ _) => true
  | TStrArray, (PStr _ | PSeq _ _) => true
  | _, _ => false
  end.

Definition dtable := list (key * dtype).  (* shape of the tables in _helpers.py:9-126 *)
Fixpoint tget (k : key) (t : dtable) : option dtype :=  (* input_types[k], _helpers.py:180,189 *)
  match t with
  | [] => None
  | (k', d) :: r => if key_eqb k k' then Some d else tget k r
  end.

(** dtypes, _helpers.py:9-126. *)
Definition dt_PARAMETERS : dtable :=  (* _helpers.py:10-42 *)
  [(#"title", TStrArray); (#"eos", TStr); (#"n_component", TInt); (#"n_phase", TInt);
   (#"n_component_mass", TInt); (#"flac", TDict); (#"isothermal", TBool); (#"start", TBool);
   (#"nover", TBool); (#"rocks", TDict); (#"rocks_order", TArray); (#"options", TDict);
   (#"extra_options", TDict); (#"more_options", TDict); (#"selections", TDict);
   (#"solver", TDict); (#"generators", TDict); (#"times", TScalarArray);
   (#"element_history", TArray); (#"connection_history", TArray);
   (#"generator_history", TArray); (#"diffusion", TArray); (#"output", TDict);
   (#"elements", TDict); (#"elements_order", TArray); (#"coordinates", TBool);
   (#"connections", TDict); (#"connections_order", TArray);
   (#"initial_conditions", TDict); (#"initial_conditions_order", TArray);
   (#"default", TDict)].
Definition dt_ROCKS : dtable :=  (* _helpers.py:43-61 *)
  [(#"density", TScalar); (#"porosity", TScalar); (#"permeability", TScalarArray);
   (#"conductivity", TScalar); (#"specific_heat", TScalar); (#"compressibility", TScalar);
   (#"expansivity", TScalar); (#"conductivity_dry", TScalar); (#"tortuosity", TScalar);
   (#"klinkenberg_parameter", TScalar); (#"distribution_coefficient_3", TScalar);
   (#"distribution_coefficient_4", TScalar); (#"initial_condition", TArray);
   (#"relative_permeability", TDict); (#"capillarity", TDict);
   (#"permeability_model", TDict); (#"equivalent_pore_pressure", TDict)].
Definition dt_FLAC : dtable :=  (* _helpers.py:62 *)
  [(#"creep", TBool); (#"porosity_model", TInt); (#"version", TInt)].
Definition dt_MODEL : dtable := [(#"id", TInt); (#"parameters", TArray)].  (* _helpers.py:63 *)
Definition dt_PARAM : dtable :=  (* _helpers.py:64-84 *)
  [(#"n_iteration", TInt); (#"n_cycle", TInt); (#"n_second", TInt); (#"n_cycle_print", TInt);
   (#"verbosity", TInt); (#"temperature_dependence_gas", TScalar);
   (#"effective_strength_vapor", TScalar); (#"t_ini", TScalar); (#"t_max", TScalar);
   (#"t_steps", TScalarArray); (#"t_step_max", TScalar); (#"t_reduce_factor", TScalar);
   (#"gravity", TScalar); (#"mesh_scale_factor", TScalar); (#"eps1", TScalar);
   (#"eps2", TScalar); (#"w_upstream", TScalar); (#"w_newton", TScalar);
   (#"derivative_factor", TScalar)].
Definition int_keys (n : nat) : list key := map (fun i => KI (Z.of_nat i)) (seq 1 n).  (* range in _helpers.py:85-86, _common.py:44,70,72 *)
Definition dt_MOP : dtable := map (fun k => (k, TInt)) (int_keys 24).  (* _helpers.py:85 *)
Definition dt_MOMOP : dtable := map (fun k => (k, TInt)) (int_keys 40).  (* _helpers.py:86 *)
Definition dt_SELEC : dtable := [(#"integers", TDict); (#"floats", TArray)].  (* _helpers.py:87 *)
Definition dt_SOLVR : dtable :=  (* _helpers.py:88-94 *)
  [(#"method", TInt); (#"z_precond", TStr); (#"o_precond", TStr); (#"rel_iter_max", TScalar);
   (#"eps", TScalar)].
Definition dt_GENER : dtable :=  (* _helpers.py:95-105 *)
  [(#"name", TStrArray); (#"nseq", TScalarArray); (#"nadd", TScalarArray);
   (#"nads", TScalarArray); (#"type", TStrArray); (#"times", TScalarArray);
   (#"rates", TScalarArray); (#"specific_enthalpy", TScalarArray);
   (#"layer_thickness", TScalarArray)].
Definition dt_OUTPU : dtable := [(#"format", TStr); (#"variables", TDict)].  (* _helpers.py:106 *)
Definition dt_ELEME : dtable :=  (* _helpers.py:107-115 *)
  [(#"nseq", TInt); (#"nadd", TInt); (#"material", TStrInt); (#"volume", TScalar);
   (#"heat_exchange_area", TScalar); (#"permeability_modifier", TScalar);
   (#"center", TArray)].
Definition dt_CONNE : dtable :=  (* _helpers.py:116-124 *)
  [(#"nseq", TInt); (#"nadd", TArray); (#"permeability_direction", TInt);
   (#"nodal_distances", TArray); (#"interface_area", TScalar);
   (#"gravity_cosine_angle", TScalar); (#"radiant_emittance_factor", TScalar)].
Definition dt_INCON : dtable :=  (* _helpers.py:125 *)
  [(#"porosity", TScalar); (#"userx", TArray); (#"values", TArray)].

(** One entry of _check_parameters, _helpers.py:177-197.  The warning logged
    for an unknown key is not modelled. *)
Definition check_entry (t : dtable) (kv : key * pyval) : res unit :=
  match tget (fst kv) t with
  | None => Ok tt
  | Some ty => guard (is_none (snd kv) || has_type ty (snd kv)) TypeError
  end.

(** _check_parameters, _helpers.py:176-197. *)
Definition check_dict (t : dtable) (v : pyval) : res unit :=
  let* d := as_dict v in
  let* _ := mapM (check_entry t) d in Ok tt.

(** v[key] for each remaining key, _helpers.py:214-216,221-223. *)
Fixpoint descend (v : pyval) (ks : list key) : res pyval :=
  match ks with
  | [] => Ok v
  | k :: r => let* v' := subscript v k in descend v' r
  end.

(** check_parameters with [keys] and is_list=False, _helpers.py:207,221-224. *)
Definition check_at (t : dtable) (k0 : key) (ks : list key) (p : dict) : res unit :=
  let* v := dgetE k0 p in
  let* v' := descend v ks in
  check_dict t v'.

(** check_parameters with is_list=True, _helpers.py:209-219: a KeyError skips
    the entry.  (A KeyError can only come from [descend].) *)
Definition check_list (t : dtable) (k0 : key) (ks : list key) (p : dict) : res unit :=
  let* v := dgetE k0 p in
  let* d := as_dict v in
  let* _ := mapM (fun kv => match descend (snd kv) ks with
                            | Ok v' => check_dict t v'
                            | Err KeyError => Ok tt
                            | Err e => Err e
                            end) d in
  Ok tt.
