(** Input file reader: /repo/toughio/_io/input/tough/_read.py.

    A file handle is the list of its remaining lines (each keeps its newline);
    [fh.tell()] / [fh.seek(i)] restore an earlier list.  [next(f)] at the end of
    the file raises StopIteration, which no caller catches.  Text is ASCII and
    newline translation has already happened. *)
From Coq Require Import String Ascii ZArith Bool Lia List.
From Verif Require Import Base.Str Base.Digits Base.Flt Base.FltInt Model.Py Model.Records.
Import ListNotations.
Local Open Scope Z_scope.

(** next(f), _read.py:60,137 and so on *)
Definition next (ls : list str) : res (str * list str) :=
  match ls with [] => Err StopIteration | l :: r => Ok (l, r) end.

(** A [while True] loop.  [step] returns whether to go on; every step used here
    consumes a line, so [S (length ls)] iterations are always enough.
    _read.py:136,379,451,471,536,607,639,660,697 *)
Fixpoint iter_lines {St} (fuel : nat) (step : St -> list str -> res (bool * St * list str))
    (st : St) (ls : list str) : res (St * list str) :=
  match fuel with
  | O => Err Diverge
  | S f => let* (c, st', ls') := step st ls in
           if c then iter_lines f step st' ls' else Ok (st', ls')
  end.

(** [for _ in range(n): line = next(f); out.append/extend(...)],
    _read.py:305-308,360-363,570 *)
Fixpoint repeat_lines {St} (n : nat) (step : St -> str -> res St) (st : St) (ls : list str)
    : res (St * list str) :=
  match n with
  | O => Ok (st, ls)
  | S m => let* (line, ls) := next ls in
           let* st := step st line in
           repeat_lines m step st ls
  end.

(** data[i] of a record with a known number of columns, e.g. _read.py:142-148 *)
Definition at_ (l : list pyval) (i : nat) : pyval := nth i l PNone.

(** line.strip() is empty, _read.py:139,380,472,608,640,661,698 *)
Definition blank (line : str) : bool := negb (nonempty (strip line)).

(** len(set(data[4:7])) == 1, _read.py:146 *)
Definition all_equal3 (a b c : pyval) : bool := simple_eqb a b && simple_eqb a c.

(** _read_rpcap, _read.py:180-194 *)
Definition read_model (key : key) (ls : list str) : res (dict * list str) :=  (* _read.py:185-192 *)
  let* (line, ls) := next ls in
  let* data := read_record line fmt_RPCAP in
  Ok (if is_none (at_ data 0) then []
      else [(key, PDict [(#"id", at_ data 0);
                         (#"parameters", PSeq SList (prune_nones_list (skipn 2 data)))])], ls).
Definition read_rpcap (ls : list str) : res (dict * list str) :=  (* _read.py:180-194 *)
  let* (a, ls) := read_model #"relative_permeability" ls in
  let* (b, ls) := read_model #"capillarity" ls in
  Ok (a ++ b, ls).

(** One iteration of _read_rocks, _read.py:136-173.  The state is the pair
    (rocks, rocks_order). *)
Definition read_rock (st : dict * list pyval) (ls : list str)
    : res (bool * (dict * list pyval) * list str) :=
  let* (line, ls) := next ls in
  if blank line then Ok (false, st, ls)
  else
    let* data := read_record line fmt_ROCKS_1 in
    let rock := at_ data 0 in
    let* k := val_key rock in
    let d := [(#"density", at_ data 2); (#"porosity", at_ data 3);
              (#"permeability", if all_equal3 (at_ data 4) (at_ data 5) (at_ data 6)
                                then at_ data 4
                                else PSeq SList (firstn 3 (skipn 4 data)));
              (#"conductivity", at_ data 7); (#"specific_heat", at_ data 8)] in
    let nad := at_ data 1 in
    let* (d, ls) :=
      (if is_none nad then Ok (d, ls)
       else
         let* (line, ls) := next ls in
         let* data := read_record line fmt_ROCKS_2 in
         Ok (dupdate d [(#"compressibility", at_ data 0); (#"expansivity", at_ data 1);
                        (#"conductivity_dry", at_ data 2); (#"tortuosity", at_ data 3);
                        (#"klinkenberg_parameter", at_ data 4);
                        (#"distribution_coefficient_3", at_ data 5);
                        (#"distribution_coefficient_4", at_ data 6)], ls)) in
    let* (d, ls) :=
      (match nad with
       | PInt z => if 1 <? z then let* (m, ls) := read_rpcap ls in Ok (dupdate d m, ls)
                   else Ok (d, ls)
       | _ => Ok (d, ls)
       end) in
    Ok (true, (dset k (PDict d) (fst st), snd st ++ [rock]), ls).

(** {k: prune_nones_dict(v) for k, v in d.items()}, _read.py:175,628,680,733 *)
Definition prune_values (d : dict) : dict :=
  map (fun kv => (fst kv, match snd kv with
                          | PDict x => PDict (prune_nones_dict x)
                          | v => v
                          end)) d.

(** _read_rocks, _read.py:131-177 *)
Definition read_rocks (ls : list str) : res (dict * list str) :=
  let* (st, ls) := iter_lines (S (List.length ls)) read_rock ([], []) ls in
  Ok ([(#"rocks", PDict (prune_values (fst st))); (#"rocks_order", PSeq SList (snd st))], ls).

(** Body of the loop over rocks, _read.py:210-225 *)
Definition read_flac_rock (st : dict * list str) (rock : pyval) : res (dict * list str) :=
  let* k := val_key rock in
  let* (line, ls) := next (snd st) in
  let* data := read_record line fmt_FLAC_2 in
  let pm := PDict [(#"id", at_ data 0); (#"parameters", PSeq SList (prune_nones_list (skipn 1 data)))] in
  let* (line, ls) := next ls in
  let* data := read_record line fmt_FLAC_3 in
  let ep := PDict [(#"id", at_ data 0); (#"parameters", PSeq SList (prune_nones_list (skipn 2 data)))] in
  Ok (dset k (PDict [(#"permeability_model", pm); (#"equivalent_pore_pressure", ep)]) (fst st), ls).

(** _read_flac, _read.py:197-229: the "flac" and "rocks" dictionaries *)
Definition read_flac (rocks_order : list pyval) (ls : list str) : res (dict * dict * list str) :=
  let* (line, ls) := next ls in
  let* data := read_record line fmt_FLAC_1 in
  let fl := [(#"creep", at_ data 0); (#"porosity_model", at_ data 1); (#"version", at_ data 2)] in
  let* (rocks, ls) := foldM read_flac_rock ([], ls) rocks_order in
  Ok (prune_nones_dict fl, rocks, ls).

(** _read_multi, _read.py:232-243 *)
Definition read_multi (ls : list str) : res (dict * list str) :=
  let* (line, ls) := next ls in
  let* data := read_record line fmt_MULTI in
  Ok ([(#"n_component", at_ data 0); (#"isothermal", PBool (simple_eqb (at_ data 1) (at_ data 0)));
       (#"n_phase", at_ data 2)], ls).

(** _read_solvr, _read.py:246-261 *)
Definition read_solvr (ls : list str) : res (dict * list str) :=
  let* (line, ls) := next ls in
  let* data := read_record line fmt_SOLVR in
  Ok ([(#"solver", PDict [(#"method", at_ data 0); (#"z_precond", at_ data 2);
                          (#"o_precond", at_ data 4); (#"rel_iter_max", at_ data 5);
                          (#"eps", at_ data 6)])], ls).

(** {i + 1: int(x) for i, x in enumerate(s) if x.isdigit()}, _read.py:281-283,419 *)
Fixpoint digit_entries (i : Z) (s : str) : dict :=
  match s with
  | [] => []
  | c :: r => (if is_digit c then [(KI i, PInt (char_digit c))] else []) ++ digit_entries (i + 1) r
  end.
Definition option_digits (v : pyval) : res dict :=  (* _read.py:281-283,419 *)
  match v with PStr s => Ok (digit_entries 1 s) | _ => Err TypeError end.

(** int(data[2]), _read.py:300 *)
Definition py_int (v : pyval) : res Z :=
  match v with
  | PFloat x => match int_of_flt x with
                | Some z => Ok z
                | None => match x with NaN => Err ValueError | _ => Err OverflowError end
                end
  | _ => Err TypeError
  end.

(** _read_param, _read.py:264-346: options, extra_options and default *)
Definition read_param (ls : list str) : res (dict * dict * dict * list str) :=
  let* (line, ls) := next ls in
  let* data := read_record line fmt_PARAM_1 in
  let opts := [(#"n_iteration", at_ data 0); (#"verbosity", at_ data 1); (#"n_cycle", at_ data 2);
               (#"n_second", at_ data 3); (#"n_cycle_print", at_ data 4);
               (#"temperature_dependence_gas", at_ data 7);
               (#"effective_strength_vapor", at_ data 8)] in
  let* mop := option_digits (at_ data 5) in
  let* (line, ls) := next ls in
  let* data := read_record line fmt_PARAM_2 in
  let opts := dupdate opts
    [(#"t_ini", at_ data 0); (#"t_max", at_ data 1); (#"t_steps", at_ data 2);
     (#"t_step_max", at_ data 3); (#"gravity", at_ data 5); (#"t_reduce_factor", at_ data 6);
     (#"mesh_scale_factor", at_ data 7)] in
  let* n := py_int (at_ data 2) in
  let* (ts, ls) :=
    (if 0 <=? n then Ok (PInt n, ls)
     else
       let* (l, ls) := repeat_lines (Z.to_nat (- n))
         (fun acc line => let* data := read_record line fmt_PARAM_3 in
                          Ok (acc ++ prune_nones_list data)) [] ls in
       Ok (match l with [x] => x | _ => PSeq SList l end, ls)) in
  let opts := dset #"t_steps" ts opts in
  let* (line, ls) := next ls in
  let* data := read_record line fmt_PARAM_4 in
  let opts := dupdate opts
    [(#"eps1", at_ data 0); (#"eps2", at_ data 1); (#"w_upstream", at_ data 3);
     (#"w_newton", at_ data 4); (#"derivative_factor", at_ data 5)] in
  let* (line, ls) := next ls in
  let* data := read_record line fmt_PARAM_5 in
  let* (line, ls') := next ls in
  let* (data, ls) :=
    (match read_record line fmt_PARAM_5 with
     | Ok more => Ok (data ++ more, ls')
     | Err ValueError => Ok (data, ls)
     | Err e => Err e
     end) in
  let def := if existsb not_none data
             then [(#"initial_condition", PSeq SList (prune_nones_list data))] else [] in
  Ok (prune_nones_dict opts, prune_nones_dict mop, def, ls).

(** _read_selec, _read.py:349-369 *)
Definition read_selec (ls : list str) : res (dict * list str) :=
  let* (line, ls) := next ls in
  let* data := read_record line fmt_SELEC_1 in
  let ints := combine (int_keys (List.length data)) data in
  let i1 := at_ data 0 in
  let* t := truthy i1 in
  let* (fl, ls) :=
    (if t then
       let n := match i1 with PInt z => Z.to_nat z | _ => 0%nat end in
       let* (l, ls) := repeat_lines n
         (fun acc line => let* data := read_record line fmt_SELEC_2 in
                          Ok (acc ++ [PSeq SList (prune_nones_list data)])) [] ls in
       Ok (Some l, ls)
     else Ok (None, ls)) in
  let ints := prune_nones_dict ints in
  let* i1' := dgetE (KI 1) ints in
  let* fl := (if simple_eqb i1' (PInt 1)
              then match fl with
                   | Some (x :: _) => Ok (Some x)
                   | Some [] => Err IndexError
                   | None => Err KeyError
                   end
              else Ok (match fl with Some l => Some (PSeq SList l) | None => None end)) in
  Ok ([(#"selections", PDict ((#"integers", PDict ints)
                              :: match fl with Some x => [(#"floats", x)] | None => [] end))], ls).

(** Record 2 and the optional record 3 of an INDOM or INCON entry,
    _read.py:384-400,708-724.  [stop] is the condition under which the next line
    is not tried as a record 3. *)
Definition read_two (fmt : list token) (stop : str -> bool) (two_lines : bool) (ls : list str)
    : res (list pyval * bool * list str) :=
  let* (line, ls) := next ls in
  let* data := read_record line fmt in
  if two_lines then
    let* (line, ls') := next ls in
    if stop line then Ok (data, two_lines, ls)
    else match read_record line fmt with
         | Ok more => Ok (data ++ more, two_lines, ls')
         | Err ValueError => Ok (data, false, ls)
         | Err e => Err e
         end
  else Ok (data, two_lines, ls).

(** One iteration of _read_indom, _read.py:379-407; the state is
    (rocks, two_lines). *)
Definition read_indom_rock (st : dict * bool) (ls : list str) : res (bool * (dict * bool) * list str) :=
  let* (line, ls) := next ls in
  if blank line then Ok (false, st, ls)
  else
    let* data := read_record line fmt_INDOM_5 in
    let* k := val_key (at_ data 0) in
    let* (data, two, ls) := read_two fmt_INDOM_0 blank (snd st) ls in
    Ok (true, (dset k (PDict [(#"initial_condition", PSeq SList (prune_nones_list data))]) (fst st), two), ls).

(** _read_indom, _read.py:372-409 *)
Definition read_indom (ls : list str) : res (dict * list str) :=
  let* (st, ls) := iter_lines (S (List.length ls)) read_indom_rock ([], true) ls in
  Ok (fst st, ls).

(** _read_momop, _read.py:412-422 *)
Definition read_momop (ls : list str) : res (dict * list str) :=
  let* (line, ls) := next ls in
  let* data := read_record line fmt_MOMOP in
  let* d := option_digits (at_ data 0) in
  Ok ([(#"more_options", PDict d)], ls).

(** while len(table) < n, _read.py:436-439,492-495.  Every iteration consumes a
    line; the fuel is the number of lines. *)
Fixpoint read_table (fuel : nat) (fmt : list token) (n : Z) (acc : list pyval) (ls : list str)
    : res (list pyval * list str) :=
  if Z.of_nat (List.length acc) <? n then
    match fuel with
    | O => Err StopIteration
    | S f =>
        let* (line, ls) := next ls in
        let* data := read_record line fmt in
        read_table f fmt n (acc ++ prune_nones_list data) ls
    end
  else Ok (acc, ls).

(** _read_times, _read.py:425-444 *)
Definition read_times (ls : list str) : res (dict * list str) :=
  let* (line, ls) := next ls in
  let* data := read_record line fmt_TIMES_1 in
  match at_ data 0 with
  | PInt n =>
      let* (l, ls) := read_table (List.length ls) fmt_TIMES_2 n [] ls in
      let* v := (if n =? 1 then match l with x :: _ => Ok x | [] => Err IndexError end
                 else Ok (PSeq SList l)) in
      Ok ([(#"times", v)], ls)
  | _ => Err TypeError
  end.

(** One iteration of _read_oft, _read.py:451-457 *)
Definition read_oft_line (st : list pyval) (ls : list str) : res (bool * list pyval * list str) :=
  let* (line, ls) := next ls in
  match rstrip line with
  | [] => Ok (false, st, ls)
  | s => Ok (true, st ++ [PStr s], ls)
  end.

(** _read_oft, _read.py:447-459 *)
Definition read_oft (oft : key) (ls : list str) : res (dict * list str) :=
  let* (l, ls) := iter_lines (S (List.length ls)) read_oft_line [] ls in
  Ok ([(oft, PSeq SList l)], ls).

(** The label length to use: given, or inferred from the next line,
    _read.py:467-469,603-605,656-658,692-694 *)
Definition label_len (ll : option nat) (ls : list str) : res nat :=
  let* (line, _) := next ls in
  Ok (match ll with
      | Some (S n) => S n
      | _ => get_label_length (firstn 9 line)
      end).

(** v += tmp[k] for the entries of an existing generator, _read.py:508-509 *)
Definition append_generator (old tmp : dict) : res dict :=
  mapM (fun kv => let* t := dgetE (fst kv) tmp in
                  match snd kv, t with
                  | PSeq _ a, PSeq _ b => Ok (fst kv, PSeq SList (a ++ b))
                  | _, _ => Err Unmodelled
                  end) old.

(** The tables of a generator, _read.py:489-497 *)
Fixpoint read_tables (keys : list key) (n : Z) (ls : list str) : res (dict * list str) :=
  match keys with
  | [] => Ok ([], ls)
  | k :: r =>
      let* (t, ls) := read_table (List.length ls) fmt_GENER_0 n [] ls in
      let* (d, ls) := read_tables r n ls in
      Ok ((k, PSeq SList [PSeq SList t]) :: d, ls)
  end.

(** One iteration of _read_gener, _read.py:471-515; the state is the
    dictionary of generators. *)
Definition read_generator (fmt : res (list token)) (st : dict) (ls : list str)
    : res (bool * dict * list str) :=
  let* (line, ls) := next ls in
  if blank line then Ok (false, st, ls)
  else
    let* fmt := fmt in
    let* data := read_record line fmt in
    let* label := val_key (at_ data 0) in
    let one i := PSeq SList [at_ data i] in
    let tmp := [(#"name", one 1%nat); (#"nseq", one 2%nat); (#"nadd", one 3%nat);
                (#"nads", one 4%nat); (#"type", one 7%nat); (#"layer_thickness", one 11%nat)] in
    let table := match at_ data 5 with PInt n => if 1 <? n then Some n else None | _ => None end in
    let* (tmp, ls) :=
      (match table with
       | Some n =>
           let* itab := truthy (at_ data 8) in
           let* (d, ls) := read_tables ([#"times"; #"rates"] ++ if itab then [#"specific_enthalpy"] else [])
                             n ls in
           Ok (tmp ++ d, ls)
       | None =>
           Ok (tmp ++ [(#"times", PSeq SList [PNone]); (#"rates", one 9%nat);
                       (#"specific_enthalpy", one 10%nat)], ls)
       end) in
    let* st' :=
      (match dget label st with
       | Some (PDict old) => let* new := append_generator old tmp in Ok (dset label (PDict new) st)
       | Some _ => Err Unmodelled
       | None => Ok (dset label (PDict tmp) st)
       end) in
    Ok (true, st', ls).

(** Tidying up one value, _read.py:519-524 *)
Definition tidy_value (v : pyval) : pyval :=
  match v with
  | PSeq _ [x] => x
  | PSeq _ l => if forallb is_none l then PNone else v
  | _ => v
  end.

(** _read_gener, _read.py:462-528 *)
Definition read_gener (ll : option nat) (ls : list str) : res (dict * list str) :=
  let* n := label_len ll ls in
  let* (st, ls) := iter_lines (S (List.length ls)) (read_generator (fmt_GENER n)) [] ls in
  let g := map (fun kv => (fst kv, match snd kv with
                                   | PDict d => PDict (map (fun x => (fst x, tidy_value (snd x))) d)
                                   | v => v
                                   end)) st in
  Ok ([(#"generators", PDict (prune_values g))], ls).

(** _read_diffu, _read.py:531-550 *)
Definition read_diffu_row (st : list pyval) (ls : list str) : res (bool * list pyval * list str) :=  (* _read.py:536-548 *)
  let* (line, ls') := next ls in
  if blank line then Ok (false, st, ls')
  else match read_record line fmt_DIFFU with
       | Ok data => Ok (true, st ++ [PSeq SList (prune_nones_list data)], ls')
       | Err ValueError => Ok (false, st, ls)
       | Err e => Err e
       end.
Definition read_diffu (ls : list str) : res (dict * list str) :=  (* _read.py:531-550 *)
  let* (l, ls) := iter_lines (S (List.length ls)) read_diffu_row [] ls in
  Ok ([(#"diffusion", PSeq SList l)], ls).

(** str.isdigit, _read.py:560,566 (ASCII) *)
Definition all_digits (s : str) : bool := nonempty s && forallb is_digit s.

(** One variable, _read.py:571-588; the state is (names, variables). *)
Definition read_variable (st : dict * dict) (line : str) : res (dict * dict) :=
  let* data := read_record line fmt_OUTPU_3 in
  match at_ data 0 with
  | PStr s =>
      let name := KS (lower s) in
      let tmp := PSeq SList (prune_nones_list (skipn 1 data)) in
      match dget name (fst st) with
      | None => Ok (dset name (PInt 1) (fst st), dset name tmp (snd st))
      | Some (PInt c) =>
          let* old := dgetE name (snd st) in
          let* new := (if c =? 1 then Ok (PSeq SList [old; tmp])
                       else match old with
                            | PSeq k l => Ok (PSeq k (l ++ [tmp]))
                            | _ => Err Unmodelled
                            end) in
          Ok (dset name (PInt (c + 1)) (fst st), dset name new (snd st))
      | Some _ => Err Unmodelled
      end
  | _ => Err AttributeError
  end.

(** None if len(v) == 0 else v[0] if len(v) == 1 else v, _read.py:590-593 *)
Definition tidy_variable (v : pyval) : pyval :=
  match v with
  | PSeq _ [] => PNone
  | PSeq _ [x] => x
  | _ => v
  end.

(** _read_outpu, _read.py:553-595 *)
Definition read_outpu (ls : list str) : res (dict * list str) :=
  let* (line, ls) := next ls in
  let line := strip line in
  let* (fmt, line, ls) :=
    (if nonempty line && negb (all_digits line) then
       let* (line2, ls) := next ls in Ok ([(#"format", PStr line)], strip line2, ls)
     else Ok ([], line, ls)) in
  if all_digits line then
    let* n := (match parse_int line with Some z => Ok z | None => Err ValueError end) in
    let* (st, ls) := repeat_lines (Z.to_nat n) read_variable ([], []) ls in
    Ok ([(#"output", PDict (fmt ++ [(#"variables", PDict (map (fun kv => (fst kv, tidy_variable (snd kv))) (snd st)))]))], ls)
  else Ok ([(#"output", PDict fmt)], ls).

(** One iteration of _read_eleme, _read.py:607-626; the state is
    (elements, elements_order). *)
Definition read_element (fmt : res (list token)) (st : dict * list pyval) (ls : list str)
    : res (bool * (dict * list pyval) * list str) :=
  let* (line, ls) := next ls in
  if blank line then Ok (false, st, ls)
  else
    let* fmt := fmt in
    let* data := read_record line fmt in
    let label := at_ data 0 in
    let* k := val_key label in
    let* rock := (match at_ data 3 with PStr s => Ok (strip s) | _ => Err AttributeError end) in
    let* material :=
      (if forallb is_digit rock
       then match parse_int rock with Some z => Ok (PInt z) | None => Err ValueError end
       else Ok (PStr rock)) in
    Ok (true,
        (dset k (PDict [(#"nseq", at_ data 1); (#"nadd", at_ data 2); (#"material", material);
                        (#"volume", at_ data 4); (#"heat_exchange_area", at_ data 5);
                        (#"permeability_modifier", at_ data 6);
                        (#"center", PSeq SList (firstn 3 (skipn 7 data)))]) (fst st),
         snd st ++ [label]), ls).

(** _read_eleme, _read.py:598-630 *)
Definition read_eleme (ll : option nat) (ls : list str) : res (dict * list str) :=
  let* n := label_len ll ls in
  let* (st, ls) := iter_lines (S (List.length ls)) (read_element (fmt_ELEME n)) ([], []) ls in
  Ok ([(#"elements", PDict (prune_values (fst st))); (#"elements_order", PSeq SList (snd st))], ls).

(** One iteration of _read_coord, _read.py:639-646 *)
Definition read_coord_line (st : list pyval) (ls : list str) : res (bool * list pyval * list str) :=
  let* (line, ls) := next ls in
  if blank line then Ok (false, st, ls)
  else let* data := read_record line fmt_COORD in Ok (true, st ++ [PSeq SList data], ls).
Definition read_coord (ls : list str) : res (list pyval * list str) :=  (* _read.py:633-648 *)
  iter_lines (S (List.length ls)) read_coord_line [] ls.

(** line.startswith("+++"), _read.py:661,698,717 *)
Definition plus3 (line : str) : bool := startswith ($"+++") line.

(** One iteration of _read_conne, _read.py:660-678 *)
Definition read_connection (fmt : res (list token)) (st : dict * list pyval) (ls : list str)
    : res (bool * (dict * list pyval) * list str) :=
  let* (line, ls) := next ls in
  if blank line || plus3 line then Ok (false, st, ls)
  else
    let* fmt := fmt in
    let* data := read_record line fmt in
    let label := at_ data 0 in
    let* k := val_key label in
    Ok (true,
        (dset k (PDict [(#"nseq", at_ data 1); (#"nadd", PSeq SList (firstn 2 (skipn 2 data)));
                        (#"permeability_direction", at_ data 4);
                        (#"nodal_distances", PSeq SList (firstn 2 (skipn 5 data)));
                        (#"interface_area", at_ data 7); (#"gravity_cosine_angle", at_ data 8);
                        (#"radiant_emittance_factor", at_ data 9)]) (fst st),
         snd st ++ [label]), ls).

(** _read_conne, _read.py:651-684 *)
Definition read_conne (ll : option nat) (ls : list str) : res (dict * list str) :=
  let* n := label_len ll ls in
  let* (st, ls) := iter_lines (S (List.length ls)) (read_connection (fmt_CONNE n)) ([], []) ls in
  Ok ([(#"connections", PDict (prune_values (fst st))); (#"connections_order", PSeq SList (snd st))], ls).

(** One iteration of _read_incon, _read.py:697-731; the state is
    (initial_conditions, order, two_lines). *)
Definition read_initial (fmt : res (list token)) (st : dict * list pyval * bool) (ls : list str)
    : res (bool * (dict * list pyval * bool) * list str) :=
  let '(d, order, two) := st in
  let* (line, ls) := next ls in
  if blank line || plus3 line then Ok (false, st, ls)
  else
    let* fmt := fmt in
    let* data := read_record line fmt in
    let label := at_ data 0 in
    let* k := val_key label in
    let userx := prune_nones_list (firstn 5 (skipn 4 data)) in
    let por := at_ data 3 in
    let* (vals, two, ls) := read_two fmt_INCON_0 (fun l => blank l || plus3 l) two ls in
    Ok (true,
        (dset k (PDict [(#"porosity", por);
                        (#"userx", match userx with [] => PNone | _ => PSeq SList userx end);
                        (#"values", PSeq SList (prune_nones_list vals))]) d,
         order ++ [label], two), ls).

(** _read_incon, _read.py:687-737 *)
Definition read_incon (ll : option nat) (ls : list str) : res (dict * list str) :=
  let* n := label_len ll ls in
  let* (st, ls) := iter_lines (S (List.length ls)) (read_initial (fmt_INCON n)) ([], [], true) ls in
  let '(d, order, _) := st in
  Ok ([(#"initial_conditions", PDict (prune_values d));
       (#"initial_conditions_order", PSeq SList order)], ls).

(** parameters["default"].update(d) or parameters["default"] = d,
    _read.py:66-69,85-88 *)
Definition update_default (p d : dict) : res dict :=
  match dget #"default" p with
  | Some v => let* old := as_dict v in Ok (dset #"default" (PDict (dupdate old d)) p)
  | None => Ok (dset #"default" (PDict d) p)
  end.

(** for k, v in d.items(): parameters["rocks"][k].update(v), _read.py:73-74,93-94.
    Only looked up when there is an entry. *)
Definition update_rocks (p d : dict) : res dict :=
  foldM (fun p kv =>
           let* v := dgetE #"rocks" p in
           let* rocks := as_dict v in
           let* r := dgetE (fst kv) rocks in
           let* r := as_dict r in
           let* u := as_dict (snd kv) in
           Ok (dset #"rocks" (PDict (dset (fst kv) (PDict (dupdate r u)) rocks)) p)) p d.

(** zip(parameters["elements_order"], coord), _read.py:116-117 *)
Definition update_centers (p : dict) (coord : list pyval) : res dict :=
  let* o := dgetE #"elements_order" p in
  let* order := py_iter o in
  foldM (fun p kc =>
           let* v := dgetE #"elements" p in
           let* els := as_dict v in
           let* k := val_key (fst kc) in
           let* e := dgetE k els in
           let* e := as_dict e in
           Ok (dset #"elements" (PDict (dset k (PDict (dset #"center" (snd kc) e)) els)) p))
        p (combine order coord).

(** One block of the main loop, _read.py:62-126: the new parameters, the
    remaining lines and whether to go on. *)
Definition read_block (ll : option nat) (line : str) (p : dict) (ls : list str)
    : res (bool * dict * list str) :=
  let go (r : res (dict * list str)) := let* (d, ls) := r in Ok (true, dupdate p d, ls) in
  if startswith ($"ROCKS") line then go (read_rocks ls)
  else if startswith ($"RPCAP") line then
    let* (d, ls) := read_rpcap ls in let* p := update_default p d in Ok (true, p, ls)
  else if startswith ($"FLAC") line then
    let* o := dgetE #"rocks_order" p in
    let* order := py_iter o in
    let* (fl, rocks, ls) := read_flac order ls in
    let* p := update_rocks (dset #"flac" (PDict fl) p) rocks in
    Ok (true, p, ls)
  else if startswith ($"MULTI") line then go (read_multi ls)
  else if startswith ($"SOLVR") line then go (read_solvr ls)
  else if startswith ($"START") line then Ok (true, dset #"start" (PBool true) p, ls)
  else if startswith ($"PARAM") line then
    let* (opts, mop, def, ls) := read_param ls in
    let p := dset #"extra_options" (PDict mop) (dset #"options" (PDict opts) p) in
    let* p := update_default p def in
    Ok (true, p, ls)
  else if startswith ($"SELEC") line then go (read_selec ls)
  else if startswith ($"INDOM") line then
    let* (d, ls) := read_indom ls in let* p := update_rocks p d in Ok (true, p, ls)
  else if startswith ($"MOMOP") line then go (read_momop ls)
  else if startswith ($"TIMES") line then go (read_times ls)
  else if startswith ($"FOFT") line then go (read_oft #"element_history" ls)
  else if startswith ($"COFT") line then go (read_oft #"connection_history" ls)
  else if startswith ($"GOFT") line then go (read_oft #"generator_history" ls)
  else if startswith ($"GENER") line then go (read_gener ll ls)
  else if startswith ($"DIFFU") line then go (read_diffu ls)
  else if startswith ($"OUTPU") line then go (read_outpu ls)
  else if startswith ($"ELEME") line then
    let* (d, ls) := read_eleme ll ls in
    Ok (true, dset #"coordinates" (PBool false) (dupdate p d), ls)
  else if startswith ($"COORD") line then
    let* (coord, ls) := read_coord ls in
    let* p := update_centers p coord in
    Ok (true, dset #"coordinates" (PBool true) p, ls)
  else if startswith ($"CONNE") line then go (read_conne ll ls)
  else if startswith ($"INCON") line then go (read_incon ll ls)
  else if startswith ($"NOVER") line then Ok (true, dset #"nover" (PBool true) p, ls)
  else if startswith ($"ENDCY") line then Ok (false, p, ls)
  else Ok (true, p, ls).

(** The main loop, _read.py:60-126.  Each iteration consumes a line; the fuel is
    the number of lines. *)
Fixpoint read_blocks (fuel : nat) (ll : option nat) (p : dict) (ls : list str) : res dict :=
  match ls with
  | [] => Ok p
  | line :: ls =>
      match fuel with
      | O => Err Diverge
      | S f => let* (c, p, ls) := read_block ll line p ls in
               if c then read_blocks f ll p ls else Ok p
      end
  end.

(** f.readline(): "" for ever at the end of the file, _read.py:44,48 *)
Definition readline (ls : list str) : str * list str :=
  match ls with [] => ([], []) | l :: r => (l, r) end.

(** The title loop, _read.py:46-52.  It only ends at a line starting with
    ROCKS, so it takes explicit fuel. *)
Fixpoint title_loop (fuel : nat) (title : list str) (ls : list str) : res (list str) :=
  match fuel with
  | O => Err Diverge
  | S f => let (line, ls) := readline ls in
           let line := strip line in
           if startswith ($"ROCKS") line then Ok title
           else title_loop f (title ++ [line]) ls
  end.

(** The title, _read.py:43-54 *)
Definition read_title (fuel : nat) (ls : list str) : res dict :=
  let (line, rest) := readline ls in
  let line := strip line in
  if existsb (streqb (firstn 5 line)) [$"ROCKS"; $"ELEME"; $"INCON"; $"GENER"] then Ok []
  else
    let* title := title_loop fuel [line] rest in
    Ok [(#"title", match title with
                   | [t] => PStr t
                   | l => PSeq SList (map PStr l)
                   end)].

(** read_buffer on a text, _read.py:39-128 *)
Definition read_buffer (fuel : nat) (ll : option nat) (text : str) : res dict :=
  let ls := lines text in
  let* p := read_title fuel ls in
  read_blocks (List.length ls) ll p ls.

(** [read], _read.py:11-36: validation of label_length, then read_buffer *)
Definition read_text (fuel : nat) (ll : option Z) (text : str) : res dict :=
  match ll with
  | None => read_buffer fuel None text
  | Some z => if (5 <=? z) && (z <? 10) then read_buffer fuel (Some (Z.to_nat z)) text
              else Err ValueError
  end.
