(** What the short blocks must preserve: MULTI, SOLVR, MOMOP, TIMES, FOFT, COFT,
    GOFT, DIFFU and SELEC. *)
From Coq Require Import String Ascii ZArith Bool List.
From Verif Require Import Base.Str Base.Flt Model.Py Spec.Fields Spec.Values Spec.Types Spec.Rocks.
Import ListNotations.
Local Open Scope Z_scope.

(** A value of a dictionary, or the default when the key is missing. *)
Definition val_or (dflt : pyval) (k : key) (d : dict) : pyval :=
  match dget k d with Some v => v | None => dflt end.

(** ** MULTI *)
(** Components and phases of the equations of state (TOUGH2 user's guide). *)
Definition eos_table : list (str * (Z * Z)) :=
  [($"eos1", (1, 2)); ($"eos2", (2, 2)); ($"eos3", (2, 2)); ($"eos4", (2, 2)); ($"eos5", (2, 2));
   ($"eos7", (3, 2)); ($"eos8", (3, 3)); ($"eos9", (1, 1)); ($"eoswasg", (3, 3));
   ($"eco2n", (3, 3)); ($"eco2n_v2", (3, 3)); ($"eco2m", (3, 4))].
Fixpoint eos_find (s : str) (t : list (str * (Z * Z))) : option (Z * Z) :=
  match t with
  | [] => None
  | (k, v) :: r => if streqb s k then Some v else eos_find s r
  end.
(** No equation of state, or a known one. *)
Definition eos_counts (v : pyval) : option (Z * Z) :=
  match v with
  | PNone | PStr [] => Some (0, 0)
  | PStr s => eos_find s eos_table
  | _ => None
  end.
(** An explicit non-zero number overrides the table. *)
Definition override (given : pyval) (table : Z) : Z :=
  match int_of given with
  | Some z => if Z.eqb z 0 then table else z
  | None => table
  end.
Definition counts_of (p : dict) : Z * Z :=
  match eos_counts (val #"eos" p) with
  | Some (c, f) => (override (val #"n_component" p) c, override (val #"n_phase" p) f)
  | None => (0, 0)
  end.
Definition is_isothermal (p : dict) : bool := match val #"isothermal" p with PBool b => b | _ => false end.
Definition int_fits (w : nat) (z : Z) : bool := col_ok (CInt w) (PInt z).
Definition opt_int (v : pyval) : bool := is_none v || integer v.

Definition MULTI_ok (p : dict) : Prop :=
  forallb (fun k => dmem k p) [#"eos"; #"n_component"; #"n_phase"; #"isothermal"; #"diffusion"; #"n_component_mass"] = true /\
  eos_counts (val #"eos" p) <> None /\
  forallb (fun k => opt_int (val k p)) [#"n_component"; #"n_phase"; #"n_component_mass"] = true /\
  (exists b, val #"isothermal" p = PBool b) /\
  match val #"diffusion" p with PNone | PSeq SList _ | PSeq STuple _ => True | _ => False end /\
  int_fits 5 (fst (counts_of p)) = true /\ int_fits 5 (fst (counts_of p) + 1) = true /\
  int_fits 5 (snd (counts_of p)) = true /\ col_ok (CInt 5) (val #"n_component_mass" p) = true.
Definition MULTI_back (p : dict) : dict :=
  [(#"n_component", PInt (fst (counts_of p))); (#"isothermal", PBool (is_isothermal p));
   (#"n_phase", PInt (snd (counts_of p)))].

(** ** SOLVR: missing settings take the defaults of the package *)
Definition solver_of (p : dict) : dict := entries (val #"solver" p).
Definition solver_z (s : dict) : pyval := val_or (PStr ($"Z0")) #"z_precond" s.
Definition solver_o (s : dict) : pyval := val_or (PStr ($"O0")) #"o_precond" s.
Definition solver_rel (s : dict) : pyval := val_or (PFloat (flt_of_dec false 1 (-1))) #"rel_iter_max" s.
Definition solver_eps (s : dict) : pyval := val_or (PFloat (flt_of_dec false 1 (-6))) #"eps" s.
Definition SOLVR_ok (p : dict) : Prop :=
  dget #"solver" p = Some (PDict (solver_of p)) /\ keys_unique (solver_of p) /\
  well_typed kinds_SOLVR (solver_of p) = true /\
  dmem #"method" (solver_of p) = true /\ col_ok (CInt 1) (val #"method" (solver_of p)) = true /\
  col_ok (CText 2) (solver_z (solver_of p)) = true /\ col_ok (CText 2) (solver_o (solver_of p)) = true /\
  fits 4 (solver_rel (solver_of p)) = true /\ fits 4 (solver_eps (solver_of p)) = true.
Definition SOLVR_back (p : dict) : dict :=
  let s := solver_of p in
  [(#"solver", PDict [(#"method", col_val (CInt 1) (val #"method" s));
                      (#"z_precond", col_val (CText 2) (solver_z s));
                      (#"o_precond", col_val (CText 2) (solver_o s));
                      (#"rel_iter_max", sci 4 (solver_rel s)); (#"eps", sci 4 (solver_eps s))])].

(** ** MOMOP *)
Definition momop_of (p : dict) : dict := entries (val #"more_options" p).
Definition MOMOP_ok (p : dict) : Prop :=
  dget #"more_options" p = Some (PDict (momop_of p)) /\ options_ok 40 (momop_of p).
Definition MOMOP_back (p : dict) : dict := [(#"more_options", PDict (options_back 40 (momop_of p)))].

(** ** TIMES: a number, or a list of numbers; a list of one comes back as a number *)
Definition times_list (v : pyval) : list pyval := match v with PSeq _ l => l | v => [v] end.
Definition times_of (p : dict) : list pyval := times_list (val #"times" p).
Definition TIMES_ok (p : dict) : Prop :=
  dmem #"times" p = true /\
  Forall (fun v => num_fits 10 4 v = true) (times_of p) /\
  int_fits 5 (Z.of_nat (List.length (times_of p))) = true.
Definition one_or_list (l : list pyval) : pyval := match l with [x] => x | l => PSeq SList l end.
Definition TIMES_back (p : dict) : dict := [(#"times", one_or_list (map (sci 4) (times_of p)))].

(** ** FOFT, COFT, GOFT: labels that fit [w] columns *)
Definition OFT_ok (w : nat) (k : key) (p : dict) : Prop :=
  exists sk l, dget k p = Some (PSeq sk l) /\
    Forall (fun x => exists s, x = PStr s /\ name_ok w s = true) l.
Definition OFT_back (k : key) (p : dict) : dict := [(k, PSeq SList (items (val k p)))].

(** ** DIFFU: rows of one to eight entries, not all missing *)
Definition row_ok (k : nat) (v : pyval) : Prop :=
  exists sk l, v = PSeq sk l /\ (List.length l <= 8)%nat /\ forallb (fits k) l = true.
Definition DIFFU_ok (p : dict) : Prop :=
  exists sk rows, dget #"diffusion" p = Some (PSeq sk rows) /\
    Forall (fun v => row_ok 3 v /\ existsb (fun x => negb (absent x)) (items v) = true) rows.
Definition row_back (v : pyval) : pyval := sci_list 3 (items v).
Definition DIFFU_back (p : dict) : dict :=
  [(#"diffusion", PSeq SList (map row_back (items (val #"diffusion" p))))].

(** ** SELEC *)
Definition selec_of (p : dict) : dict := entries (val #"selections" p).
Definition selec_ints (p : dict) : dict := entries (val #"integers" (selec_of p)).
Definition selec_floats (p : dict) : list pyval := items (val #"floats" (selec_of p)).
(** Nested floats are one row per record; a flat list is one record. *)
Definition float_rows (l : list pyval) : list pyval :=
  match l with
  | [] => []
  | PSeq _ _ :: _ => l
  | _ => [PSeq SList l]
  end.
(** The first integer is the number of records of floats, when there are floats. *)
Definition selec_int (p : dict) (i : Z) : pyval :=
  match float_rows (selec_floats p) with
  | [] => val (KI i) (selec_ints p)
  | rows => if Z.eqb i 1 then PInt (Z.of_nat (List.length rows)) else val (KI i) (selec_ints p)
  end.
Definition int_indices (n : nat) (d : dict) : Prop :=
  keys_unique d /\ Forall (fun k => exists i, k = KI i /\ (1 <= i <= Z.of_nat n)) (dkeys d).
Definition SELEC_ok (p : dict) : Prop :=
  dget #"selections" p = Some (PDict (selec_of p)) /\
  well_typed kinds_SELEC (selec_of p) = true /\
  (val #"integers" (selec_of p) = PNone \/ is_dict (val #"integers" (selec_of p)) = true) /\
  dmem #"integers" (selec_of p) = true /\ dmem #"floats" (selec_of p) = true /\
  is_seq (val #"floats" (selec_of p)) = true /\
  int_indices 16 (selec_ints p) /\
  Forall (fun i => col_ok (CInt 5) (selec_int p i) = true) (option_nums 16) /\
  Forall (row_ok 3) (float_rows (selec_floats p)) /\
  (float_rows (selec_floats p) = [] -> int_of (val (KI 1) (selec_ints p)) = Some 0).
Definition SELEC_back (p : dict) : dict :=
  [(#"selections",
    PDict ((#"integers", PDict (known (map (fun i => (KI i, col_val (CInt 5) (selec_int p i))) (option_nums 16))))
           :: match map row_back (float_rows (selec_floats p)) with
              | [] => []
              | [r] => [(#"floats", r)]
              | rs => [(#"floats", PSeq SList rs)]
              end))].

(** The text that follows a block: another block, or the end of the file. *)
Definition block_names : list str :=
  [$"ROCKS"; $"RPCAP"; $"FLAC"; $"MULTI"; $"SOLVR"; $"START"; $"PARAM"; $"SELEC"; $"INDOM"; $"MOMOP";
   $"TIMES"; $"FOFT"; $"COFT"; $"GOFT"; $"GENER"; $"DIFFU"; $"OUTPU"; $"ELEME"; $"COORD"; $"CONNE";
   $"INCON"; $"NOVER"; $"ENDCY"].
Definition block_follows (head head_noend : str -> str) (rest : list str) : Prop :=
  exists kw r, In kw block_names /\ (rest = head kw :: r \/ rest = head_noend kw :: r).
