(** Python values, exceptions and string formatting, as far as the input
    readers and writers of /repo/toughio/_io/input/tough use them.  The lines cited
    are places in _write.py, _read.py and _helpers.py of that directory that use
    the construct described. *)
From Coq Require Import String Ascii ZArith Bool Lia List.
From Verif Require Import Base.Str Base.Digits Base.Flt Base.FltInt.
Import ListNotations.
Local Open Scope Z_scope.

(** Exceptions as values.  [Diverge] stands for a loop that never ends, and
    [Unmodelled] for Python behaviour the model does not describe. *)
(* raised e.g. at _write.py:75, 208, _helpers.py:190 *)
Inductive exn :=
| TypeError | ValueError | KeyError | IndexError | AttributeError
| StopIteration | UnboundLocalError | ZeroDivisionError | OverflowError
| StructError | AssertionError | Diverge | Unmodelled.

(* a value or an exception *)
Inductive res (A : Type) := Ok (a : A) | Err (e : exn).   (* any function, e.g. _write.py:38-66 *)
Arguments Ok {A}. Arguments Err {A}.

(* sequence of statements, an exception ends it (any function, e.g. _write.py:38-66) *)
Definition bind {A B} (x : res A) (f : A -> res B) : res B :=
  match x with Ok a => f a | Err e => Err e end.
Notation "'let*' x := e 'in' k" := (bind e (fun x => k))
  (at level 200, x pattern, e at level 100, k at level 200).

(* list comprehensions, e.g. _helpers.py:269 *)
Fixpoint mapM {A B} (f : A -> res B) (l : list A) : res (list B) :=
  match l with
  | [] => Ok []
  | a :: r => let* b := f a in let* bs := mapM f r in Ok (b :: bs)
  end.

(* for loops, e.g. _write.py:181-252 *)
Fixpoint foldM {A B} (f : A -> B -> res A) (a : A) (l : list B) : res A :=
  match l with
  | [] => Ok a
  | b :: r => let* a' := f a b in foldM f a' r
  end.

(* if not ...: raise, e.g. _write.py:207-208 *)
Definition guard (b : bool) (e : exn) : res unit := if b then Ok tt else Err e.

(** Dictionary keys: strings, integers and [None] (the reader can produce a
    [None] key from a blank name). *)
(* keys of Parameters, _helpers.py:12-125 *)
Inductive key := KS (s : str) | KI (z : Z) | KNone.

(* key equality of dictionaries, e.g. _write.py:48 *)
Definition key_eqb (a b : key) : bool :=
  match a, b with
  | KS x, KS y => streqb x y
  | KI x, KI y => Z.eqb x y
  | KNone, KNone => true
  | _, _ => false
  end.

(* (list, tuple, numpy.ndarray), _write.py:207 *)
Inductive seqk := SList | STuple | SArray.

(** Python objects: [PNpInt] is numpy.int32 / numpy.int64 (not a subclass of
    int), [PFloat] is float and its subclass numpy.float64, [PSeq SArray] is
    numpy.ndarray; dictionaries keep insertion order. *)
(* values of Parameters, types in _helpers.py:128-140 *)
Inductive pyval :=
| PNone
| PBool (b : bool)
| PInt (z : Z)
| PNpInt (z : Z)
| PFloat (x : flt)
| PStr (s : str)
| PSeq (k : seqk) (l : list pyval)
| PDict (d : list (key * pyval)).

(* dict, _write.py:40 *)
Definition dict := list (key * pyval).

Notation "# s" := (KS (lit s)) (at level 1, format "# s").

(** dict.get / [k in d] / d[k] *)
(* data.get / data[k], _write.py:205 *)
Fixpoint dget (k : key) (d : dict) : option pyval :=
  match d with
  | [] => None
  | (k', v) :: r => if key_eqb k k' then Some v else dget k r
  end.

(* k in data.keys(), _write.py:48 *)
Definition dmem (k : key) (d : dict) : bool :=
  match dget k d with Some _ => true | None => false end.

(* data[k], _write.py:205 *)
Definition dgetE (k : key) (d : dict) : res pyval :=
  match dget k d with Some v => Ok v | None => Err KeyError end.

(** d[k] = v: keeps the position of an existing key, else appends. *)
(* data[k] = v, _read.py:54 *)
Fixpoint dset (k : key) (v : pyval) (d : dict) : dict :=
  match d with
  | [] => [(k, v)]
  | (k', v') :: r => if key_eqb k k' then (k', v) :: r else (k', v') :: dset k v r
  end.

(** d.update(u) *)
(* _write.py:41, 258 *)
Definition dupdate (d u : dict) : dict :=
  fold_left (fun acc kv => dset (fst kv) (snd kv) acc) u d.

(* .keys(), _write.py:51 *)
Definition dkeys (d : dict) : list key := map fst d.

(* x is None, _helpers.py:261 *)
Definition is_none (v : pyval) : bool := match v with PNone => true | _ => false end.
(* x is not None, _helpers.py:299 *)
Definition not_none (v : pyval) : bool := negb (is_none v).

(** isinstance(v, (list, tuple, numpy.ndarray)) *)
(* _write.py:207 *)
Definition is_seq (v : pyval) : bool := match v with PSeq _ _ => true | _ => false end.
(* isinstance(x, str), _helpers.py:264 *)
Definition is_str (v : pyval) : bool := match v with PStr _ => true | _ => false end.

(** the dictionary behind a value; [v.items()] on something else is an
    AttributeError *)
(* .items(), _write.py:47 *)
Definition as_dict (v : pyval) : res dict :=
  match v with PDict d => Ok d | _ => Err AttributeError end.

(** v[k] with a string key *)
(* _write.py:205 *)
Definition subscript (v : pyval) (k : key) : res pyval :=
  match v with PDict d => dgetE k d | _ => Err TypeError end.

(** v[i] with an integer index [i >= 0] on a sequence or string *)
(* _write.py:496 *)
Definition index (v : pyval) (i : nat) : res pyval :=
  match v with
  | PSeq _ l => match nth_error l i with Some x => Ok x | None => Err IndexError end
  | PStr s => match nth_error s i with Some c => Ok (PStr [c]) | None => Err IndexError end
  | PDict d => dgetE (KI (Z.of_nat i)) d
  | _ => Err TypeError
  end.

(** len(v) *)
(* _write.py:207 *)
Definition py_len (v : pyval) : res nat :=
  match v with
  | PSeq _ l => Ok (List.length l)
  | PStr s => Ok (List.length s)
  | PDict d => Ok (List.length d)
  | _ => Err TypeError
  end.

(* iteration over keys, _write.py:166 *)
Definition key_val (k : key) : pyval :=
  match k with KS s => PStr s | KI z => PInt z | KNone => PNone end.

(** hashing a value to use it as a key; floats and booleans as keys are not
    modelled *)
(* parameters["rocks"][k], _write.py:182 *)
Definition val_key (v : pyval) : res key :=
  match v with
  | PStr s => Ok (KS s)
  | PInt z | PNpInt z => Ok (KI z)
  | PNone => Ok KNone
  | PSeq SList _ | PSeq SArray _ | PDict _ => Err TypeError
  | _ => Err Unmodelled
  end.

(** iteration: [for x in v], [list(v)] *)
(* _write.py:106 *)
Definition py_iter (v : pyval) : res (list pyval) :=
  match v with
  | PSeq _ l => Ok l
  | PStr s => Ok (map (fun c => PStr [c]) s)
  | PDict d => Ok (map key_val (dkeys d))
  | _ => Err TypeError
  end.

(** v[:n] and v[n:] *)
(* _write.py:470 *)
Definition slice_to (n : nat) (v : pyval) : res pyval :=
  match v with
  | PSeq k l => Ok (PSeq k (firstn n l))
  | PStr s => Ok (PStr (firstn n s))
  | _ => Err TypeError
  end.
(* _read.py:191 *)
Definition slice_from (n : nat) (v : pyval) : res pyval :=
  match v with
  | PSeq k l => Ok (PSeq k (skipn n l))
  | PStr s => Ok (PStr (skipn n s))
  | _ => Err TypeError
  end.

(** Truth value; a numpy array of two or more entries has none. *)
(* _write.py:74 *)
Definition truthy (v : pyval) : res bool :=
  match v with
  | PNone => Ok false
  | PBool b => Ok b
  | PInt z | PNpInt z => Ok (negb (Z.eqb z 0))
  | PFloat (Fin _ m _) => Ok (negb (Z.eqb m 0))
  | PFloat _ => Ok true
  | PStr s => Ok (nonempty s)
  | PSeq SArray l => match l with [] => Ok false | [_] => Err Unmodelled | _ => Err ValueError end
  | PSeq _ l => Ok (match l with [] => false | _ => true end)
  | PDict d => Ok (match d with [] => false | _ => true end)
  end.

(** numpy.shape for (nested) sequences; ragged nesting, whose result depends
    on the numpy version, is not modelled. *)
(* numpy.ndim, _write.py:206, 497 *)
Fixpoint py_shape (v : pyval) : res (list nat) :=
  match v with
  | PSeq _ l =>
      let fix go (l : list pyval) : res (option (list nat)) :=
        match l with
        | [] => Ok None
        | x :: r =>
            let* sx := py_shape x in
            let* sr := go r in
            match sr with
            | None => Ok (Some sx)
            | Some s => if list_eq_dec Nat.eq_dec s sx then Ok (Some s) else Err Unmodelled
            end
        end in
      let* s := go l in
      match s with
      | None => Ok [O]
      | Some s => Ok (List.length l :: s)
      end
  | _ => Ok []
  end.

(** numpy.ndim *)
(* _write.py:206, 593 *)
Definition py_ndim (v : pyval) : res nat := let* s := py_shape v in Ok (List.length s).

(** [a == b] for the values compared by the readers: numbers, strings, None.
    Finite floats are in normal form ([is_f64]), so equal values have equal
    representations except the two zeros. *)
(* _read.py:146, 240 *)
Definition flt_eqb (x y : flt) : bool :=
  match x, y with
  | Fin s m e, Fin s' m' e' =>
      (Z.eqb m 0 && Z.eqb m' 0) || (Bool.eqb s s' && Z.eqb m m' && Z.eqb e e')
  | Inf s, Inf s' => Bool.eqb s s'
  | _, _ => false
  end.

(* _read.py:146, 240 *)
Definition simple_eqb (a b : pyval) : bool :=
  match a, b with
  | PNone, PNone => true
  | PInt x, PInt y => Z.eqb x y
  | PFloat x, PFloat y => flt_eqb x y
  | PStr x, PStr y => streqb x y
  | _, _ => false
  end.

(** ** str.format *)

(** A format specification [{:>w.pt}]: explicit right alignment, width,
    precision and presentation type. *)
(* format strings made by str2format, /repo/toughio/_common.py:66-89 *)
Record spec := Spec { sp_right : bool; sp_w : nat; sp_p : option nat; sp_t : option ascii }.

(* precision of a string format, _helpers.py:265 *)
Definition trunc (p : option nat) (s : str) : str :=
  match p with Some n => firstn n s | None => s end.

(* float.__format__, _helpers.py:263 *)
Definition fmt_num (sp : spec) (x : flt) : res str :=
  let p := match sp_p sp with Some n => n | None => 6%nat end in
  match sp_t sp with
  | Some t =>
      if Ascii.eqb t "e" then Ok (rjust (sp_w sp) (fmt_e p x))
      else if Ascii.eqb t "f" then Ok (rjust (sp_w sp) (fmt_f p x))
      else if Ascii.eqb t "g" then Ok (rjust (sp_w sp) (fmt_g p x))
      else Err Unmodelled
  | None => Err Unmodelled
  end.

(** int.__format__: with a float presentation type the integer is converted to
    a float first (OverflowError beyond the binary64 range). *)
(* _helpers.py:263 *)
Definition fmt_int (sp : spec) (z : Z) : res str :=
  match sp_t sp with
  | None => match sp_p sp with
            | Some _ => Err ValueError
            | None => Ok (rjust (sp_w sp) (print_Z z))
            end
  | Some _ => match flt_of_Z z with
              | Fin s m e => fmt_num sp (Fin s m e)
              | _ => Err OverflowError
              end
  end.

(** "{spec}".format(v).  Formatting a float without presentation type is not
    modelled. *)
(* _helpers.py:263-265 *)
Definition py_format (sp : spec) (v : pyval) : res str :=
  match v with
  | PStr s =>
      match sp_t sp with
      | None => Ok (if sp_right sp then rjust (sp_w sp) (trunc (sp_p sp) s)
                    else ljust (sp_w sp) (trunc (sp_p sp) s))
      | Some _ => Err ValueError
      end
  | PBool b => fmt_int sp (if b then 1 else 0)
  | PInt z | PNpInt z => fmt_int sp z
  | PFloat x => fmt_num sp x
  | PNone | PSeq _ _ | PDict _ => Err TypeError
  end.

(** str(v) for the values the writers convert: integers, strings, booleans. *)
(* _write.py:425, 583 *)
Definition py_str (v : pyval) : res str :=
  match v with
  | PStr s => Ok s
  | PInt z | PNpInt z => Ok (print_Z z)
  | PBool b => Ok (if b then $"True" else $"False")
  | PNone => Ok ($"None")
  | _ => Err Unmodelled
  end.
