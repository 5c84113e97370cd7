(** Small vocabulary for the specifications: looking a value up, trimming a
    list, joining dictionaries.  Nothing here refers to the reader or writer. *)
From Coq Require Import String Ascii ZArith Bool List.
From Verif Require Import Base.Str Base.Digits Base.Flt Base.FltText Model.Py Spec.Fields.
Import ListNotations.

(** The value under a key; None when the key is missing. *)
Definition val (k : key) (d : dict) : pyval :=
  match dget k d with Some v => v | None => PNone end.

(** A Python dictionary has each key once. *)
Definition keys_unique (d : dict) : Prop := NoDup (dkeys d).

(** A list without its trailing Nones. *)
Fixpoint trim (l : list pyval) : list pyval :=
  match l with
  | [] => []
  | x :: r => match trim r with
              | [] => if is_none x then [] else [x]
              | r' => x :: r'
              end
  end.

(** A dictionary without its None entries. *)
Fixpoint known (d : dict) : dict :=
  match d with
  | [] => []
  | (k, v) :: r => if is_none v then known r else (k, v) :: known r
  end.

(** What scientific columns give back. *)
Definition sci (k : nat) (v : pyval) : pyval := col_val (CSci 0 k) v.
Definition sci_list (k : nat) (l : list pyval) : pyval := PSeq SList (trim (map (sci k) l)).

(** The entries of a sequence. *)
Definition items (v : pyval) : list pyval := match v with PSeq _ l => l | _ => [] end.
Definition entries (v : pyval) : dict := match v with PDict d => d | _ => [] end.
Definition is_dict (v : pyval) : bool := match v with PDict _ => true | _ => false end.

(** A number, not missing, that fits a scientific column. *)
Definition num_fits (w k : nat) (v : pyval) : bool := col_ok (CSci w k) v && negb (absent v).

(** One-digit options numbered from 1: the entries that come back. *)
Definition digit_option (v : pyval) : bool :=
  match v with PNone => true | PInt z | PNpInt z => (0 <=? z)%Z && (z <? 10)%Z | _ => false end.
Definition option_nums (n : nat) : list Z := map Z.of_nat (seq 1 n).
Definition options_ok (n : nat) (d : dict) : Prop :=
  keys_unique d /\
  Forall (fun kv => (exists i, fst kv = KI i /\ (1 <= i <= Z.of_nat n)%Z) /\ digit_option (snd kv) = true) d.
Definition options_back (n : nat) (d : dict) : dict :=
  known (map (fun i => (KI i, col_val (CInt 1) (val (KI i) d))) (option_nums n)).
