(** Assigning materials to cells. *)
From Coq Require Import String Ascii Arith ZArith Bool List.
From Verif Require Import Base.Str Model.MeshOps.
Import ListNotations.

(** Is cell [k] selected? *)
Definition chosen (s : selection) (k : nat) : Prop :=
  match s with
  | Ints l => In (Z.of_nat k) l
  | PyBools l | NpBools l => nth_error l k = Some true
  end.
(** [after] is the list of names [before] with [m] for the selected cells. *)
Definition assigned (m : str) (s : selection) (before after : list str) : Prop :=
  List.length after = List.length before /\
  forall k, k < List.length before ->
    (chosen s k -> nth_error after k = Some m) /\ (~ chosen s k -> nth_error after k = nth_error before k).
(** A well-formed selection in a mesh of [n] cells: at least one index and all in
    range, or one boolean per cell (plain Python booleans: in a mesh of two cells or
    more). *)
Definition valid (n : nat) (s : selection) : Prop :=
  match s with
  | Ints l => l <> [] /\ Forall (fun z => (0 <= z < Z.of_nat n)%Z) l
  | PyBools l => List.length l = n /\ 2 <= n
  | NpBools l => List.length l = n /\ 1 <= n
  end.
(** The history of assignments [calls] leads from the materials [before] to
    [after].  [known] are the names the mesh knows.  Each call selects some cell (or
    is an array without a true entry), and a new name is introduced only while every
    known name is in use. *)
Inductive history (known : list str) : list str -> list (str * selection) -> list str -> Prop :=
| nothing l : history known l [] l
| skip m b r l l' : List.length b = List.length l -> (forall k, ~ chosen (NpBools b) k) ->
    history known l r l' -> history known l ((m, NpBools b) :: r) l'
| one m s r l l' l'' : valid (List.length l) s -> (exists k, chosen s k) -> assigned m s l l' ->
    In m known \/ incl known l ->
    history (m :: known) l' r l'' -> history known l ((m, s) :: r) l''.
