(** Extensions and the last registration that matters. *)
From Coq Require Import String Ascii ZArith Bool List.
From Verif Require Import Base.Str Model.Dispatch.
Import ListNotations.

(** [name] ends with [ext] = ".…": a directory, a base name with something
    before the dot, no dot nor separator after it. *)
Definition has_extension (name ext : str) : Prop :=
  exists dir base e, name = dir ++ base ++ ext /\ ext = "."%char :: e /\
    (dir = [] \/ exists d, dir = d ++ ["/"%char]) /\
    ~ In "/"%char base /\ ~ In "/"%char e /\ ~ In "."%char e /\ (exists c, In c base /\ c <> "."%char).

(** [x] is the last element of [l] such that [P]. *)
Definition last_such {X} (P : X -> Prop) (l : list X) (x : X) : Prop :=
  exists a b, l = a ++ x :: b /\ P x /\ Forall (fun y => ~ P y) b.

Section Choice.
Context {A : Type}.
Implicit Types (hist : list (registration A)) (r : registration A).
(** Registrations naming an extension, reading or writing a format. *)
Definition lists (e : str) : registration A -> Prop := fun r => In e (r_exts r).
Definition reads (fmt : str) : registration A -> Prop := fun r => r_fmt r = fmt /\ r_reader r <> None.
Definition writes (fmt : str) : registration A -> Prop := fun r => r_fmt r = fmt /\ r_writer r <> None.
(** The format that should be used, from the history alone. *)
Inductive format_for hist (name : str) : str -> Prop :=
| by_extension ext r : has_extension name ext -> last_such (lists (lower ext)) hist r -> r_fmt r <> [] ->
    format_for hist name (r_fmt r)
| by_default : (forall ext, has_extension name ext -> Forall (fun r => ~ lists (lower ext) r) hist) ->
    Forall (fun r => ~ lists [] r) hist -> format_for hist name ($"tough").
End Choice.
