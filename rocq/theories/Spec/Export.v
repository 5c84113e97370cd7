(** Results exported on a mesh. *)
From Coq Require Import String Ascii Arith ZArith Bool Permutation List.
From Verif Require Import Base.Str Base.Flt Base.FltArith Model.Output Spec.Output Spec.Dispatch.
Import ListNotations.
Local Open Scope nat_scope.

(** The column [c] of rows named [own], put in the order of [labels]. *)
Definition by_label {A} (own labels : list str) (c c' : list A) : Prop :=
  List.length c' = List.length labels /\
  forall i j l, nth_error own i = Some l -> nth_error labels j = Some l -> nth_error c' j = nth_error c i.
Definition coordinate_name (k : str) : Prop := In k [$"X"; $"Y"; $"Z"].
(** Results for each of the cells [labels], in any order, at some time. *)
Definition results_for (labels : list str) (o : output) (own : list str) (t : flt) : Prop :=
  o_labels o = Some (map single own) /\ NoDup own /\ Permutation own labels /\ o_time o = Some t /\
  forall k c, In (k, c) (o_data o) -> List.length c = List.length own.
(** The step in the file: its time, and its columns but for the coordinates. *)
Definition exports (labels : list str) (o : output) (step : flt * list (str * unit) * list (str * list flt)) : Prop :=
  exists own, results_for labels o own (fst (fst step)) /\ snd (fst step) = [] /\
    (forall k, In k (map fst (snd step)) <-> In k (names o) /\ ~ coordinate_name k) /\
    forall k c', In (k, c') (snd step) -> exists c, In (k, c) (o_data o) /\ by_label own labels c c'.
(** Times in order; what is not a number comes last. *)
Definition not_later (x y : flt) : bool := fleb x y || match y with NaN => true | _ => false end.
(** The name given; else that of the results with the extension of the format in
    place of its own. *)
Definition export_names (infile : str) (given : option str) (ext : str) (g : str) : Prop :=
  match given with
  | Some (c :: r) => g = c :: r
  | _ => (exists stem old, has_extension infile old /\ infile = stem ++ old /\ g = stem ++ ext) \/
         ((forall old, ~ has_extension infile old) /\ g = infile ++ ext)
  end.
