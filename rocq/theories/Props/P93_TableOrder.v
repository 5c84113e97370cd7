(** C93: the order of the records of a table does not matter when the order of writing is given. *)
From Coq Require Import String Ascii ZArith Bool Lia Permutation List.
From Verif Require Import Base.Str Base.Digits Base.Flt.
From Verif Require Import Model.Py Model.Records Model.Write.
From Verif Require Import Proofs.DictLemmas Proofs.TableOrderProof Spec.TableOrder.
Import ListNotations.
Local Open Scope Z_scope.

(** C93.  With elements_order (connections_order, initial_conditions_order) given, the elements (connections, initial conditions) may be listed in any order in
    their dictionary: the same file is written, and one is written in the one case if and only if it is in the other. *)
Theorem C93_order : forall u u' blk t, NoDup (dkeys u) -> all_reordered u u' -> (write_text u blk = Ok t <-> write_text u' blk = Ok t).
Proof. exact reordered_same. Qed.
Print Assumptions C93_order.

Definition C93_num (m e : Z) : pyval := PFloat (flt_of_dec false m e).
Definition C93_names (l : list str) : pyval := PSeq SList (map PStr l).
Definition C93_elem (k : key) (v : Z) : key * pyval := (k, PDict [(#"center", PSeq SList [C93_num 1 0; C93_num 2 0; C93_num v 0]); (#"volume", C93_num v 3); (#"material", PStr ($"SAND"))]).
Definition C93_conn (k : key) (a : Z) : key * pyval :=
  (k, PDict [(#"permeability_direction", PInt 3); (#"nodal_distances", PSeq SList [C93_num 5 (-1); C93_num 5 (-1)]); (#"interface_area", C93_num a 0); (#"gravity_cosine_angle", C93_num 1 0)]).
Definition C93_cond (k : key) (a : Z) : key * pyval := (k, PDict [(#"values", PSeq SList [C93_num a 5])]).
Definition C93_with (e c i : dict) : dict :=
  [(#"title", PStr ($"Sample")); (#"coordinates", PBool true); (#"elements", PDict e); (#"elements_order", C93_names [$"AAA 3"; $"AAA 1"; $"AAA 2"]);
   (#"connections", PDict c); (#"connections_order", C93_names [$"AAA 2AAA 3"; $"AAA 1AAA 2"]); (#"initial_conditions", PDict i); (#"initial_conditions_order", C93_names [$"AAA 2"; $"AAA 1"])].
Definition C93_first : dict :=
  C93_with [C93_elem #"AAA 1" 1; C93_elem #"AAA 2" 2; C93_elem #"AAA 3" 3] [C93_conn #"AAA 1AAA 2" 1; C93_conn #"AAA 2AAA 3" 2] [C93_cond #"AAA 1" 1; C93_cond #"AAA 2" 2].
Definition C93_second : dict :=
  C93_with [C93_elem #"AAA 1" 1; C93_elem #"AAA 3" 3; C93_elem #"AAA 2" 2] [C93_conn #"AAA 2AAA 3" 2; C93_conn #"AAA 1AAA 2" 1] [C93_cond #"AAA 2" 2; C93_cond #"AAA 1" 1].
Example C93_example : NoDup (dkeys C93_first) /\ all_reordered C93_first C93_second /\ C93_first <> C93_second /\
  match write_text C93_first ($"all") with Ok t => Nat.ltb 1000 (List.length t) | Err _ => false end = true /\ write_text C93_first ($"all") = write_text C93_second ($"all").
Proof.
  assert (U : forall d, no_dup_keys (dkeys d) = true -> NoDup (dkeys d)) by (intros d; apply no_dup_keys_ok).
  split; [apply U; vm_compute; reflexivity|]. split; [|split; [discriminate|split; vm_compute; reflexivity]].
  unfold all_reordered. set (z := C93_first) at 1. unfold C93_first, C93_second, C93_with.
  assert (R : forall o x k d d', order_name k = Some o -> dget o z = Some x -> x <> PNone -> no_dup_keys (dkeys d) = true -> Permutation d d' -> reordered z k (PDict d) (PDict d')).
  { intros o x k d d' A B C D E. right. exists o, x, d, d'. auto 8. }
  apply Forall2_cons; [split; [reflexivity|now left]|]. apply Forall2_cons; [split; [reflexivity|now left]|].
  apply Forall2_cons; [split; [reflexivity|]; eapply R; [reflexivity|reflexivity|discriminate|reflexivity|apply perm_skip, perm_swap]|]. apply Forall2_cons; [split; [reflexivity|now left]|].
  apply Forall2_cons; [split; [reflexivity|]; eapply R; [reflexivity|reflexivity|discriminate|reflexivity|apply perm_swap]|]. apply Forall2_cons; [split; [reflexivity|now left]|].
  apply Forall2_cons; [split; [reflexivity|]; eapply R; [reflexivity|reflexivity|discriminate|reflexivity|apply perm_swap]|]. apply Forall2_cons; [split; [reflexivity|now left]|apply Forall2_nil].
Qed.

(** C93.  Findings: without elements_order the order is that of the dictionary; an element left out of elements_order is left out of the file, though its
    connections are written; when several elements are wrong, the exception depends on which comes first in the dictionary. *)
Theorem C93_refuted :
  let file := fun e o => write_text [(#"title", PStr ($"Sample")); (#"elements", PDict e); (#"elements_order", o); (#"connections", PDict [C93_conn #"AAA 1AAA 2" 1])] ($"mesh") in
  let one := C93_elem #"AAA 1" 1 in let two := C93_elem #"AAA 2" 2 in
  let bad := (#"AAA 3", PInt 3) in let worse := (#"AAA 4", PDict [(#"volume", PStr ($"x"))]) in
  let both := C93_names [$"AAA 1"; $"AAA 2"] in
  (exists t t', file [one; two] PNone = Ok t /\ file [two; one] PNone = Ok t' /\ t <> t') /\
  (exists t t', file [one; two] (C93_names [$"AAA 1"]) = Ok t /\ file [one] (C93_names [$"AAA 1"]) = Ok t' /\ t = t') /\
  (exists e e', file [one; two; bad; worse] both = Err e /\ file [one; two; worse; bad] both = Err e' /\ e <> e').
Proof.
  cbv zeta. split; [|split]; do 2 eexists; (split; [vm_compute; reflexivity|]; split; [vm_compute; reflexivity|]; first [discriminate|reflexivity]).
Qed.
Print Assumptions C93_refuted.
