(** C23: writing only some blocks. *)
From Coq Require Import String Ascii ZArith Bool Lia List.
From Verif Require Import Base.Str Base.Digits Base.Flt.
From Verif Require Import Model.Py Model.Records Model.Write Model.Read.
From Verif Require Import Spec.Fields Spec.Values Spec.Labels Spec.Mesh Spec.Incon Spec.Gener Spec.File.
From Verif Require Import Proofs.DictLemmas Proofs.BlockTools Proofs.FileProof Proofs.SelectProof Proofs.Ending Proofs.Samples.
Import ListNotations.
Local Open Scope Z_scope.

(** C23.  Whatever the parameters, what a selection writes is the same part of
    the whole file; the parts follow each other and ENDCY closes the file. *)
Theorem C23_parts : forall u t, write_text u ($"all") = Ok t ->
  exists a g b m i c, t = a ++ g ++ b ++ m ++ i ++ c ++ head_noend ($"ENDCY") /\
    write_text u ($"gener") = Ok g /\ write_text u ($"mesh") = Ok m /\ write_text u ($"incon") = Ok i.
Proof. exact selection_parts. Qed.
Print Assumptions C23_parts.

(** C23.  There is no other selection. *)
Theorem C23_unknown : forall u s, ~ In s [$"all"; $"gener"; $"mesh"; $"incon"] -> write_text u s = Err ValueError.
Proof. exact selection_unknown. Qed.
Print Assumptions C23_unknown.

(** C23.  The generators alone are read back, and nothing else. *)
Theorem C23_gener : forall u p ll, prepare u = Ok p -> FILE_ok p ->
  label_choice ll -> FILE_known (label_given ll) p -> filled (val #"generators" p) = true ->
  exists t, write_text u ($"gener") = Ok t /\ forall fuel, read_text fuel ll t = Ok (GENER_back p).
Proof. exact gener_selected. Qed.
Print Assumptions C23_gener.

(** C23.  The mesh alone is read back, and nothing else. *)
Theorem C23_mesh : forall u p ll, prepare u = Ok p -> FILE_ok p ->
  label_choice ll -> FILE_known (label_given ll) p -> filled (val #"elements" p) = true ->
  exists t, write_text u ($"mesh") = Ok t /\ forall fuel, read_text fuel ll t = Ok (MESH_back p).
Proof. exact mesh_selected. Qed.
Print Assumptions C23_mesh.

(** C23.  The initial conditions alone are read back, and nothing else. *)
Theorem C23_incon : forall u p ll, prepare u = Ok p -> FILE_ok p ->
  label_choice ll -> FILE_known (label_given ll) p -> filled (val #"initial_conditions" p) = true ->
  exists t, write_text u ($"incon") = Ok t /\ forall fuel, read_text fuel ll t = Ok (INCON_back p).
Proof. exact incon_selected. Qed.
Print Assumptions C23_incon.

Definition C23_params : dict :=
  [(#"rocks", PDict [(KS ($"SAND"), PDict [])]);
   (#"elements", PDict [(KS ($"AAA10"), PDict [(#"material", text "SAND"); (#"volume", num 25 0); (#"center", plist [num 1 0; num 2 0; num 3 0])])]);
   (#"initial_conditions", PDict [(KS ($"AAA10"), PDict [(#"values", plist [num 1 5])])]);
   (#"generators", PDict [(KS ($"AAA10"), PDict [(#"type", text "COM1"); (#"rates", num 1 0)])])].
Example C23_example :
  let back := fun s => let* t := write_text C23_params s in let* q := read_text 0 None t in Ok (dkeys q) in
  back ($"gener") = Ok [#"generators"] /\
  back ($"mesh") = Ok [#"elements"; #"elements_order"; #"coordinates"] /\
  back ($"incon") = Ok [#"initial_conditions"; #"initial_conditions_order"].
Proof. cbv zeta; parts; byc. Qed.

(** C23.  Finding: the file written for a selection without content is empty,
    and reading it never ends. *)
Theorem C23_refuted :
  let u := [(#"rocks", PDict [(KS ($"SAND"), PDict [])])] in
  write_text u ($"mesh") = Ok [] /\ write_text u ($"gener") = Ok [] /\ write_text u ($"incon") = Ok [] /\
  forall fuel, read_text fuel None [] = Err Diverge.
Proof. cbv zeta; parts; try byc. apply (proj2 (read_ends [] None eq_refl)). byc. Qed.
Print Assumptions C23_refuted.
