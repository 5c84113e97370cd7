(** C79: a file read and written again. *)
From Coq Require Import String Ascii ZArith Bool Lia List.
From Verif Require Import Base.Str Base.Digits Base.Flt.
From Verif Require Import Model.Py Model.Records Model.Write Model.Read.
From Verif Require Import Spec.Fields Spec.Values Spec.Types Spec.Rocks Spec.Flac Spec.Simple Spec.Param Spec.Indom Spec.Outpu
  Spec.Labels Spec.Mesh Spec.Incon Spec.Gener Spec.File Spec.Again Spec.Rewrites.
From Verif Require Import Proofs.DictLemmas Proofs.FileProof Proofs.FileKeys Proofs.Samples Proofs.AgainFile Props.P22_File.
Import ListNotations.
Local Open Scope Z_scope.

(** C79.  The parameters read from a file written from well-formed, steady
    parameters can be written, and the second file is the first one, character
    for character. *)
Theorem C79_again : forall u p ll fuel, prepare u = Ok p -> FILE_ok p -> FILE_steady p = true ->
  label_choice ll -> FILE_known (label_given ll) p -> (List.length (titles_of p) < fuel)%nat ->
  exists t, write_text u ($"all") = Ok t /\ read_text fuel ll t = Ok (FILE_back p) /\ write_text (FILE_back p) ($"all") = Ok t.
Proof. exact FILE_twice. Qed.
Print Assumptions C79_again.
(** C79.  Reading and writing it any number of times never changes the file. *)
Theorem C79_stable : forall u p ll fuel, prepare u = Ok p -> FILE_ok p -> FILE_steady p = true ->
  label_choice ll -> FILE_known (label_given ll) p -> (List.length (titles_of p) < fuel)%nat ->
  exists t, write_text u ($"all") = Ok t /\ forall n, rewritten_times n fuel ll t = Ok t.
Proof. exact FILE_rewritten. Qed.
Print Assumptions C79_stable.

(** Two rocks, a default model, MULTI, time steps and times, two cells with full coordinates, NOVER. *)
Definition C79_text : str := match write_text C22_params ($"all") with Ok t => t | Err _ => [] end.
Example C79_case :
  prepare C22_params = Ok C22_full /\ FILE_ok C22_full /\ FILE_known None C22_full /\ FILE_steady C22_full = true /\
  List.length (lines C79_text) = 40%nat /\ rewritten_times 2 3 None C79_text = Ok C79_text.
Proof.
  destruct C22_example as (E & H & K & _). split; [exact E|]. split; [exact H|]. split; [exact K|].
  split; [vm_compute; reflexivity|]. split; vm_compute; reflexivity.
Qed.

(** A rock and time steps; what is written first and the second time. *)
Definition C79_base : dict :=
  [(#"title", text "base"); (#"rocks", PDict [(KS ($"SAND"), PDict [(#"density", num 2600 0)])]);
   (#"options", PDict [(#"t_max", num 1 8); (#"t_steps", num 1 0)])].
Definition C79_second (u : dict) : res str := let* t := write_text u ($"all") in rewritten (List.length t) None t.
Definition C79_changes (u : dict) : res (list str * list str) :=
  let* t := write_text u ($"all") in let* t' := C79_second u in Ok (only_in t t', only_in t' t).
Definition C79_line (s : string) : str := lit s ++ ["010"%char].

(** C79 fails: the parameters read cannot be written when there is a FLAC block,
    a SELEC block without floats or a generator with an empty type. *)
Theorem C79_error_refuted :
  let flac := C79_base ++ [(#"flac", PDict [(#"creep", PBool true); (#"porosity_model", PInt 1)])] in
  let selec := C79_base ++ [(#"selections", PDict [(#"integers", PDict [(KI 1, PInt 0); (KI 2, PInt 3)]); (#"floats", plist [])])] in
  let gener := C79_base ++ [(#"generators", PDict [(KS ($"AAA10"), PDict [(#"type", text "")])])] in
  (exists q, roundtrip flac = Ok q) /\ C79_second flac = Err TypeError /\
  (exists q, roundtrip selec = Ok q) /\ C79_second selec = Err KeyError /\
  (exists q, roundtrip gener = Ok q) /\ C79_second gener = Err TypeError.
Proof.
  cbv zeta. split; [eexists; vm_compute; reflexivity|]. split; [vm_compute; reflexivity|]. split; [eexists; vm_compute; reflexivity|].
  split; [vm_compute; reflexivity|]. split; [eexists; vm_compute; reflexivity|]. vm_compute. reflexivity.
Qed.
Print Assumptions C79_error_refuted.
(** C79 fails: a file without START gains it, a file without title gains a line,
    the number of components with mass of MULTI goes, so does a MOMOP block of
    blank options, and a run without time steps gets another record. *)
Theorem C79_blocks_refuted :
  C79_changes (C79_base ++ [(#"start", PBool false)]) = Ok ([],
    [C79_line "START----1----*----2----*----3----*----4----*----5----*----6----*----7----*----8";
     C79_line "----*----1-MOP: 123456789*123456789*1234----*----5----*----6----*----7----*----8"]) /\
  (exists t t', write_text (dset #"title" (plist []) C79_base) ($"all") = Ok t /\ C79_second (dset #"title" (plist []) C79_base) = Ok t' /\
     List.length (lines t) = 13%nat /\ List.length (lines t') = 14%nat) /\
  C79_changes (C79_base ++ [(#"eos", text "eco2n"); (#"n_component_mass", PInt 2)]) = Ok (
    [C79_line "    3    4    3    6    2                                                       "],
    [C79_line "    3    4    3    6                                                            "]) /\
  C79_changes (C79_base ++ [(#"more_options", PDict [(KI 2, PNone)])]) = Ok (
    [C79_line "MOMOP----1----*----2----*----3----*----4----*----5----*----6----*----7----*----8"], []) /\
  C79_changes (dset #"options" (PDict []) C79_base) = Ok (
    [C79_line "                          -1.0                                                  "],
    [C79_line "                           0.0                                                  "]).
Proof.
  split; [vm_compute; reflexivity|]. split.
  { do 2 eexists. split; [vm_compute; reflexivity|]. split; [vm_compute; reflexivity|]. split; vm_compute; reflexivity. }
  split; [vm_compute; reflexivity|]. split; vm_compute; reflexivity.
Qed.
Print Assumptions C79_blocks_refuted.
(** C79 fails: with full coordinates the centre in ELEME is rounded twice, and a
    model without id loses its parameters. *)
Theorem C79_values_refuted :
  C79_changes (C79_base ++ [(#"elements", PDict [(KS ($"AAA10"), PDict [(#"material", text "SAND"); (#"volume", num 25 0);
      (#"center", plist [num 1687499999999996 (-15); num (-25) (-1); num 123456789 0])])]); (#"coordinates", PBool true)]) = Ok (
    [C79_line "AAA10          SAND 2.5000e+01                     1.687e+00-2.500e+00 1.235e+08"],
    [C79_line "AAA10          SAND 2.5000e+01                     1.688e+00-2.500e+00 1.235e+08"]) /\
  C79_changes (dset #"rocks" (PDict [(KS ($"SAND"), PDict [(#"relative_permeability",
      PDict [(#"id", PNone); (#"parameters", plist [num 1 0])])])]) C79_base) = Ok (
    [C79_line "SAND     2                                                                      ";
     C79_line "           1.000e+00                                                            "],
    [C79_line "SAND                                                                            "]).
Proof. split; vm_compute; reflexivity. Qed.
Print Assumptions C79_values_refuted.
