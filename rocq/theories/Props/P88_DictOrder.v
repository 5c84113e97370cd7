(** C88: the order in which the entries of the parameters were given. *)
From Coq Require Import String Ascii ZArith Bool Lia List.
From Verif Require Import Base.Str Base.Digits Base.Flt.
From Verif Require Import Model.Py Model.Records Model.Write.
From Verif Require Import Proofs.DictLemmas Proofs.DictOrderProof Spec.DictOrder.
Import ListNotations.
Local Open Scope Z_scope.

(** C88.  The entries of the parameters, of options, extra_options, more_options, selections and its
    integers, solver, flac, default and output, of each rock, generator, element, connection and initial
    condition, and of the models of a rock or of default, may be given in any order: the written file,
    or the exception raised instead, is the same. *)
Theorem C88_any_order : forall u u' blk, entries_alike parameter u u' -> write_text u blk = write_text u' blk.
Proof. exact any_order. Qed.
Print Assumptions C88_any_order.

Definition C88_num (m e : Z) : pyval := PFloat (flt_of_dec false m e).
Definition C88_model (z : Z) : list (key * pyval) := [(#"id", PInt z); (#"parameters", PSeq SList [C88_num 3 (-1); C88_num 5 (-2)])].
Definition C88_rock : dict := [(#"density", C88_num 26 2); (#"permeability", C88_num 1 (-13)); (#"relative_permeability", PDict (C88_model 3)); (#"initial_condition", PSeq SList [C88_num 1 5])].
Definition C88_rock' : dict := [(#"initial_condition", PSeq SList [C88_num 1 5]); (#"relative_permeability", PDict (rev (C88_model 3))); (#"permeability", C88_num 1 (-13)); (#"density", C88_num 26 2)].
Definition C88_default : dict := [(#"porosity", C88_num 1 (-1)); (#"initial_condition", PSeq SList [C88_num 2 5; C88_num 20 0]); (#"capillarity", PDict (C88_model 7))].
Definition C88_default' : dict := [(#"capillarity", PDict (rev (C88_model 7))); (#"initial_condition", PSeq SList [C88_num 2 5; C88_num 20 0]); (#"porosity", C88_num 1 (-1))].
Definition C88_options : dict := [(#"n_cycle", PInt 50); (#"t_max", C88_num 1 6); (#"eps1", C88_num 1 (-5))].
Definition C88_extra : dict := [(KI 16, PInt 4); (KI 1, PInt 1); (KI 11, PInt 2)].
Definition C88_integers : dict := [(KI 2, PInt 3); (KI 16, PInt 5)].
Definition C88_params : dict :=
  [(#"title", PStr ($"Sample")); (#"rocks", PDict [(#"SAND", PDict C88_rock); (#"CLAY", PDict [])]); (#"default", PDict C88_default);
   (#"options", PDict C88_options); (#"extra_options", PDict C88_extra);
   (#"selections", PDict [(#"integers", PDict C88_integers); (#"floats", PSeq SList [C88_num 1 0; C88_num 2 0])]);
   (#"start", PBool true)].
Definition C88_params' : dict :=
  [(#"start", PBool true); (#"extra_options", PDict (rev C88_extra)); (#"options", PDict (rev C88_options));
   (#"selections", PDict [(#"floats", PSeq SList [C88_num 1 0; C88_num 2 0]); (#"integers", PDict (rev C88_integers))]);
   (#"default", PDict C88_default'); (#"rocks", PDict [(#"SAND", PDict C88_rock'); (#"CLAY", PDict [])]); (#"title", PStr ($"Sample"))].
Example C88_example : entries_alike parameter C88_params C88_params' /\
  map fst C88_params <> map fst C88_params' /\
  match write_text C88_params ($"all") with Ok t => Nat.ltb 800 (List.length t) | Err _ => false end = true /\
  match write_text C88_params' ($"all") with Ok t => Nat.ltb 800 (List.length t) | Err _ => false end = true.
Proof.
  assert (M : forall z, mixed (fun _ => eq) (PDict (C88_model z)) (PDict (rev (C88_model z)))).
  { intros z. apply alike_intro; [reflexivity|reflexivity| |reflexivity]. unfold C88_model. repeat (apply Forall_cons; [reflexivity|]). apply Forall_nil. }
  split; [|split; [discriminate|split; vm_compute; reflexivity]].
  apply alike_intro; [reflexivity|reflexivity| |reflexivity]. unfold C88_params.
  apply Forall_cons; [reflexivity|]. apply Forall_cons.
  { cbn. apply Forall2_cons; [split; [reflexivity|]|apply Forall2_cons; [split; [reflexivity|]|apply Forall2_nil]].
    - apply alike_intro; [reflexivity|reflexivity| |reflexivity]. unfold C88_rock. apply Forall_cons; [reflexivity|]. apply Forall_cons; [reflexivity|]. apply Forall_cons; [exact (M 3)|].
      apply Forall_cons; [reflexivity|]. apply Forall_nil.
    - apply alike_intro; [reflexivity|reflexivity|apply Forall_nil|reflexivity]. }
  apply Forall_cons.
  { apply alike_intro; [reflexivity|reflexivity| |reflexivity]. unfold C88_default. apply Forall_cons; [reflexivity|]. apply Forall_cons; [reflexivity|]. apply Forall_cons; [exact (M 7)|]. apply Forall_nil. }
  apply Forall_cons; [apply alike_intro; [reflexivity|reflexivity| |reflexivity]; unfold C88_options; repeat (apply Forall_cons; [reflexivity|]); apply Forall_nil|].
  apply Forall_cons; [apply alike_intro; [reflexivity|reflexivity| |reflexivity]; unfold C88_extra; repeat (apply Forall_cons; [reflexivity|]); apply Forall_nil|].
  apply Forall_cons.
  { apply alike_intro; [reflexivity|reflexivity| |reflexivity]. apply Forall_cons; [|apply Forall_cons; [reflexivity|apply Forall_nil]].
    apply alike_intro; [reflexivity|reflexivity| |reflexivity]. unfold C88_integers. repeat (apply Forall_cons; [reflexivity|]). apply Forall_nil. }
  apply Forall_cons; [reflexivity|]. apply Forall_nil.
Qed.

(** C88.  Findings: parameters that Python finds equal can give different files.  The records of rocks
    come in the order of the dictionary, and so do the variables of output. *)
Definition C88_two (a b : key * pyval) : dict := [(#"rocks", PDict [a; b])].
Definition C88_vars (a b : key * pyval) : dict := [(#"output", PDict [(#"variables", PDict [a; b])])].
Theorem C88_refuted :
  let sand := (#"SAND", PDict C88_rock) in let clay := (#"CLAY", PDict []) in
  let one := (#"pressure", PNone) in let two := (#"temperature", PNone) in
  (exists t t', write_text (C88_two sand clay) ($"all") = Ok t /\ write_text (C88_two clay sand) ($"all") = Ok t' /\ t <> t') /\
  (exists t t', write_text (C88_vars one two) ($"all") = Ok t /\ write_text (C88_vars two one) ($"all") = Ok t' /\ t <> t').
Proof.
  cbv zeta. split.
  - eexists. eexists. split; [vm_compute; reflexivity|]. split; [vm_compute; reflexivity|]. discriminate.
  - eexists. eexists. split; [vm_compute; reflexivity|]. split; [vm_compute; reflexivity|]. discriminate.
Qed.
Print Assumptions C88_refuted.
