(** C89: entries of the parameters with unknown names. *)
From Coq Require Import String Ascii ZArith Bool Lia List.
From Verif Require Import Base.Str Base.Digits Base.Flt.
From Verif Require Import Model.Py Model.Records Model.Write.
From Verif Require Import Proofs.DictLemmas Proofs.KnownProof Proofs.DictOrderProof Spec.DictOrder Spec.Known.
From Verif Require Import Props.P88_DictOrder.
Import ListNotations.
Local Open Scope Z_scope.

(** C89.  Parameters that differ by entries with unknown names only, with any values, at any place (the parameters, options,
    solver, flac, default, selections, output, each rock, generator, element, connection and initial condition, and their models)
    are written as the same file, or raise the same exception; a dictionary that is written when it is not empty
    (solver, selections, output) must not have unknown entries only, and those with numbers for keys must not have any. *)
Theorem C89_unknown : forall u u' blk, entries_known parameter_known u u' -> write_text u blk = write_text u' blk.
Proof. exact text_same. Qed.
Print Assumptions C89_unknown.

(** C89.  Among them: one more entry with an unknown name in the parameters. *)
Theorem C89_one_more : forall u k v blk, entries_known parameter_known u u -> known k = false ->
  write_text (dset k v u) blk = write_text u blk.
Proof. exact one_more. Qed.
Print Assumptions C89_one_more.

Definition C89_rock : dict := (#"permeabilty", C88_num 2 (-12)) :: C88_rock ++ [(KI 3, PNone)].
Definition C89_default : dict := [(#"porosity", C88_num 1 (-1)); (#"colour", PStr ($"red")); (#"initial_condition", PSeq SList [C88_num 2 5; C88_num 20 0]);
  (#"capillarity", PDict (C88_model 7 ++ [(#"note", PStr ($"fitted"))]))].
Definition C89_params : dict :=
  [(#"author", PStr ($"me")); (#"title", PStr ($"Sample")); (#"rocks", PDict [(#"SAND", PDict C89_rock); (#"CLAY", PDict [(#"grain", PInt 1)])]); (#"default", PDict C89_default);
   (#"options", PDict (C88_options ++ [(#"t_maximum", C88_num 1 9)])); (#"extra_options", PDict C88_extra);
   (#"selections", PDict [(#"integers", PDict C88_integers); (#"doubles", PNone); (#"floats", PSeq SList [C88_num 1 0; C88_num 2 0])]);
   (#"start", PBool true)].
Example C89_example : entries_known parameter_known C88_params C89_params /\ C88_params <> C89_params /\
  match write_text C89_params ($"all") with Ok t => Nat.ltb 800 (List.length t) | Err _ => false end = true /\
  write_text C88_params ($"all") = write_text C89_params ($"all").
Proof.
  assert (M : forall z l, l = [] \/ l = [(#"note", PStr ($"fitted"))] -> known_in (fun _ => eq) (PDict (C88_model z)) (PDict (C88_model z ++ l))).
  { intros z l [-> | ->]; (apply known_intro; [reflexivity|reflexivity| |reflexivity]); unfold C88_model; repeat (apply Forall_cons; [intros _; reflexivity|]); apply Forall_nil. }
  split; [|split; [discriminate|split; vm_compute; reflexivity]].
  apply known_intro; [reflexivity|reflexivity| |reflexivity]. unfold C88_params.
  apply Forall_cons; [intros _; reflexivity|]. apply Forall_cons.
  { intros _. cbn. apply Forall2_cons; [split; [reflexivity|]|apply Forall2_cons; [split; [reflexivity|]|apply Forall2_nil]].
    - apply known_intro; [reflexivity|reflexivity| |reflexivity]. unfold C88_rock. apply Forall_cons; [intros _; reflexivity|]. apply Forall_cons; [intros _; reflexivity|].
      apply Forall_cons; [intros _; exact (M 3 [] (or_introl eq_refl))|]. apply Forall_cons; [intros _; reflexivity|]. apply Forall_nil.
    - apply known_intro; [reflexivity|reflexivity|apply Forall_nil|reflexivity]. }
  apply Forall_cons.
  { intros _. apply known_intro; [reflexivity|reflexivity| |reflexivity]. unfold C88_default. apply Forall_cons; [intros _; reflexivity|]. apply Forall_cons; [intros _; reflexivity|].
    apply Forall_cons; [intros _; exact (M 7 _ (or_intror eq_refl))|]. apply Forall_nil. }
  apply Forall_cons; [intros _; apply known_intro; [reflexivity|reflexivity| |reflexivity]; unfold C88_options; repeat (apply Forall_cons; [intros _; reflexivity|]); apply Forall_nil|].
  apply Forall_cons; [intros _; apply alike_intro; [reflexivity|reflexivity| |reflexivity]; unfold C88_extra; repeat (apply Forall_cons; [reflexivity|]); apply Forall_nil|].
  apply Forall_cons.
  { intros _. split; [|split; discriminate]. apply known_intro; [reflexivity|reflexivity| |reflexivity]. apply Forall_cons; [|apply Forall_cons; [intros _; reflexivity|apply Forall_nil]].
    intros _. apply alike_intro; [reflexivity|reflexivity| |reflexivity]. unfold C88_integers. repeat (apply Forall_cons; [reflexivity|]). apply Forall_nil. }
  apply Forall_cons; [intros _; reflexivity|]. apply Forall_nil.
Qed.

(** C89.  Findings: an entry with an unknown name alone in output adds an OUTPU block without records, alone in selections or in solver it stops
    the writer with KeyError, and next to the numbered entries of extra_options with TypeError. *)
Theorem C89_refuted :
  let unknown := (#"colour", PInt 1) in let file := fun l => write_text [(#"rocks", PDict [(#"SAND", PDict C88_rock)]); l] ($"all") in
  (exists t t', file (#"output", PDict []) = Ok t /\ file (#"output", PDict [unknown]) = Ok t' /\ t <> t') /\
  (exists t, file (#"selections", PDict []) = Ok t) /\ file (#"selections", PDict [unknown]) = Err KeyError /\
  (exists t, file (#"solver", PDict []) = Ok t) /\ file (#"solver", PDict [unknown]) = Err KeyError /\
  (exists t, file (#"extra_options", PDict C88_extra) = Ok t) /\ file (#"extra_options", PDict (C88_extra ++ [unknown])) = Err TypeError.
Proof.
  cbv zeta. split; [|split; [|split; [|split; [|split; [|split]]]]].
  - eexists. eexists. split; [vm_compute; reflexivity|]. split; [vm_compute; reflexivity|]. discriminate.
  - eexists. vm_compute. reflexivity.
  - vm_compute. reflexivity.
  - eexists. vm_compute. reflexivity.
  - vm_compute. reflexivity.
  - eexists. vm_compute. reflexivity.
  - vm_compute. reflexivity.
Qed.
Print Assumptions C89_refuted.
