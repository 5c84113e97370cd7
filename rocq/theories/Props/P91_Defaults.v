(** C91: entries with their default values may be left out. *)
From Coq Require Import String Ascii ZArith Bool Lia List.
From Verif Require Import Base.Str Base.Digits Base.Flt.
From Verif Require Import Model.Py Model.Records Model.Write.
From Verif Require Import Proofs.DictLemmas Proofs.DefaultsProof Spec.Defaults.
Import ListNotations.
Local Open Scope Z_scope.

(** C91.  Entries of the parameters that have their default values may be left out: the same file is written or the same exception raised. *)
Theorem C91_top : forall u u' blk, NoDup (dkeys u') -> padded parameters_defaults u u' -> write_text u blk = write_text u' blk.
Proof. exact top_same. Qed.
Print Assumptions C91_top.

(** C91.  So may those of options, extra_options, more_options, solver, flac, output, the integers of selections, and of each generator, element,
    connection and initial condition; more_options, solver and output must not be left empty. *)
Theorem C91_inside : forall u u' blk, all_spelled u u' -> write_text u blk = write_text u' blk.
Proof. exact spelled_same. Qed.
Print Assumptions C91_inside.

Definition C91_num (m e : Z) : pyval := PFloat (flt_of_dec false m e).
Definition C91_center : key * pyval := (#"center", PSeq SList [C91_num 1 0; C91_num 2 0; C91_num 3 0]).
Definition C91_short : dict :=
  [(#"title", PStr ($"Sample")); (#"rocks", PDict [(#"SAND", PDict [])]); (#"options", PDict [(#"n_cycle", PInt 100)]); (#"extra_options", PDict [(KI 16, PInt 4)]);
   (#"solver", PDict [(#"method", PInt 5)]); (#"selections", PDict [(#"integers", PDict [(KI 2, PInt 3)]); (#"floats", PSeq SList [C91_num 1 0])]);
   (#"generators", PDict [(#"AAA 1", PDict [(#"type", PStr ($"HEAT")); (#"rates", C91_num 5 0)])]);
   (#"elements", PDict [(#"AAA 1", PDict [C91_center; (#"volume", C91_num 1 3)])]); (#"initial_conditions", PDict [(#"AAA 1", PDict [(#"values", PSeq SList [C91_num 1 5])])])].
Definition C91_long : dict :=
  [(#"title", PStr ($"Sample")); (#"rocks", PDict [(#"SAND", PDict [])]); (#"options", PDict [(#"eps1", PNone); (#"n_cycle", PInt 100); (#"t_steps", PNone)]); (#"extra_options", PDict [(KI 1, PNone); (KI 16, PInt 4); (KI 24, PNone)]);
   (#"solver", PDict [(#"method", PInt 5); (#"o_precond", PStr ($"O0")); (#"eps", C91_num 1 (-6))]); (#"selections", PDict [(#"integers", PDict [(KI 2, PInt 3); (KI 7, PNone)]); (#"floats", PSeq SList [C91_num 1 0])]);
   (#"generators", PDict [(#"AAA 1", PDict [(#"type", PStr ($"HEAT")); (#"times", PNone); (#"rates", C91_num 5 0)])]);
   (#"elements", PDict [(#"AAA 1", PDict [C91_center; (#"volume", C91_num 1 3); (#"material", PStr [])])]);
   (#"initial_conditions", PDict [(#"AAA 1", PDict [(#"values", PSeq SList [C91_num 1 5]); (#"userx", PSeq SList (repeat PNone 5))])])].
Definition C91_longest : dict := C91_long ++ [(#"start", PBool true); (#"times", PNone); (#"eos", PStr []); (#"connections", PDict [])].
Example C91_example : all_spelled C91_short C91_long /\ NoDup (dkeys C91_longest) /\ padded parameters_defaults C91_long C91_longest /\
  C91_short <> C91_long /\ match write_text C91_short ($"all") with Ok t => Nat.ltb 1500 (List.length t) | Err _ => false end = true /\
  write_text C91_short ($"all") = write_text C91_longest ($"all").
Proof.
  assert (U : forall d, no_dup_keys (dkeys d) = true -> NoDup (dkeys d)) by (intros d; apply no_dup_keys_ok).
  assert (L : forall t d d', no_dup_keys (dkeys d') = true -> padded t d d' -> longer t (PDict d) (PDict d')) by (intros t d d' N P; right; exists d, d'; auto).
  assert (R : forall t k d d', longer t (PDict d) (PDict d') -> rows_of (fun _ => longer t) (PDict [(k, PDict d)]) (PDict [(k, PDict d')])).
  { intros t k d d' H. right. do 2 eexists. split; [reflexivity|]. split; [reflexivity|]. constructor; [split; [reflexivity|exact H]|constructor]. }
  split; [|split; [apply U; vm_compute; reflexivity|split; [|split; [discriminate|split; vm_compute; reflexivity]]]].
  - unfold C91_short, C91_long. apply Forall2_cons; [split; reflexivity|]. apply Forall2_cons; [split; reflexivity|].
    apply Forall2_cons; [split; [reflexivity|]; split; [apply L; [reflexivity|]; apply padded_more; [reflexivity|]; apply padded_same; apply padded_more; [reflexivity|]; apply padded_nil|discriminate]|].
    apply Forall2_cons; [split; [reflexivity|]; split; [apply L; [reflexivity|]; apply padded_more; [reflexivity|]; apply padded_same; apply padded_more; [reflexivity|]; apply padded_nil|discriminate]|].
    apply Forall2_cons; [split; [reflexivity|]; split; [apply L; [reflexivity|]; apply padded_same; apply padded_more; [reflexivity|]; apply padded_more; [reflexivity|]; apply padded_nil|discriminate]|].
    apply Forall2_cons; [split; [reflexivity|]; right; do 2 eexists; split; [reflexivity|]; split; [reflexivity|]; apply Forall2_cons; [split; [reflexivity|]; apply L; [reflexivity|]; apply padded_same; apply padded_more; [reflexivity|]; apply padded_nil|apply Forall2_cons; [split; reflexivity|apply Forall2_nil]]|].
    apply Forall2_cons; [split; [reflexivity|]; apply R, L; [reflexivity|]; apply padded_same; apply padded_more; [reflexivity|]; apply padded_same; apply padded_nil|].
    apply Forall2_cons; [split; [reflexivity|]; apply R, L; [reflexivity|]; apply padded_same; apply padded_same; apply padded_more; [reflexivity|]; apply padded_nil|].
    apply Forall2_cons; [split; [reflexivity|]; apply R, L; [reflexivity|]; apply padded_same; apply padded_more; [reflexivity|]; apply padded_nil|]. apply Forall2_nil.
  - unfold C91_longest, C91_long. cbn [app]. do 9 apply padded_same. do 4 (apply padded_more; [reflexivity|]). apply padded_nil.
Qed.

(** C91.  Findings: default values alone in more_options and in output add a block; alone in solver they stop the writer with KeyError (the default of
    method is stored under another name, and method is not optional); None is not the same as absent for the entries that are dictionaries. *)
Theorem C91_refuted :
  let file := fun l => write_text [(#"title", PStr ($"Sample")); l] ($"all") in
  (exists t t', file (#"more_options", PDict []) = Ok t /\ file (#"more_options", PDict [(KI 1, PNone)]) = Ok t' /\ t <> t') /\
  (exists t t', file (#"output", PDict []) = Ok t /\ file (#"output", PDict [(#"format", PNone)]) = Ok t' /\ t <> t') /\
  (exists t, file (#"solver", PDict []) = Ok t) /\ file (#"solver", PDict [(#"z_precond", PStr ($"Z0"))]) = Err KeyError /\
  file (#"options", PNone) = Err AttributeError /\ file (#"rocks", PNone) = Err AttributeError.
Proof.
  cbv zeta. split; [|split; [|split; [|split; [|split]]]].
  - do 2 eexists. split; [vm_compute; reflexivity|]. split; [vm_compute; reflexivity|]. discriminate.
  - do 2 eexists. split; [vm_compute; reflexivity|]. split; [vm_compute; reflexivity|]. discriminate.
  - eexists. vm_compute. reflexivity.
  - vm_compute. reflexivity.
  - vm_compute. reflexivity.
  - vm_compute. reflexivity.
Qed.
Print Assumptions C91_refuted.
