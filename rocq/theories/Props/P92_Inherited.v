(** C92: values that a rock inherits may be left out of it. *)
From Coq Require Import String Ascii ZArith Bool Lia List.
From Verif Require Import Base.Str Base.Digits Base.Flt.
From Verif Require Import Model.Py Model.Records Model.Write.
From Verif Require Import Proofs.DictLemmas Proofs.InheritedProof Spec.Defaults Spec.Inherited.
Import ListNotations.
Local Open Scope Z_scope.

(** C92.  A rock may repeat values it inherits from default, and default the default values of the properties: the same file is written or the same exception
    raised as without them. *)
Theorem C92_inherited : forall u u' blk, once (PDict u) -> once (PDict u') -> all_respelled u u' -> write_text u blk = write_text u' blk.
Proof. exact inherited_same. Qed.
Print Assumptions C92_inherited.

Definition C92_num (m e : Z) : pyval := PFloat (flt_of_dec false m e).
Definition C92_short : dict :=
  [(#"title", PStr ($"Sample")); (#"flac", PDict [(#"creep", PBool false)]); (#"default", PDict [(#"density", C92_num 2600 0); (#"conductivity_dry", C92_num 2 0); (#"relative_permeability", no_model (PInt 1))]);
   (#"rocks", PDict [(#"SAND", PDict [(#"porosity", C92_num 3 (-1))]); (#"CLAY", PDict [(#"density", C92_num 2500 0)])])].
Definition C92_long : dict :=
  [(#"title", PStr ($"Sample")); (#"flac", PDict [(#"creep", PBool false)]);
   (#"default", PDict [(#"density", C92_num 2600 0); (#"conductivity_dry", C92_num 2 0); (#"relative_permeability", no_model (PInt 1)); (#"tortuosity", PNone); (#"capillarity", no_model PNone)]);
   (#"rocks", PDict [(#"SAND", PDict [(#"density", C92_num 2600 0); (#"porosity", C92_num 3 (-1)); (#"permeability_model", no_model (PInt 1))]);
                     (#"CLAY", PDict [(#"tortuosity", PNone); (#"density", C92_num 2500 0); (#"conductivity_dry", C92_num 2 0)])])].
Example C92_example : once (PDict C92_short) /\ once (PDict C92_long) /\ all_respelled C92_short C92_long /\ C92_short <> C92_long /\
  match write_text C92_short ($"all") with Ok t => Nat.ltb 1000 (List.length t) | Err _ => false end = true /\ write_text C92_short ($"all") = write_text C92_long ($"all").
Proof.
  assert (U : forall d, no_dup_keys (dkeys d) = true -> NoDup (dkeys d)) by (intros d; apply no_dup_keys_ok).
  assert (L : forall t d d', no_dup_keys (dkeys d') = true -> padded t d d' -> longer t (PDict d) (PDict d')) by (intros t d d' N P; right; exists d, d'; auto).
  split; [unfold C92_short, C92_num, no_model; cbn [once]; repeat split; apply U; vm_compute; reflexivity|].
  split; [unfold C92_long, C92_num, no_model; cbn [once]; repeat split; apply U; vm_compute; reflexivity|]. split; [|split; [discriminate|split; vm_compute; reflexivity]].
  unfold all_respelled, C92_long. set (t := inherited C92_short). unfold C92_short. apply Forall2_cons; [split; reflexivity|]. apply Forall2_cons; [split; reflexivity|]. apply Forall2_cons; [split; [reflexivity|]|apply Forall2_cons; [split; [reflexivity|]|apply Forall2_nil]].
  - apply L; [reflexivity|]. do 3 apply padded_same. do 2 (apply padded_more; [reflexivity|]). apply padded_nil.
  - right. do 2 eexists. split; [reflexivity|]. split; [reflexivity|]. apply Forall2_cons; [split; [reflexivity|]|apply Forall2_cons; [split; [reflexivity|]|apply Forall2_nil]]; cbn [snd]; (apply L; [reflexivity|]).
    + apply padded_more; [reflexivity|]. apply padded_same. apply padded_more; [reflexivity|]. apply padded_nil.
    + apply padded_more; [reflexivity|]. apply padded_same. apply padded_more; [reflexivity|]. apply padded_nil.
Qed.

(** C92.  Findings: initial_condition, relative_permeability and capillarity of default are not inherited; repeated in a rock they change the file.  None in a
    rock is not the same as absent when default has the entry. *)
Theorem C92_refuted :
  let file := fun def rock => write_text [(#"title", PStr ($"Sample")); (#"default", PDict def); (#"rocks", PDict [(#"SAND", PDict rock)])] ($"all") in
  (exists t t', file [(#"relative_permeability", no_model (PInt 1))] [] = Ok t /\ file [(#"relative_permeability", no_model (PInt 1))] [(#"relative_permeability", no_model (PInt 1))] = Ok t' /\ t <> t') /\
  (exists t t', file [(#"capillarity", no_model (PInt 1))] [] = Ok t /\ file [(#"capillarity", no_model (PInt 1))] [(#"capillarity", no_model (PInt 1))] = Ok t' /\ t <> t') /\
  (exists t t', file [(#"initial_condition", PSeq SList [C92_num 1 5])] [] = Ok t /\ file [(#"initial_condition", PSeq SList [C92_num 1 5])] [(#"initial_condition", PSeq SList [C92_num 1 5])] = Ok t' /\ t <> t') /\
  (exists t t', file [(#"density", C92_num 2600 0)] [] = Ok t /\ file [(#"density", C92_num 2600 0)] [(#"density", PNone)] = Ok t' /\ t <> t').
Proof.
  cbv zeta. split; [|split; [|split]]; do 2 eexists; (split; [vm_compute; reflexivity|]; split; [vm_compute; reflexivity|]; discriminate).
Qed.
Print Assumptions C92_refuted.
