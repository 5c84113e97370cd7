(** C95: an entry of the parameters changes nothing but its own block. *)
From Coq Require Import String Ascii ZArith Bool Lia List.
From Verif Require Import Base.Str Base.Digits Base.Flt.
From Verif Require Import Model.Py Model.Records Model.Write.
From Verif Require Import Proofs.DictLemmas Proofs.OwnBlockProof Proofs.OwnBlockCex Spec.OwnBlock.
Import ListNotations.
Local Open Scope Z_scope.

(** C95.  Two files written for parameters that differ in one of these entries differ at most in the block of that entry. *)
Theorem C95_own : forall k kw u u' blk t t', In (k, kw) own_blocks -> same_but k u u' -> write_text u blk = Ok t -> write_text u' blk = Ok t' -> differ_in kw t t'.
Proof. exact only_own. Qed.
Print Assumptions C95_own.

Definition C95_num (m e : Z) : pyval := PFloat (flt_of_dec false m e).
Definition C95_with (times : list (key * pyval)) : dict :=
  [(#"title", PStr ($"Sample")); (#"rocks", PDict [(#"SAND", PDict [])])] ++ times ++ [(#"generators", PDict [(#"AAA 1", PDict [(#"type", PStr ($"HEAT")); (#"rates", C95_num 5 0)])])].
Definition C95_times (l : list Z) : list (key * pyval) := [(#"times", PSeq SList (map (fun z => C95_num z 0) l))].
Example C95_example : same_but #"times" (C95_with (C95_times [1; 2])) (C95_with (C95_times [5])) /\ same_but #"times" (C95_with (C95_times [1; 2])) (C95_with []) /\
  In (#"times", $"TIMES") own_blocks /\
  exists t t' t'', write_text (C95_with (C95_times [1; 2])) ($"all") = Ok t /\ write_text (C95_with (C95_times [5])) ($"all") = Ok t' /\ write_text (C95_with []) ($"all") = Ok t'' /\ t <> t' /\ t <> t''.
Proof.
  assert (U : forall d, no_dup_keys (dkeys d) = true -> NoDup (dkeys d)) by (intros d; apply no_dup_keys_ok).
  assert (E : forall a, a <> #"times" -> key_eqb a #"times" = false) by (intros a N; now apply key_eqb_neq).
  split; [|split; [|split; [do 7 right; now left|]]].
  - split; [apply U; vm_compute; reflexivity|]. split; [apply U; vm_compute; reflexivity|]. intros a N. unfold C95_with, C95_times. cbn [app dget]. now rewrite (E a N).
  - split; [apply U; vm_compute; reflexivity|]. split; [apply U; vm_compute; reflexivity|]. intros a N. unfold C95_with, C95_times. cbn [app dget]. now rewrite (E a N).
  - do 3 eexists. split; [vm_compute; reflexivity|]. split; [vm_compute; reflexivity|]. split; [vm_compute; reflexivity|]. split; discriminate.
Qed.

(** C95.  It is not so for diffusion: next to its own block DIFFU it changes the last number of MULTI, so the files differ in more than the block DIFFU. *)
Theorem C95_refuted : exists t t',
  write_text [(#"title", PStr ($"Sample")); (#"eos", PStr ($"eos3"))] ($"all") = Ok t /\
  write_text [(#"title", PStr ($"Sample")); (#"eos", PStr ($"eos3")); (#"diffusion", PSeq SList [PSeq SList [C95_num 1 (-5)]])] ($"all") = Ok t' /\
  ~ differ_in ($"DIFFU") t t'.
Proof.
  do 2 eexists. split; [vm_compute; reflexivity|]. split; [vm_compute; reflexivity|].
  apply not_differ_in with (p := 350%nat); [vm_compute; discriminate|vm_compute; reflexivity].
Qed.
Print Assumptions C95_refuted.
