(** C90: lists, tuples and arrays, integers of python and of numpy. *)
From Coq Require Import String Ascii ZArith Bool Lia List.
From Verif Require Import Base.Str Base.Digits Base.Flt.
From Verif Require Import Model.Py Model.Records Model.Write.
From Verif Require Import Proofs.KindsProof Spec.Kinds.
Import ListNotations.
Local Open Scope Z_scope.

(** C90.  Parameters with the same entries, where sequences are lists, tuples or arrays of the same contents and integers
    those of python or of numpy, are written as the same file or raise the same exception; except that rocks_order and the
    materials of the elements are the same, the other orders are sequences of the same labels, and the values that are
    tested for being true are not arrays. *)
Theorem C90_kinds : forall u u' blk, other_kinds u u' -> write_text u blk = write_text u' blk.
Proof. exact kinds_same. Qed.
Print Assumptions C90_kinds.

Definition C90_num (m e : Z) : pyval := PFloat (flt_of_dec false m e).
Definition C90_params (s : seqk) (i : Z -> pyval) : dict :=
  [(#"title", PSeq s [PStr ($"Sample"); PStr ($"Second line")]);
   (#"rocks", PDict [(#"SAND", PDict [(#"permeability", PSeq s [C90_num 1 (-12); C90_num 2 (-12); C90_num 3 (-12)]); (#"initial_condition", PSeq s [C90_num 1 5; PNone; C90_num 2 1]);
     (#"capillarity", PDict [(#"id", i 3); (#"parameters", PSeq s [C90_num 1 0; C90_num 2 0])])])]);
   (#"options", PDict [(#"n_cycle", i 100); (#"t_steps", PSeq s [C90_num 1 0; C90_num 1 1])]); (#"extra_options", PDict [(KI 1, i 1); (KI 16, i 5)]);
   (#"times", PSeq s [C90_num 1 6; C90_num 2 6]); (#"element_history", PSeq s [PStr ($"AAA 1")]);
   (#"selections", PDict [(#"integers", PDict [(KI 2, i 4)]); (#"floats", PSeq s [PSeq s [C90_num 1 0]; PSeq s [C90_num 2 0]])]);
   (#"generators", PDict [(#"AAA 1", PDict [(#"type", PStr ($"HEAT")); (#"nseq", i 2); (#"times", PSeq s [C90_num 0 0; C90_num 1 3]); (#"rates", PSeq s [C90_num 5 0; C90_num 6 0])])]);
   (#"elements", PDict [(#"AAA 1", PDict [(#"material", PInt 1); (#"nseq", i 3); (#"center", PSeq s [C90_num 1 0; C90_num 2 0; C90_num 3 0])])]);
   (#"elements_order", PSeq s [PStr ($"AAA 1")]); (#"rocks_order", PSeq SList [PStr ($"SAND")])].
Ltac plain_value := first [apply other_refl | apply sim_other; [reflexivity|left; reflexivity]
  | apply other_value; [reflexivity| |intros _; right; do 3 eexists; split; reflexivity|]; cbn [In flag_names kept_names]; intuition discriminate ].
Ltac each := match goal with
  | |- Forall2 _ [] _ => apply Forall2_nil
  | |- Forall2 _ (_ :: _) _ => apply Forall2_cons; [split; [reflexivity|]; cbn [fst snd]; each|each]
  | |- other_kind _ (PDict _) _ => apply other_dict; each
  | |- _ => plain_value end.
Example C90_example : other_kinds (C90_params SList PInt) (C90_params SArray PNpInt) /\ other_kinds (C90_params SList PInt) (C90_params STuple PInt) /\
  C90_params SList PInt <> C90_params SArray PNpInt /\
  match write_text (C90_params SArray PNpInt) ($"all") with Ok t => Nat.ltb 2000 (List.length t) | Err _ => false end = true /\
  write_text (C90_params SList PInt) ($"all") = write_text (C90_params SArray PNpInt) ($"all").
Proof.
  split; [|split; [|split; [discriminate|split; vm_compute; reflexivity]]]; unfold C90_params, other_kinds; each.
Qed.

(** C90.  Findings: diffusion as an array stops the writer with ValueError when MULTI is written; a rocks_order that is a tuple with
    AttributeError when it does not list all rocks; a material that is an integer of numpy with ValueError. *)
Theorem C90_refuted :
  let rows := fun s => PSeq s [PSeq s [C90_num 1 (-5); C90_num 1 (-6)]; PSeq s [C90_num 2 (-5); C90_num 2 (-6)]] in
  let rocks := (#"rocks", PDict [(#"SAND", PDict []); (#"CLAY", PDict [])]) in
  let file := fun l => write_text (rocks :: l) ($"all") in
  let element := fun m => [(#"elements", PDict [(#"AAA 1", PDict [(#"material", m); (#"center", PSeq SList [C90_num 1 0; C90_num 2 0; C90_num 3 0])])])] in
  (exists t, file [(#"eos", PStr ($"eos3")); (#"diffusion", rows SList)] = Ok t) /\ file [(#"eos", PStr ($"eos3")); (#"diffusion", rows SArray)] = Err ValueError /\
  (exists t, file [(#"rocks_order", PSeq SList [PStr ($"CLAY")])] = Ok t) /\ file [(#"rocks_order", PSeq STuple [PStr ($"CLAY")])] = Err AttributeError /\
  (exists t, file (element (PInt 2)) = Ok t) /\ file (element (PNpInt 2)) = Err ValueError.
Proof.
  cbv zeta. split; [|split; [|split; [|split; [|split]]]].
  - eexists. vm_compute. reflexivity.
  - vm_compute. reflexivity.
  - eexists. vm_compute. reflexivity.
  - vm_compute. reflexivity.
  - eexists. vm_compute. reflexivity.
  - vm_compute. reflexivity.
Qed.
Print Assumptions C90_refuted.
