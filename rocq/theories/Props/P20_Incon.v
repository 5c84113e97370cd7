(** C20: the INCON block. *)
From Coq Require Import String Ascii ZArith Bool Lia List.
From Verif Require Import Base.Str Base.Digits Base.Flt.
From Verif Require Import Model.Py Model.Records Model.Write Model.Read.
From Verif Require Import Spec.Fields Spec.Values Spec.Types Spec.Rocks Spec.Labels Spec.Indom Spec.Incon.
From Verif Require Import Proofs.RecordLemmas Proofs.DictLemmas Proofs.BlockTools Proofs.LabelProof Proofs.InconProof Proofs.Samples.
Import ListNotations.
Local Open Scope Z_scope.

(** C20.  Porosity, user values and primary variables come back for the same
    elements in the same order when the elements with more than four variables
    come first. *)
Theorem C20_incon : forall p, INCON_ok p ->
  exists body, write_incon p = Ok (head ($"INCON") :: body) /\
    Forall good_line body /\
    forall ll q rest, INCON_known ll p ->
      read_block ll (head ($"INCON")) q (body ++ rest) = Ok (true, dupdate q (INCON_back p), rest).
Proof. exact (fun p H => ex_intro _ _ (INCON_block p H)). Qed.
Print Assumptions C20_incon.

Definition C20_params : dict :=
  [(#"initial_conditions", PDict [
      (KS ($"AAA10"), PDict [(#"porosity", num 1 (-1)); (#"values", plist [num 1 5; PNone; num 2 1])]);
      (KS ($"e1b1234"), PDict [(#"userx", plist [num 1 0; PNone; num 3 0]);
                               (#"values", plist [num 1 5; PInt 2; num 3 0; num 4 0; num 5 0; num (-6) 0])])]);
   (#"initial_conditions_order", plist [text "e1b1234"; text "AAA10"])].
Example C20_example :
  INCON_ok C20_params /\ INCON_known None C20_params /\
  val (KS ($"e1b1234")) (incons_back C20_params) =
    PDict [(#"userx", plist [num 1 0; PNone; num 3 0]); (#"values", plist [num 1 5; num 2 0; num 3 0; num 4 0; num 5 0; num (-6) 0])] /\
  val (KS ($"AAA10")) (incons_back C20_params) =
    PDict [(#"porosity", num 1 (-1)); (#"values", plist [num 1 5; PNone; num 2 1])].
Proof.
  parts; [| |byc|byc].
  - unfold INCON_ok. cbv zeta. parts; [byc|byc|discriminate|distinct| |apply Nat.leb_le; byc|apply Nat.leb_le; byc| |byc].
    + unfold subset_ok. change (val #"initial_conditions_order" C20_params) with (plist [text "e1b1234"; text "AAA10"]). unfold plist. split.
      * apply NoDup_cons; [intros [E|[]]; discriminate|]. apply NoDup_cons; [intros []|apply NoDup_nil].
      * each; eexists; (split; [reflexivity|]); [right; left|left]; byc.
    + change (incons_of C20_params) with (entries (snd (hd (KNone, PNone) C20_params))). unfold C20_params. cbn [hd snd entries].
      each; eexists _, _; (split; [reflexivity|split; [byc|split; [byc|]]]); unfold incon_ok; parts; try byc; try distinct; try exact I.
  - unfold INCON_known. cbv zeta. right. parts; [now left|byc|byc|]. intros _. byc.
Qed.

(** C20.  Findings: an element with more than four variables after one with at
    most four cannot be read; a label of digits next to a blank porosity is taken for
    numbers; the ninth variable is dropped. *)
Definition C20_back (incons : dict) : res pyval :=
  roundtrip_get #"initial_conditions" [(#"rocks", PDict [(KS ($"SAND"), PDict [])]); (#"initial_conditions", PDict incons)].
Definition C20_entry (label : string) (n : nat) : key * pyval :=
  (KS (lit label), PDict [(#"values", plist (repeat (num 1 0) n))]).
Theorem C20_refuted :
  C20_back [C20_entry "AAA10" 6; C20_entry "AAA11" 3] = Ok (PDict [C20_entry "AAA10" 6; C20_entry "AAA11" 3]) /\
  C20_back [C20_entry "AAA10" 3; C20_entry "AAA11" 6] = Err ValueError /\
  C20_back [C20_entry "AAA10" 3; C20_entry "12345" 3] <> Ok (PDict [C20_entry "AAA10" 3; C20_entry "12345" 3]) /\
  C20_back [C20_entry "AAA10" 9] = Ok (PDict [C20_entry "AAA10" 8]).
Proof. parts; [byc|byc| |byc]. intros X. vm_compute in X. discriminate X. Qed.
Print Assumptions C20_refuted.
