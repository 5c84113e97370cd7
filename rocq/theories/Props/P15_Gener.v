(** C15: the GENER block. *)
From Coq Require Import String Ascii ZArith Bool Lia List.
From Verif Require Import Base.Str Base.Digits Base.Flt.
From Verif Require Import Model.Py Model.Records Model.Write Model.Read.
From Verif Require Import Spec.Fields Spec.Values Spec.Types Spec.Rocks Spec.Labels Spec.Gener.
From Verif Require Import Proofs.RecordLemmas Proofs.DictLemmas Proofs.BlockTools Proofs.LabelProof Proofs.GenerProof Proofs.Samples.
Import ListNotations.
Local Open Scope Z_scope.

(** C15.  Sources and sinks come back for the same elements, in order, when the
    sources of one element either all have an enthalpy entry or all lack it. *)
Theorem C15_gener : forall p, GENER_ok p ->
  exists body, write_gener p = Ok (head ($"GENER") :: body) /\
    Forall good_line body /\
    forall ll q rest, GENER_known ll p ->
      read_block ll (head ($"GENER")) q (body ++ rest) = Ok (true, dupdate q (GENER_back p), rest).
Proof. exact (fun p H => ex_intro _ _ (GENER_block p H)). Qed.
Print Assumptions C15_gener.

Definition C15_table (n : nat) : pyval := plist (map (fun i => num (Z.of_nat i) 0) (seq 1 n)).
Definition C15_params : dict :=
  [(#"generators", PDict [
      (KS ($"AAA10"), PDict [(#"type", text "MASS"); (#"name", text "WEL 1"); (#"rates", num 25 (-1)); (#"nseq", PInt 4)]);
      (KS ($"AAA11"), PDict [(#"type", plist [text "COM1"; text "HEAT"; text "COM3"]);
                             (#"times", plist [C15_table 6; PNone; C15_table 2]);
                             (#"rates", plist [C15_table 6; num 3 0; C15_table 2]);
                             (#"specific_enthalpy", plist [C15_table 6; num 1 5; C15_table 2])]);
      (KS ($"AAA12"), PDict [(#"type", plist [text "COM1"; text "COM2"]);
                             (#"times", plist [C15_table 6; C15_table 9]);
                             (#"rates", plist [C15_table 6; C15_table 9]);
                             (#"layer_thickness", plist [PNone; num 1 1])])])].
Example C15_example :
  GENER_ok C15_params /\ GENER_known None C15_params /\
  val (KS ($"AAA10")) (generators_back C15_params) =
    PDict [(#"name", text "WEL 1"); (#"nseq", PInt 4); (#"type", text "MASS"); (#"rates", num 25 (-1))] /\
  val #"specific_enthalpy" (entries (val (KS ($"AAA11")) (generators_back C15_params))) = plist [C15_table 6; num 1 5; C15_table 2] /\
  val (KS ($"AAA12")) (generators_back C15_params) =
    PDict [(#"type", plist [text "COM1"; text "COM2"]); (#"layer_thickness", plist [PNone; num 1 1]);
           (#"times", plist [C15_table 6; C15_table 9]); (#"rates", plist [C15_table 6; C15_table 9])].
Proof.
  parts; [| |byc|byc|byc].
  - unfold GENER_ok. cbv zeta. parts; [byc|discriminate|distinct|apply Nat.leb_le; byc|apply Nat.leb_le; byc| ].
    change (generators_of C15_params) with (entries (snd (hd (KNone, PNone) C15_params))). unfold C15_params. cbn [hd snd entries].
    apply Forall_cons; [|apply Forall_cons; [|apply Forall_cons; [|apply Forall_nil]]];
      eexists _, _; (split; [reflexivity|split; [byc|]]); unfold generator_ok; (split; [distinct|split; [byc|split; [|split; [byc|]]]]).
    + exact I.
    + left. byc.
    + split; [discriminate|byc].
    + left. byc.
    + split; [discriminate|byc].
    + right. byc.
  - unfold GENER_known. right. parts; [now left|byc|byc|]. intros _. byc.
Qed.

(** C15.  Findings: of two sources on one element, the enthalpies are lost when
    only the second has them, and the file cannot be read when only the first
    has them; a source name that starts with a digit misleads the guess of the
    label length; a single time is dropped. *)
Definition C15_back (g : dict) : res pyval :=
  roundtrip_get #"generators" [(#"rocks", PDict [(KS ($"SAND"), PDict [])]); (#"generators", PDict g)].
Definition C15_two (e1 e2 : pyval) : dict :=
  [(#"type", plist [text "COM1"; text "COM2"]); (#"times", plist [C15_table 2; C15_table 2]);
   (#"rates", plist [C15_table 2; C15_table 2]); (#"specific_enthalpy", plist [e1; e2])].
Theorem C15_refuted :
  C15_back [(KS ($"AAA10"), PDict (C15_two PNone (C15_table 2)))]
    = Ok (PDict [(KS ($"AAA10"), PDict [(#"type", plist [text "COM1"; text "COM2"]); (#"times", plist [C15_table 2; C15_table 2]);
                                        (#"rates", plist [C15_table 2; C15_table 2])])]) /\
  C15_back [(KS ($"AAA10"), PDict (C15_two (C15_table 2) PNone))] = Err KeyError /\
  C15_back [(KS ($"AAA10"), PDict [(#"type", text "MASS"); (#"name", text "12")])]
    = Ok (PDict [(KS ($"AAA1012"), PDict [(#"type", text "MASS")])]) /\
  C15_back [(KS ($"AAA10"), PDict [(#"type", text "MASS"); (#"times", num 5 0)])]
    = Ok (PDict [(KS ($"AAA10"), PDict [(#"type", text "MASS")])]).
Proof. parts; byc. Qed.
Print Assumptions C15_refuted.
