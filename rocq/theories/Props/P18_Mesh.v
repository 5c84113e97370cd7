(** C18, C19: the ELEME, COORD and CONNE blocks. *)
From Coq Require Import String Ascii ZArith Bool Lia List.
From Verif Require Import Base.Str Base.Digits Base.Flt.
From Verif Require Import Model.Py Model.Records Model.Write Model.Read.
From Verif Require Import Spec.Fields Spec.Values Spec.Types Spec.Rocks Spec.Labels Spec.Mesh.
From Verif Require Import Proofs.RecordLemmas Proofs.DictLemmas Proofs.BlockTools Proofs.LabelProof Proofs.MeshProof Proofs.Samples.
Import ListNotations.
Local Open Scope Z_scope.

(** C18.  The elements come back under the same labels in the same order, for
    every label length from 5 to 9, when the reader is told the length or can
    guess it. *)
Theorem C18_eleme : forall p, ELEME_ok p ->
  exists body, write_eleme p = Ok (head ($"ELEME") :: body) /\
    Forall good_line body /\
    forall ll q rest, ELEME_known ll p ->
      read_block ll (head ($"ELEME")) q (body ++ rest) = Ok (true, ELEME_upd p q, rest).
Proof. exact (fun p H => ex_intro _ _ (ELEME_block p H)). Qed.
Print Assumptions C18_eleme.

Definition C18_params : dict :=
  [(#"elements", PDict [
      (KS ($"AAA10"), PDict [(#"material", text "SAND"); (#"volume", num 25 0); (#"center", plist [num 1 0; num (-25) (-1); num 3 0]);
                             (#"nseq", PInt 3); (#"nadd", PInt 1)]);
      (KS ($"a b1234"), PDict [(#"material", PInt 2); (#"volume", PNone); (#"heat_exchange_area", num 1 (-3));
                               (#"center", plist [num 1 0; num 0 0; num 123456 0]); (#"permeability_modifier", num 5 (-1))])]);
   (#"elements_order", plist [text "a b1234"; text "AAA10"])].
Example C18_example :
  ELEME_ok C18_params /\ ELEME_known None C18_params /\
  label_width (elements_of C18_params) = 7%nat /\
  elements_order_of C18_params = [text "a b1234"; text "AAA10"] /\
  val (KS ($"AAA10")) (elements_back C18_params) =
    PDict [(#"nseq", PInt 3); (#"nadd", PInt 1); (#"material", text "SAND"); (#"volume", num 25 0);
           (#"center", plist [num 1 0; num (-25) (-1); num 3 0])].
Proof.
  parts; [| |byc|byc|byc].
  - unfold ELEME_ok. cbv zeta. parts; [byc|byc|discriminate|distinct| |apply Nat.leb_le; byc|apply Nat.leb_le; byc| ].
    + unfold subset_ok. change (val #"elements_order" C18_params) with (plist [text "a b1234"; text "AAA10"]). unfold plist. split.
      * apply NoDup_cons; [intros [E|[]]; discriminate|]. apply NoDup_cons; [intros []|apply NoDup_nil].
      * each; eexists; (split; [reflexivity|]); [right; left|left]; byc.
    + change (elements_of C18_params) with (entries (snd (hd (KNone, PNone) C18_params))). unfold C18_params. cbn [hd snd entries].
      each; eexists _, _; (split; [reflexivity|split; [byc|]]); unfold element_ok; parts; try byc; try distinct.
  - unfold ELEME_known. cbv zeta. right. parts; [now left|byc|byc|]. intros _. byc.
Qed.

(** C18.  COORD: the centres come back with 13 decimals. *)
Theorem C18_coord : forall p, COORD_ok p ->
  exists body, write_coord p = Ok (head ($"COORD") :: body) /\
    Forall good_line body /\
    forall ll q rest, COORD_pre p q ->
      read_block ll (head ($"COORD")) q (body ++ rest) = Ok (true, COORD_upd p q, rest).
Proof. exact (fun p H => ex_intro _ _ (COORD_block p H)). Qed.
Print Assumptions C18_coord.
Example C18_coord_example :
  COORD_ok C18_params /\
  COORD_pre C18_params (ELEME_upd C18_params []) /\
  val #"center" (entries (val (KS ($"AAA10")) (entries (val #"elements" (COORD_upd C18_params (ELEME_upd C18_params [])))))) =
    plist [num 1 0; num (-25) (-1); num 3 0].
Proof.
  parts; [| |byc].
  - unfold COORD_ok. cbv zeta. parts; [byc|byc|distinct| |].
    + unfold subset_ok. change (val #"elements_order" C18_params) with (plist [text "a b1234"; text "AAA10"]). unfold plist. split.
      * apply NoDup_cons; [intros [E|[]]; discriminate|]. apply NoDup_cons; [intros []|apply NoDup_nil].
      * each; eexists; (split; [reflexivity|]); [right; left|left]; byc.
    + change (elements_of C18_params) with (entries (snd (hd (KNone, PNone) C18_params))). unfold C18_params. cbn [hd snd entries].
      each; eexists _, _; (split; [reflexivity|byc]).
  - unfold COORD_pre. split; [byc|]. exists (elements_back C18_params). parts; [byc|byc|].
    change (elements_back C18_params) with
      (map (fun x => (name_key x, PDict (element_back (rock_named (elements_of C18_params) x)))) [text "a b1234"; text "AAA10"]).
    cbn [map]. each; reflexivity.
Qed.

(** C18.  Findings: without a material the block cannot be read; a material
    made of digits comes back as a number; a label whose sixth character is
    not a digit, or a full NSEQ column, misleads the guess of the label length. *)
Definition C18_one (label : string) (more : dict) : dict :=
  [(#"rocks", PDict [(KS ($"SAND"), PDict [])]);
   (#"elements", PDict [(KS (lit label), PDict (dupdate [(#"material", text "SAND"); (#"volume", num 1 0); (#"center", plist [num 1 0; num 2 0; num 3 0])] more))])].
Definition C18_back (label : string) (more : dict) : res pyval :=
  let* q := roundtrip (C18_one label more) in Ok (val #"elements" q).
Theorem C18_refuted :
  C18_back "AAA 0" [] = Ok (val #"elements" (C18_one "AAA 0" [])) /\
  C18_back "AAA 0" [(#"material", text "")] = Err AttributeError /\
  C18_back "AAA 0" [(#"material", text "00012")] = Ok (val #"elements" (C18_one "AAA 0" [(#"material", PInt 12)])) /\
  C18_back "AAA 0B" [] = Err ValueError /\
  (let* q := roundtrip (C18_one "AAA 0" [(#"nseq", PInt 10000)]) in Ok (dkeys (entries (val #"elements" q)))) = Ok [KS ($"AAA 01000")].
Proof. parts; byc. Qed.
Print Assumptions C18_refuted.

(** C19.  The connections come back under the same pairs of labels. *)
Theorem C19_conne : forall p, CONNE_ok p ->
  exists body, write_conne p = Ok (head ($"CONNE") :: body) /\
    Forall good_line body /\
    forall ll q rest, CONNE_known ll p ->
      read_block ll (head ($"CONNE")) q (body ++ rest) = Ok (true, dupdate q (CONNE_back p), rest).
Proof. exact (fun p H => ex_intro _ _ (CONNE_block p H)). Qed.
Print Assumptions C19_conne.

Definition C19_one (label : string) (more : dict) : dict :=
  [(#"connections", PDict [(KS (lit label), PDict (dupdate [
       (#"nadd", plist [PInt 2; PInt 3]); (#"permeability_direction", PInt 1); (#"nodal_distances", plist [num 5 (-1); num 15 (-1)]);
       (#"interface_area", num 12 0); (#"gravity_cosine_angle", num (-1) 0)] more))]);
   (#"connections_order", PNone)].
Example C19_example :
  CONNE_ok (C19_one "AAA12BAA123B" []) /\ CONNE_known (Some 6%nat) (C19_one "AAA12BAA123B" []) /\
  connections_back (C19_one "AAA12BAA123B" []) = entries (val #"connections" (C19_one "AAA12BAA123B" [])) /\
  CONNE_known None (C19_one "AAA123BAA123" []).
Proof.
  parts; [| |byc|].
  - unfold CONNE_ok. cbv zeta. parts; [byc|byc|discriminate|distinct|exact I|apply Nat.leb_le; byc|apply Nat.leb_le; byc| ].
    change (connections_of (C19_one "AAA12BAA123B" [])) with (entries (snd (hd (KNone, PNone) (C19_one "AAA12BAA123B" [])))).
    unfold C19_one. cbn [hd snd entries].
    each; eexists _, _; (split; [reflexivity|split; [byc|]]); unfold connection_ok; parts; try byc; try distinct.
    right. apply Nat.leb_le. byc.
  - unfold CONNE_known. cbv zeta. now left.
  - unfold CONNE_known. cbv zeta. right. parts; [now left|byc|byc|intros _; byc].
Qed.

(** C19.  Findings: a second label that starts with a digit misleads the guess
    of the label length, so that six characters are read for a label of five;
    a connection without NADD comes back with two Nones. *)
Definition C19_back (label : string) (more : dict) : res pyval :=
  let* q := roundtrip ((#"rocks", PDict [(KS ($"SAND"), PDict [])]) :: C19_one label more) in Ok (val #"connections" q).
Theorem C19_refuted :
  C19_back "AAA10BBB10" [] = Ok (val #"connections" (C19_one "AAA10BBB10" [])) /\
  (let* v := C19_back "AAA101BB10" [(#"nseq", PInt 12345)] in Ok (dkeys (entries v))) = Ok [KS ($"AAA101BB1012")] /\
  (let* v := C19_back "AAA10BBB10" [(#"nadd", PNone)] in Ok (val #"nadd" (entries (val (KS ($"AAA10BBB10")) (entries v)))))
    = Ok (plist [PNone; PNone]).
Proof. parts; byc. Qed.
Print Assumptions C19_refuted.
