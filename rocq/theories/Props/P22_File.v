(** C22: the whole input file. *)
From Coq Require Import String Ascii ZArith Bool Lia List.
From Verif Require Import Base.Str Base.Digits Base.Flt.
From Verif Require Import Model.Py Model.Records Model.Write Model.Read.
From Verif Require Import Spec.Fields Spec.Values Spec.Types Spec.Rocks Spec.Flac Spec.Simple Spec.Param Spec.Indom Spec.Outpu
  Spec.Labels Spec.Mesh Spec.Incon Spec.Gener Spec.File.
From Verif Require Import Proofs.DictLemmas Proofs.FileProof Proofs.FileKeys Proofs.Samples.
Import ListNotations.
Local Open Scope Z_scope.

(** C22.  Whichever blocks are present, a file written from well-formed
    parameters is read back as the normal form of these parameters. *)
Theorem C22_file : forall u p ll fuel, prepare u = Ok p -> FILE_ok p ->
  label_choice ll -> FILE_known (label_given ll) p -> (List.length (titles_of p) < fuel)%nat ->
  exists t, write_text u ($"all") = Ok t /\ read_text fuel ll t = Ok (FILE_back p).
Proof. exact FILE_roundtrip. Qed.
Print Assumptions C22_file.

(** C22.  The normal form, entry by entry; no entry appears from nowhere. *)
Theorem C22_entries : forall p,
  (filled (val #"coordinates" p) = true -> filled (val #"elements" p) = true) ->
  forall k, dget k (FILE_back p) = FILE_entry p k.
Proof. exact FILE_lookup. Qed.
Print Assumptions C22_entries.

(** C22.  The parameters written are the given ones, completed by the defaults
    of the package. *)
Theorem C22_completed : forall u p, keys_unique u ->
  keys_unique (entries (val #"default" u)) -> keys_unique (entries (val #"rocks" u)) ->
  prepare u = Ok p -> completes u p.
Proof. exact prepare_completes. Qed.
Print Assumptions C22_completed.

Definition C22_model (i : Z) : pyval := PDict [(#"id", PInt i); (#"parameters", plist [num 45 (-2); PNone; PInt 1])].
Definition C22_element (x : Z) : pyval :=
  PDict [(#"material", text "SAND"); (#"volume", num 25 0); (#"center", plist [num x 0; num (-25) (-1); num 123456789 0])].
Definition C22_params : dict :=
  [(#"title", plist [text "Two cells"; text "second line"]); (#"eos", text "eco2n"); (#"isothermal", PBool true);
   (#"rocks", PDict [(KS ($"SAND"), PDict [(#"density", num 2600 0); (#"initial_condition", plist [num 1 5; PNone; num 2 1])]);
                     (KS ($"CLAY"), PDict [(#"capillarity", C22_model 7)])]);
   (#"default", PDict [(#"porosity", num 3 (-1)); (#"relative_permeability", C22_model 3)]);
   (#"options", PDict [(#"t_max", num 1 8); (#"t_steps", num 1 0)]); (#"times", plist [num 1 6; num 1 7]);
   (#"elements", PDict [(KS ($"AAA10"), C22_element 1); (KS ($"AAA11"), C22_element 2)]); (#"coordinates", PBool true);
   (#"nover", PBool true)].
Definition C22_full : dict := Eval vm_compute in match prepare C22_params with Ok p => p | Err _ => [] end.
Example C22_example :
  prepare C22_params = Ok C22_full /\ FILE_ok C22_full /\ FILE_known None C22_full /\
  roundtrip C22_params = Ok (FILE_back C22_full) /\
  dkeys (FILE_back C22_full) = [#"title"; #"rocks"; #"rocks_order"; #"default"; #"n_component"; #"isothermal"; #"n_phase"; #"start";
    #"options"; #"extra_options"; #"times"; #"elements"; #"elements_order"; #"coordinates"; #"nover"] /\
  val #"title" (FILE_back C22_full) = val #"title" C22_params.
Proof.
  parts; [byc| | |byc|byc|byc].
  - unfold FILE_ok.
    parts; try (let H := fresh in intros H; vm_compute in H; discriminate H); [byc| | | | | | | | | | ]; try intros _.
    + change (titles_of C22_full) with [text "Two cells"; text "second line"].
      each; eexists; parts; [reflexivity|byc|byc|byc|reflexivity|byc|byc|byc].
    + unfold ROCKS_ok; parts; [eexists; split; [reflexivity|byc]|byc|byc|exact I|distinct|].
      literal. each; do 2 eexists; parts; [reflexivity|byc|byc|reflexivity|byc|byc].
    + unfold RPCAP_ok. eexists. parts; [reflexivity|distinct|byc].
    + unfold PARAM_ok. parts; [byc|distinct|byc|byc| | |apply Nat.leb_le; byc|byc|byc|byc|].
      * split; [distinct|]. literal. each.
      * do 2 eexists. split; reflexivity.
      * split; [left; literal; each; byc|byc].
    + literal. each; exact I.
    + unfold MULTI_ok. parts; [byc| |byc|eexists; byc|exact I|byc|byc|byc|byc].
      vm_compute. discriminate.
    + unfold INDOM_ok. parts; [byc|byc|exact I|exact I|distinct| |byc].
      literal. each; do 2 eexists; (split; [reflexivity|split; [exact I|]]); intros E; [parts; byc|discriminate E].
    + unfold TIMES_ok; (parts; [byc|literal; each; byc|byc]).
    + unfold ELEME_ok. cbv zeta. parts; [byc|byc|discriminate|distinct|exact I|apply Nat.leb_le; byc|apply Nat.leb_le; byc| ].
      literal. each; eexists _, _; (split; [reflexivity|split; [byc|]]); unfold element_ok; parts; try byc; try distinct.
    + split; [byc|]. unfold COORD_ok. cbv zeta. parts; [byc|byc|distinct|exact I|].
      literal. each; eexists _, _; (split; [reflexivity|byc]).
  - unfold FILE_known. parts; try (let H := fresh in intros H; vm_compute in H; discriminate H).
    intros _. unfold ELEME_known. cbv zeta. right. parts; [now left|byc|byc|intros _; byc].
Qed.

(** C22.  Findings: an initial condition of a rock is lost when no rock has a
    value among its first four ones; "coordinates" without elements
    gives a file that cannot be read. *)
Theorem C22_refuted :
  let rock := fun r => (#"rocks", PDict [(KS ($"SAND"), PDict r)]) in
  roundtrip_get #"rocks" [rock [(#"initial_condition", plist [PNone; PNone; PNone; PNone; num 5 0])]]
    = Ok (PDict [(KS ($"SAND"), PDict [])]) /\
  roundtrip [rock []; (#"coordinates", PBool true)] = Err KeyError.
Proof. cbv zeta; parts; byc. Qed.
Print Assumptions C22_refuted.
