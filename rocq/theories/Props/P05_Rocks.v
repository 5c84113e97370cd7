(** C05 - C07: rocks, default models, coupling with FLAC. *)
From Coq Require Import String Ascii ZArith Bool List.
From Verif Require Import Base.Str Base.Digits Base.Flt.
From Verif Require Import Model.Py Model.Records Model.Write Model.Read.
From Verif Require Import Spec.Fields Spec.Values Spec.Types Spec.Rocks Spec.Flac.
From Verif Require Import Proofs.RecordLemmas Proofs.BlockTools Proofs.RocksProof Proofs.FlacProof Proofs.Samples.
Import ListNotations.
Local Open Scope Z_scope.

(** C05.  Whatever follows in the file, the reader of the ROCKS block gives
    back every rock, in the order written, and stops at the end of the block. *)
Theorem C05_rocks : forall p, ROCKS_ok p ->
  exists body after, write_rocks p = Ok (head ($"ROCKS") :: body, after) /\
    Forall good_line body /\
    forall ll q rest, read_block ll (head ($"ROCKS")) q (body ++ rest)
      = Ok (true, dupdate q (ROCKS_back p), rest).
Proof. exact (fun p H => ex_intro _ _ (ex_intro _ _ (ROCKS_block p H))). Qed.
Print Assumptions C05_rocks.

Definition C05_model (i : Z) : pyval :=
  PDict [(#"id", PInt i); (#"parameters", plist [num 45 (-2); num (-25) (-3); PNone; PInt 1])].
Definition C05_rock (extra : dict) : pyval :=
  PDict (dupdate
    [(#"density", PNone); (#"porosity", PNone); (#"permeability", PNone); (#"conductivity", PNone);
     (#"specific_heat", PNone); (#"compressibility", PNone); (#"expansivity", PNone);
     (#"conductivity_dry", PNone); (#"tortuosity", PNone); (#"klinkenberg_parameter", PNone);
     (#"distribution_coefficient_3", PNone); (#"distribution_coefficient_4", PNone)] extra).
Definition C05_params : dict :=
  [(#"default", PDict []); (#"rocks_order", plist [text "CLAY"]);
   (#"rocks", PDict
      [(KS ($"SAND"), C05_rock [(#"density", num 2600 0); (#"permeability", num 1 (-12));
                                (#"tortuosity", num 7 (-1));
                                (#"capillarity", C05_model 7)]);
       (KS ($"CLAY"), C05_rock [(#"density", num 2650 0);
                                (#"permeability", plist [num 1 (-15); num 1 (-15); num 3 (-16)]);
                                (#"relative_permeability", C05_model 3); (#"capillarity", C05_model 7)]);
       (KS ($"BOUND"), C05_rock [(#"specific_heat", PInt 1000)])])].
Example C05_example :
  ROCKS_ok C05_params /\
  map fst (rocks_back C05_params) = [KS ($"CLAY"); KS ($"SAND"); KS ($"BOUND")].
Proof.
  unfold ROCKS_ok; parts; [|byc|byc| |distinct| |byc].
  - exists []. split; byc.
  - cbn. parts; [repeat constructor; simpl; tauto| |now left].
    repeat constructor; eexists; split; [reflexivity|]. simpl. tauto.
  - each; do 2 eexists; parts; [reflexivity|byc|byc|reflexivity|byc|byc|reflexivity|byc|byc].
Qed.

(** C05.  A tuple of names in "rocks_order" that misses a rock makes the writer
    fail with an AttributeError. *)
Theorem C05_tuple_refuted :
  write_text [(#"rocks_order", PSeq STuple [text "CLAY"]);
              (#"rocks", PDict [(KS ($"CLAY"), PDict []); (KS ($"SAND"), PDict [])])] ($"all")
  = Err AttributeError.
Proof. vm_compute. reflexivity. Qed.
Print Assumptions C05_tuple_refuted.

(** C06.  The default models come back, and the other defaults are kept. *)
Theorem C06_rpcap : forall p def, dget #"default" p = Some (PDict def) -> RPCAP_ok p ->
  exists body, write_rpcap p = Ok (head ($"RPCAP") :: body) /\
    Forall good_line body /\
    forall ll q rest, default_readable q ->
      read_block ll (head ($"RPCAP")) q (body ++ rest)
      = Ok (true, with_default (models_back def) q, rest).
Proof. exact (fun p def G H => ex_intro _ _ (RPCAP_block p def G H)). Qed.
Print Assumptions C06_rpcap.

Example C06_example :
  let def := [(#"relative_permeability", C05_model 3); (#"capillarity", C05_model 7)] in
  RPCAP_ok [(#"default", PDict def)] /\
  models_back def =
    [(#"relative_permeability", PDict [(#"id", PInt 3); (#"parameters", plist [num 45 (-2); num (-25) (-3); PNone; num 1 0])]);
     (#"capillarity", PDict [(#"id", PInt 7); (#"parameters", plist [num 45 (-2); num (-25) (-3); PNone; num 1 0])])].
Proof.
  split; [|byc]. unfold RPCAP_ok. eexists. parts; [reflexivity|distinct|byc].
Qed.

(** C07.  The coupling options come back, and every rock receives its two
    models.  The blank line closing the block is left to the main loop, which
    skips it. *)
Theorem C07_flac : forall p, FLAC_ok p ->
  exists body, write_flac p = Ok (head ($"FLAC") :: body) /\
    Forall good_line body /\
    forall ll q rest, FLAC_pre p q ->
      read_block ll (head ($"FLAC")) q (body ++ rest) = Ok (true, FLAC_upd p q, [nl] :: rest).
Proof. exact (fun p H => ex_intro _ _ (FLAC_block p H)). Qed.
Print Assumptions C07_flac.

Definition C07_rock (i : Z) : pyval :=
  PDict [(#"permeability_model", C05_model i); (#"equivalent_pore_pressure", C05_model 2)].
Definition C07_params : dict :=
  [(#"flac", PDict [(#"creep", PBool true); (#"porosity_model", PInt 1); (#"version", PNone)]);
   (#"default", C07_rock 1); (#"rocks_order", PNone);
   (#"rocks", PDict [(KS ($"SAND"), C07_rock 1); (KS ($"CLAY"), C07_rock 4)])].
Example C07_example :
  FLAC_ok C07_params /\
  map fst (flac_rocks_back C07_params) = [KS ($"SAND"); KS ($"CLAY")] /\
  flac_back C07_params = [(#"creep", PInt 1); (#"porosity_model", PInt 1)].
Proof.
  unfold FLAC_ok; parts; [reflexivity|distinct|byc|byc|byc| |reflexivity|reflexivity|exact I|exact I|distinct| |byc|byc].
  - eexists. split; [reflexivity|byc].
  - each; do 2 eexists; parts; [reflexivity|distinct|byc|reflexivity|distinct|byc].
Qed.

(** C07.  A file with a FLAC block, once read, cannot be written again: the
    creep flag comes back as an integer and the type check refuses it. *)
Theorem C07_refuted :
  let p := [(#"rocks", PDict [(KS ($"SAND"), PDict [])]); (#"flac", PDict [(#"creep", PBool true)])] in
  (let* q := roundtrip p in write_text q ($"all")) = Err TypeError /\
  (exists t, write_text p ($"all") = Ok t).
Proof. split; [vm_compute; reflexivity|]. eexists. vm_compute. reflexivity. Qed.
Print Assumptions C07_refuted.
