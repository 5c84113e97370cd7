(** C17: the OUTPU block. *)
From Coq Require Import String Ascii ZArith Bool Lia List.
From Verif Require Import Base.Str Base.Digits Base.Flt.
From Verif Require Import Model.Py Model.Records Model.Write Model.Read.
From Verif Require Import Spec.Fields Spec.Values Spec.Types Spec.Rocks Spec.Simple Spec.Outpu.
From Verif Require Import Proofs.RecordLemmas Proofs.DictLemmas Proofs.BlockTools Proofs.RocksProof Proofs.SimpleProof Proofs.OutpuProof Proofs.Samples.
Import ListNotations.
Local Open Scope Z_scope.

(** C17.  Format and variables come back, and what follows is left untouched. *)
Theorem C17_outpu : forall p, OUTPU_ok p ->
  exists body, write_outpu p = Ok (head ($"OUTPU") :: body) /\
    Forall good_line body /\
    forall ll q rest, read_block ll (head ($"OUTPU")) q (body ++ rest)
      = Ok (true, dupdate q (OUTPU_back p), rest).
Proof. exact (fun p H => ex_intro _ _ (OUTPU_block p H)). Qed.
Print Assumptions C17_outpu.

Definition C17_variables (f : string -> string) : pyval :=
  PDict [(KS (lit (f "pressure"%string)), PNone); (KS (lit (f "saturation"%string)), PInt 1);
         (KS (lit (f "mass fraction"%string)), plist [plist [PInt 1; PInt 2]; plist [PNone; PInt 1]; plist [PInt 3; PInt 2]]);
         (KS (lit (f "flow"%string)), plist [PInt 2; PInt 3])].
Definition C17_params : dict :=
  [(#"output", PDict [(#"format", text "tecplot"); (#"variables", C17_variables (fun s => s))])].
Example C17_example :
  OUTPU_ok C17_params /\
  OUTPU_back C17_params = [(#"output", PDict [(#"format", text "TECPLOT"); (#"variables", C17_variables (fun s => s))])].
Proof.
  parts; [|byc]. unfold OUTPU_ok. parts; [reflexivity|distinct|byc| |reflexivity|discriminate| | |].
  - split; byc.
  - each; eexists; (split; [reflexivity|split; [byc|]]); unfold variable_ok; cbn [snd index_rows map items]; (split; [each; byc|]);
      try exact I; try discriminate. each; split; reflexivity.
  - apply no_dup_keys_ok. reflexivity.
  - apply Nat.leb_le. byc.
Qed.

(** C17.  Findings: a format without variables makes the reader swallow the
    header of the next block, so that all the elements are lost; names that
    differ by case only are merged. *)
Theorem C17_refuted :
  let rocks := (#"rocks", PDict [(KS ($"SAND"), PDict [])]) in
  let elements := (#"elements", PDict [(KS ($"AAA 0"), PDict [(#"material", text "SAND"); (#"volume", num 1 0);
                                                             (#"center", plist [num 1 0; num 2 0; num 3 0])])]) in
  (let* q := roundtrip [rocks; elements] in Ok (val #"elements" q)) = Ok (snd elements) /\
  (let* q := roundtrip [rocks; (#"output", PDict [(#"format", text "csv")]); elements] in Ok (dmem #"elements" q)) = Ok false /\
  roundtrip_get #"output" [rocks; (#"output", PDict [(#"variables", PDict [(KS ($"mass"), PInt 1); (KS ($"MASS"), PInt 2)])])]
    = Ok (PDict [(#"variables", PDict [(KS ($"mass"), plist [plist [PInt 1]; plist [PInt 2]])])]).
Proof. cbv zeta; parts; byc. Qed.
Print Assumptions C17_refuted.
