(** C21: the title, and when reading ends. *)
From Coq Require Import String Ascii ZArith Bool Lia List.
From Verif Require Import Base.Str Base.Digits Base.Flt.
From Verif Require Import Model.Py Model.Records Model.Write Model.Read.
From Verif Require Import Spec.Fields Spec.Values Spec.Simple Spec.File.
From Verif Require Import Proofs.DictLemmas Proofs.FileProof Proofs.FileKeys Proofs.Ending Proofs.Samples.
Import ListNotations.
Local Open Scope Z_scope.

(** C21.  Reading a text ends, with a result or an error that does not depend
    on the number of steps allowed, exactly when the title ends; otherwise it
    goes on for any number of steps. *)
Theorem C21_ends : forall t ll, label_length_ok ll = true ->
  (title_ends (lines t) = true -> exists r, r <> Err Diverge /\
     forall fuel, (List.length (lines t) <= fuel)%nat -> read_text fuel ll t = r) /\
  (title_ends (lines t) = false -> forall fuel, read_text fuel ll t = Err Diverge).
Proof. exact read_ends. Qed.
Print Assumptions C21_ends.

(** C21.  Other label lengths are refused. *)
Theorem C21_refuses : forall t ll fuel, label_length_ok ll = false -> read_text fuel ll t = Err ValueError.
Proof. exact read_refuses. Qed.
Print Assumptions C21_refuses.

(** C21.  The title lines written are those read. *)
Theorem C21_title : forall u p ll fuel, prepare u = Ok p -> FILE_ok p ->
  label_choice ll -> FILE_known (label_given ll) p -> (List.length (titles_of p) < fuel)%nat ->
  exists t q, write_text u ($"all") = Ok t /\ read_text fuel ll t = Ok q /\
    dget #"title" q = match titles_of p with [] => None | l => Some (one_or_list l) end.
Proof. exact title_roundtrip. Qed.
Print Assumptions C21_title.

Example C21_example :
  let text := fun l => concat (map (fun s => lit s ++ [nl]) l) in
  title_ends (lines (text ["A title"; "of two lines"; "  ROCKS----1"; ""; "ENDCY"]%string)) = true /\
  read_text 5 None (text ["A title"; "of two lines"; "ROCKS----1"; ""; "ENDCY"]%string)
    = Ok [(#"title", PSeq SList [PStr ($"A title"); PStr ($"of two lines")]); (#"rocks", PDict []); (#"rocks_order", PSeq SList [])] /\
  title_ends (lines (text ["GENER"; ""]%string)) = true /\
  title_ends (lines (text ["A title"; "PARAM"]%string)) = false.
Proof. cbv zeta; parts; byc. Qed.

(** C21.  Findings: a file without ROCKS block, such as a file holding only
    connections, or an empty file, is read for ever; a title line that starts
    with the name of a block is read as this block. *)
Theorem C21_refuted :
  (forall fuel, read_text fuel None [] = Err Diverge) /\
  (forall fuel, read_text fuel None ($"CONNE") = Err Diverge) /\
  let rocks := (#"rocks", PDict [(KS ($"SAND"), PDict [])]) in
  roundtrip_get #"start" [rocks; (#"start", PBool false); (#"title", PStr ($"START of the run"))] = Ok (PBool true) /\
  roundtrip_get #"title" [rocks; (#"title", PStr ($"TIMES of the run"))] = Err ValueError /\
  roundtrip_get #"title" [rocks; (#"title", PSeq SList [PStr ($"A title"); PStr ($"ROCKS and more")])] = Err ValueError.
Proof.
  split; [|split].
  - apply (proj2 (read_ends [] None eq_refl)). byc.
  - apply (proj2 (read_ends ($"CONNE") None eq_refl)). byc.
  - cbv zeta; parts; byc.
Qed.
Print Assumptions C21_refuted.
