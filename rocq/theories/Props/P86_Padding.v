(** C86: blanks at the ends of the lines of an input file. *)
From Coq Require Import String Ascii ZArith Bool List.
From Verif Require Import Base.Str Base.Digits Base.Flt.
From Verif Require Import Model.Py Model.Records Model.Write Model.Read.
From Verif Require Import Spec.Fields Spec.Values Spec.File Spec.Padding.
From Verif Require Import Proofs.FileProof Proofs.PaddingProof Proofs.Samples.
From Verif Require Import Props.P22_File.
Import ListNotations.

(** C86.  Any file that is read is read as the same parameters after blanks are added at
    the ends of lines. *)
Theorem C86_padded : forall t t' fuel ll d, same_but_ends t t' -> not_shorter t t' ->
  read_text fuel ll t = Ok d -> read_text fuel ll t' = Ok d.
Proof. exact padded_read. Qed.
Print Assumptions C86_padded.

(** C86.  After any change of the blanks at the ends of lines, it is read as the same
    parameters or refused with TypeError. *)
Theorem C86_trailing : forall t t' fuel ll d, same_but_ends t t' ->
  read_text fuel ll t = Ok d -> read_text fuel ll t' = Ok d \/ read_text fuel ll t' = Err TypeError.
Proof. exact trailing_read. Qed.
Print Assumptions C86_trailing.

Definition C86_text : str := Eval vm_compute in match write_text C22_params ($"all") with Ok t => t | Err _ => [] end.
Definition C86_padded_text : str := concat (map (fun l => rstrip l ++ spaces 90 ++ [nl]) (lines C86_text)).
Definition C86_cut_text : str := concat (map (fun l => rstrip l ++ [nl]) (lines C86_text)).
Example C86_example :
  same_but_ends C86_text C86_padded_text /\ not_shorter C86_text C86_padded_text /\ C86_text <> C86_padded_text /\
  read_text 100 None C86_text = Ok (FILE_back C22_full) /\ read_text 100 None C86_padded_text = Ok (FILE_back C22_full).
Proof.
  split; [apply check_texts; vm_compute; reflexivity|]. split; [apply check_lengths; vm_compute; reflexivity|]. split; [vm_compute; discriminate|].
  split; vm_compute; reflexivity.
Qed.

(** C86.  Finding: a file written by the package, without the blanks at the ends of
    its lines (as editors leave it), is refused: the first line of PARAM must reach the
    columns of the extra options. *)
Theorem C86_refuted :
  write_text C22_params ($"all") = Ok C86_text /\ same_but_ends C86_text C86_cut_text /\
  Forall (fun l => rstrip l ++ [nl] = l) (lines C86_cut_text) /\
  read_text 100 None C86_text = Ok (FILE_back C22_full) /\ read_text 100 None C86_cut_text = Err TypeError.
Proof.
  split; [vm_compute; reflexivity|]. split; [apply check_texts; vm_compute; reflexivity|].
  split; [|split; vm_compute; reflexivity].
  let l := eval vm_compute in (lines C86_cut_text) in change (lines C86_cut_text) with l. repeat (apply Forall_cons; [reflexivity|]). apply Forall_nil.
Qed.
Print Assumptions C86_refuted.
