(** C87: remarks between the blocks of an input file, and text after its end. *)
From Coq Require Import String Ascii ZArith Bool Lia Permutation List.
From Verif Require Import Base.Str Base.Digits Base.Flt.
From Verif Require Import Model.Py Model.Records Model.Write Model.Read.
From Verif Require Import Spec.Fields Spec.Values Spec.File Spec.BlockOrder Spec.Remarks.
From Verif Require Import Proofs.DictLemmas Proofs.FileProof Proofs.OrderProof Proofs.Samples.
From Verif Require Import Props.P22_File Props.P85_BlockOrder.
Import ListNotations.
Local Open Scope Z_scope.

(** C87.  A file written by the package is a title, the ROCKS block, the other blocks
    and the end line.  Remarks and blank lines may be put after ROCKS and after any of
    these blocks, and any text after the end line: the file is read as the same parameters,
    also when the blocks are put in another order. *)
Theorem C87_remarks : forall u p ll fuel, prepare u = Ok p -> FILE_ok p ->
  label_choice ll -> FILE_known (label_given ll) p -> (List.length (titles_of p) < fuel)%nat ->
  exists title rocks parts last, write_text u ($"all") = Ok (file_of title rocks parts last) /\
    List.length title = List.length (titles_of p) /\ opened_by ($"ROCKS") rocks /\ startswith ($"ENDCY") last = true /\
    map fst parts = blocks_given p /\ Forall (fun b => opened_by (fst b) (snd b)) parts /\
    read_text fuel ll (file_of title rocks parts last) = Ok (FILE_back p) /\
    forall before parts' after, Permutation parts (map fst parts') -> elements_first (map fst (map fst parts')) ->
      remarks before -> Forall remarks (map snd parts') -> after_end after ->
      exists d, read_text fuel ll (remarked title rocks before parts' last after) = Ok d /\ same_parameters (FILE_back p) d /\
        (map fst parts' = parts -> d = FILE_back p).
Proof. exact FILE_remarks. Qed.
Print Assumptions C87_remarks.

Definition C87_line (s : string) : str := list_ascii_of_string s ++ [nl].
Definition C87_written : list string := ["RPCAP"; "MULTI"; "START"; "PARAM"; "INDOM"; "TIMES"; "ELEME"; "COORD"; "NOVER"]%string.
Definition C87_noted (before : list string) (notes : list (list string)) (after : string) : str :=
  remarked (firstn 2 C85_lines) (C85_block "ROCKS" C85_lines) (map C87_line before)
    (combine (C85_parts C87_written) (map (map C87_line) notes)) (last C85_lines []) (nl :: list_ascii_of_string after).
Definition C87_notes : list (list string) :=
  [["# relative permeability"]; []; ["-- parameters --"; "12.5"]; [""; "   1.0"; "for the boundary"]; [" "]; ["* times *"; ""];
   ["! elements"]; []; ["the end"]]%string.
Lemma C87_plain s : forallb (fun c => negb (Ascii.eqb c nl)) (list_ascii_of_string s) = true ->
  forallb (fun kw => negb (startswith kw (C87_line s))) Simple.block_names = true -> plain_line (C87_line s).
Proof.
  intros H K. split; [exists (list_ascii_of_string s); split; [reflexivity|]|].
  - intros I. rewrite forallb_forall in H. specialize (H nl I). discriminate H.
  - intros kw I. rewrite forallb_forall in K. specialize (K kw I). now apply negb_true_iff in K.
Qed.
Example C87_example :
  let before := ["# the blocks"; ""; "20 of them"]%string in
  write_text C22_params ($"all") = Ok (file_of (firstn 2 C85_lines) (C85_block "ROCKS" C85_lines) (C85_parts C87_written) (last C85_lines [])) /\
  remarks (map C87_line before) /\ Forall remarks (map (map C87_line) C87_notes) /\
  read_text 100 None (C87_noted before C87_notes "PARAM and more") = Ok (FILE_back C22_full).
Proof.
  cbv zeta. split; [vm_compute; reflexivity|]. split; [|split].
  - split; [|reflexivity]. cbn [map]. repeat (apply Forall_cons; [apply C87_plain; reflexivity|]). apply Forall_nil.
  - unfold C87_notes. cbn [map]. repeat (apply Forall_cons; [split; [repeat (apply Forall_cons; [apply C87_plain; reflexivity|]); apply Forall_nil|first [exact I|reflexivity]]|]). apply Forall_nil.
  - vm_compute. reflexivity.
Qed.

(** C87.  Findings: a remark whose first word begins with the name of a block opens that block;
    a number on a line of its own after a PARAM block with one line of initial conditions is taken
    for the fifth of them; a remark inside
    a block is read as a record of it. *)
Theorem C87_refuted :
  let with_note := fun note blocks =>
    read_text 100 None (remarked (firstn 2 C85_lines) (C85_block "ROCKS" C85_lines) [C87_line note]
      (map (fun b => (b, [])) (C85_parts blocks)) (last C85_lines []) []) in
  let inside := fun note =>
    read_text 100 None (file_of (firstn 2 C85_lines) (match C85_block "ROCKS" C85_lines with h :: r => h :: C87_line note :: r | [] => [] end) [] (last C85_lines [])) in
  let after_param := fun note =>
    read_text 100 None (remarked (firstn 2 C85_lines) (C85_block "ROCKS" C85_lines) []
      (map (fun b => ((fst b, removelast (snd b)), [C87_line note])) (C85_parts ["PARAM"]%string)) (last C85_lines []) []) in
  (exists d, with_note "the run"%string [] = Ok d /\ dget #"start" d = None) /\
  (exists d, with_note "STARTING the run"%string [] = Ok d /\ dget #"start" d = Some (PBool true)) /\
  with_note "TIMES in seconds"%string [] = Err ValueError /\
  inside "# the rocks"%string = Err ValueError /\
  exists d d', after_param "year 2026"%string = Ok d /\ after_param "2026"%string = Ok d' /\
    dget #"initial_condition" (entries (val #"default" d)) = None /\
    dget #"initial_condition" (entries (val #"default" d')) = Some (PSeq SList [PNone; PNone; PNone; PNone; PFloat (flt_of_Z 2026)]).
Proof.
  cbv zeta. split; [eexists; split; [vm_compute; reflexivity|vm_compute; reflexivity]|].
  split; [eexists; split; [vm_compute; reflexivity|vm_compute; reflexivity]|].
  split; [vm_compute; reflexivity|]. split; [vm_compute; reflexivity|].
  eexists. eexists. split; [vm_compute; reflexivity|]. split; [vm_compute; reflexivity|]. split; vm_compute; reflexivity.
Qed.
Print Assumptions C87_refuted.
