(** C85: the blocks of an input file in another order. *)
From Coq Require Import String Ascii ZArith Bool Lia Permutation List.
From Verif Require Import Base.Str Base.Digits Base.Flt.
From Verif Require Import Model.Py Model.Records Model.Write Model.Read.
From Verif Require Import Spec.Fields Spec.Values Spec.File Spec.BlockOrder.
From Verif Require Import Proofs.DictLemmas Proofs.FileProof Proofs.OrderProof Proofs.Samples.
From Verif Require Import Props.P22_File.
Import ListNotations.
Local Open Scope Z_scope.

(** C85.  A file written by the package is a title, the ROCKS block, the other blocks
    and the end line.  The other blocks may be put in any order that keeps ELEME before
    COORD: the file is read as the same parameters. *)
Theorem C85_order : forall u p ll fuel, prepare u = Ok p -> FILE_ok p ->
  label_choice ll -> FILE_known (label_given ll) p -> (List.length (titles_of p) < fuel)%nat ->
  exists title rocks parts last, write_text u ($"all") = Ok (file_of title rocks parts last) /\
    List.length title = List.length (titles_of p) /\ opened_by ($"ROCKS") rocks /\ startswith ($"ENDCY") last = true /\
    map fst parts = blocks_given p /\ Forall (fun b => opened_by (fst b) (snd b)) parts /\
    read_text fuel ll (file_of title rocks parts last) = Ok (FILE_back p) /\
    forall parts', Permutation parts parts' -> elements_first (map fst parts') ->
      exists d, read_text fuel ll (file_of title rocks parts' last) = Ok d /\ same_parameters (FILE_back p) d.
Proof. exact FILE_any_order. Qed.
Print Assumptions C85_order.

Definition C85_block (kw : string) (l : list str) : list str :=
  let fix until (l : list str) : list str :=
    match l with
    | [] => []
    | x :: r => if existsb (fun k => startswith k x) ($"ENDCY" :: $"ROCKS" :: middle_names) then [] else x :: until r
    end in
  let fix from (l : list str) : list str :=
    match l with
    | [] => []
    | x :: r => if startswith (list_ascii_of_string kw) x then x :: until r else from r
    end in from l.
Definition C85_lines : list str := Eval vm_compute in match write_text C22_params ($"all") with Ok t => lines t | Err _ => [] end.
Definition C85_parts (kws : list string) : list (str * list str) := map (fun k => (list_ascii_of_string k, C85_block k C85_lines)) kws.
Definition C85_file (kws : list string) : str := file_of (firstn 2 C85_lines) (C85_block "ROCKS" C85_lines) (C85_parts kws) (last C85_lines []).
Definition C85_turned : list string := ["NOVER"; "ELEME"; "TIMES"; "COORD"; "INDOM"; "PARAM"; "RPCAP"; "START"; "MULTI"]%string.
Example C85_example :
  let written := ["RPCAP"; "MULTI"; "START"; "PARAM"; "INDOM"; "TIMES"; "ELEME"; "COORD"; "NOVER"]%string in
  write_text C22_params ($"all") = Ok (C85_file written) /\ blocks_given C22_full = map list_ascii_of_string written /\
  Permutation (C85_parts written) (C85_parts C85_turned) /\ elements_first (map fst (C85_parts C85_turned)) /\
  exists d, read_text 100 None (C85_file C85_turned) = Ok d /\
    dkeys d = [#"title"; #"rocks"; #"rocks_order"; #"nover"; #"elements"; #"elements_order"; #"coordinates"; #"times"; #"options";
      #"extra_options"; #"default"; #"start"; #"n_component"; #"isothermal"; #"n_phase"] /\
    val #"elements" d = val #"elements" (FILE_back C22_full) /\ val #"rocks" d = val #"rocks" (FILE_back C22_full) /\
    val #"default" d = val #"default" (FILE_back C22_full).
Proof.
  cbv zeta. split; [vm_compute; reflexivity|]. split; [vm_compute; reflexivity|]. split; [|split].
  - unfold C85_parts, C85_turned. apply Permutation_map.
    apply (Permutation_trans (Permutation_rev _)). cbn [rev app].
    apply perm_skip. apply (Permutation_trans (perm_swap _ _ _)). apply perm_skip. apply (Permutation_trans (perm_swap _ _ _)). do 4 apply perm_skip.
    exact (Permutation_sym (Permutation_cons_append ["START"; "MULTI"]%string "RPCAP"%string)).
  - intros a b E. unfold C85_parts in E. rewrite map_map in E. cbn [map fst C85_turned] in E.
    do 4 (destruct a as [|? a]; [discriminate E|]; injection E as <- E; try (right; left; reflexivity)).
  - eexists. split; [vm_compute; reflexivity|]. split; [vm_compute; reflexivity|]. split; [vm_compute; reflexivity|]. split; vm_compute; reflexivity.
Qed.

(** C85.  Findings: COORD before ELEME, or INDOM before ROCKS, cannot be read; a block before
    ROCKS is read, and its lines are added to the title. *)
Theorem C85_refuted :
  let moved := fun kw => file_of (firstn 2 C85_lines) [] (C85_parts [kw; "ROCKS"]%string) (last C85_lines []) in
  read_text 100 None (C85_file ["COORD"; "ELEME"]%string) = Err KeyError /\
  read_text 100 None (moved "INDOM"%string) = Err KeyError /\
  exists d, read_text 100 None (moved "TIMES"%string) = Ok d /\ val #"times" d = val #"times" (FILE_back C22_full) /\
    val #"title" d = PSeq SList (map (fun l => PStr (strip l)) (firstn 2 C85_lines ++ C85_block "TIMES" C85_lines)).
Proof.
  cbv zeta. split; [vm_compute; reflexivity|]. split; [vm_compute; reflexivity|]. eexists. split; [vm_compute; reflexivity|].
  split; vm_compute; reflexivity.
Qed.
Print Assumptions C85_refuted.
