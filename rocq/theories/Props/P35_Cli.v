(** C35 and C36: the commands merge and save2incon. *)
From Coq Require Import String Ascii Bool Lia List.
From Verif Require Import Base.Str Model.Py Model.Cli Spec.Cli Proofs.CliProof.
Import ListNotations.

(** C35.  The mesh and the initial conditions are inserted just before the first
    end line; nothing else changes. *)
Theorem C35_merge : forall d infile outfile text mesh A e B,
  d infile = Some text -> d (beside infile $"MESH") = Some mesh ->
  lines text = A ++ e :: B -> Forall (fun l => ~ end_line l) A -> end_line e -> three block_line (lines text) ->
  first_line_starts "ELEME" mesh ->
  (forall incon, d (beside infile $"INCON") = Some incon -> first_line_starts "INCON" incon) ->
  merge d infile outfile =
  (Ok tt, store d outfile (concat A ++ mesh ++ match d (beside infile $"INCON") with Some i => i | None => [] end ++ e ++ concat B)).
Proof. exact merge_ok. Qed.
Print Assumptions C35_merge.
Definition deck : str := $"title" ++ nl :: $"ROCKS" ++ nl :: $"PARAM" ++ nl :: $"endcy" ++ nl :: $"notes" ++ [nl].
Definition files35 : disk := fun n =>
  if streqb n $"run/flow.inp" then Some deck
  else if streqb n $"run/MESH" then Some ($"ELEME" ++ nl :: $"A1100" ++ [nl])
  else if streqb n $"run/INCON" then Some ($"INCON" ++ [nl])
  else None.
Definition line (s : string) : str := lit s ++ [nl].
Example C35_merge_case :
  files35 $"run/flow.inp" = Some deck /\ beside $"run/flow.inp" $"MESH" = $"run/MESH" /\
  lines deck = [line "title"; line "ROCKS"; line "PARAM"] ++ line "endcy" :: [line "notes"] /\
  Forall (fun l => ~ end_line l) [line "title"; line "ROCKS"; line "PARAM"] /\ end_line (line "endcy") /\
  three block_line (lines deck) /\
  snd (merge files35 $"run/flow.inp" $"out") $"out" =
  Some (concat [line "title"; line "ROCKS"; line "PARAM"; line "ELEME"; line "A1100"; line "INCON"; line "endcy"; line "notes"]).
Proof.
  split; [reflexivity|]. split; [reflexivity|]. split; [reflexivity|].
  split; [apply Forall_forall; intros l H X; apply is_end_spec in X; repeat (destruct H as [<- | H]; [vm_compute in X; discriminate|]); destruct H|].
  split; [apply is_end_spec; vm_compute; reflexivity|]. split; [apply three_spec; vm_compute; reflexivity|]. vm_compute. reflexivity.
Qed.

(** C35.  The files looked for are those in the directory of the input file. *)
Theorem C35_directory : forall name f, ~ In "/"%char name ->
  beside name f = f /\
  (forall dir c, c <> "/"%char -> beside ((dir ++ [c]) ++ "/"%char :: name) f = (dir ++ [c]) ++ "/"%char :: f).
Proof. intros name f N. exact (conj (beside_here name f N) (fun dir c C => beside_dir dir c name f N C)). Qed.
Print Assumptions C35_directory.
Example C35_directory_case : beside $"a/b/flow.inp" $"MESH" = $"a/b/MESH".
Proof. vm_compute. reflexivity. Qed.

(** C35.  An input file without three block or end lines, a missing or strange
    mesh file, strange initial conditions: refused, and no file changes. *)
Theorem C35_refuses : forall d infile outfile,
  (d infile = None \/ d (beside infile $"MESH") = None \/
   (exists t, d infile = Some t /\ ~ three block_line (lines t)) \/
   (exists t, d (beside infile $"MESH") = Some t /\ ~ first_line_starts "ELEME" t) \/
   (exists t, d (beside infile $"INCON") = Some t /\ ~ first_line_starts "INCON" t)) ->
  exists x, merge d infile outfile = (Err x, d).
Proof. exact merge_refuses. Qed.
Print Assumptions C35_refuses.
Example C35_refuses_case : fst (merge (store files35 $"run/MESH" $"CONNE") $"run/flow.inp" $"out") = Err ValueError.
Proof. vm_compute. reflexivity. Qed.
Theorem C35_all_or_nothing : forall d infile outfile,
  (forall x d', merge d infile outfile = (Err x, d') -> d' = d) /\
  (forall n, n <> outfile -> snd (merge d infile outfile) n = d n).
Proof. intros d i o. exact (conj (merge_all_or_nothing d i o) (merge_touches d i o)). Qed.
Print Assumptions C35_all_or_nothing.

(** C35 fails without an end line: the mesh goes before the last line. *)
Definition noend : str := concat [line "ROCKS"; line "PARAM"; line "ROCKS"; line "last"].
Definition files_noend : disk :=
  fun n => if streqb n $"flow.inp" then Some noend else if streqb n $"MESH" then Some (line "ELEME") else None.
Theorem C35_no_end_refuted : exists d, (forall t, d $"flow.inp" = Some t -> Forall (fun l => ~ end_line l) (lines t)) /\
  merge d $"flow.inp" $"out" = (Ok tt, store d $"out" (concat [line "ROCKS"; line "PARAM"; line "ROCKS"; line "ELEME"; line "last"])).
Proof.
  exists files_noend. split.
  - intros t E. injection E as <-. apply Forall_forall; intros l H X; apply is_end_spec in X. vm_compute in H.
    repeat (destruct H as [<- | H]; [vm_compute in X; discriminate|]); destruct H.
  - unfold merge. assert (E : merged files_noend $"flow.inp" = Ok (concat [line "ROCKS"; line "PARAM"; line "ROCKS"; line "ELEME"; line "last"]))
      by (vm_compute; reflexivity).
    rewrite E. reflexivity.
Qed.
Print Assumptions C35_no_end_refuted.

(** C35 needs the last line of MESH to be complete: otherwise the end line is
    joined to it and the merged file has none. *)
Theorem C35_glued_refuted : exists d out, merge d $"run/flow.inp" $"out" = (Ok tt, store d $"out" out) /\
  (exists t, d $"run/flow.inp" = Some t /\ exists l, In l (lines t) /\ end_line l) /\ Forall (fun l => ~ end_line l) (lines out).
Proof.
  set (d := store (store files35 $"run/MESH" $"ELEME") $"run/INCON" $"INCON").
  exists d, (concat [line "title"; line "ROCKS"; line "PARAM"; lit "ELEMEINCONendcy" ++ [nl]; line "notes"]). split; [|split].
  - unfold merge. assert (E : merged d $"run/flow.inp" = Ok (concat [line "title"; line "ROCKS"; line "PARAM"; lit "ELEMEINCONendcy" ++ [nl]; line "notes"]))
      by (vm_compute; reflexivity). rewrite E. reflexivity.
  - exists deck. split; [reflexivity|]. exists (line "endcy"). split; [vm_compute; tauto|]. apply is_end_spec. vm_compute. reflexivity.
  - apply Forall_forall; intros l H X; apply is_end_spec in X. vm_compute in H.
    repeat (destruct H as [<- | H]; [vm_compute in X; discriminate|]); destruct H.
Qed.
Print Assumptions C35_glued_refuted.

(** C36.  Without reset the file is copied. *)
Theorem C36_copy : forall d infile outfile text, d infile = Some text -> infile <> outfile -> first_line_starts "INCON" text ->
  save2incon d infile outfile false = (Ok tt, store (store d outfile []) outfile text).
Proof. exact save2incon_copy. Qed.
Print Assumptions C36_copy.
(** C36.  With reset it is cut before the first line that starts with +++, and a
    blank line is added. *)
Theorem C36_reset : forall d infile outfile text (A B : list str),
  d infile = Some text -> infile <> outfile -> first_line_starts "INCON" text ->
  lines text = A ++ B -> Forall (fun l : str => ~ exists r : str, l = $"+++" ++ r) A -> (B = [] \/ exists p C, B = ($"+++" ++ p) :: C) ->
  save2incon d infile outfile true = (Ok tt, store (store d outfile []) outfile (concat A ++ [nl])).
Proof. exact save2incon_reset. Qed.
Print Assumptions C36_reset.
Definition save36 : str := concat [line "INCON"; line "A1100"; line "+++"; line " 1 2"].
Definition files36 : disk := fun n => if streqb n $"SAVE" then Some save36 else if streqb n $"INCON" then Some $"old" else None.
Example C36_case : first_line_starts "INCON" save36 /\
  lines save36 = [line "INCON"; line "A1100"] ++ [line "+++"; line " 1 2"] /\
  snd (save2incon files36 $"SAVE" $"INCON" true) $"INCON" = Some (concat [line "INCON"; line "A1100"; line ""]) /\
  snd (save2incon files36 $"SAVE" $"INCON" false) $"INCON" = Some save36.
Proof. split; [eexists; vm_compute; reflexivity|]. vm_compute. repeat split. Qed.
(** C36.  No other file changes. *)
Theorem C36_touches : forall d infile outfile reset n, n <> outfile -> snd (save2incon d infile outfile reset) n = d n.
Proof. exact save2incon_touches. Qed.
Print Assumptions C36_touches.

(** C36: a refused file has already emptied the output. *)
Theorem C36_refused_refuted : forall d infile outfile reset text, d infile = Some text -> infile <> outfile -> text <> [] ->
  ~ first_line_starts "INCON" text ->
  save2incon d infile outfile reset = (Err ValueError, store d outfile []).
Proof. exact save2incon_refused. Qed.
Print Assumptions C36_refused_refuted.
Example C36_refused_case : snd (save2incon (store files36 $"SAVE" (line "ELEME")) $"SAVE" $"INCON" false) $"INCON" = Some [] /\ files36 $"INCON" = Some $"old".
Proof. vm_compute. repeat split. Qed.
(** C36: converting a file in place loses it. *)
Theorem C36_in_place_refuted : forall d f text, d f = Some text ->
  save2incon d f f false = (Ok tt, store (store d f []) f []).
Proof. exact save2incon_same. Qed.
Print Assumptions C36_in_place_refuted.
Example C36_in_place_case : snd (save2incon files36 $"SAVE" $"SAVE" false) $"SAVE" = Some [].
Proof. vm_compute. reflexivity. Qed.
