(** C81: files of results are read as they stand. *)
From Coq Require Import String Ascii Arith ZArith QArith Bool Lia Sorted List.
From Verif Require Import Base.Str Base.Flt Base.FltRound Model.Py Model.Output Spec.Output Proofs.Samples Proofs.OutputSamples Proofs.ResultFileProof Proofs.ResultShape Spec.ResultFile.
Import ListNotations.
Local Open Scope nat_scope.

(** C81.  A CSV file with times, written with any spaces, quotes and digits: one output
    per line of time, in this order, with the labels and numbers of its rows. *)
Theorem C81_csv : forall t names steps ls connection label_length m, csv_file t names steps ls -> steps <> [] -> NoDup names ->
  Forall (fun s => even names (snd s) /\ List.length (snd s) = m) steps ->
  exists outs, read_output None connection label_length ls = Ok outs /\ Forall2 (fun s o => shows t $"csv" names (Some (fst s)) (snd s) o) steps outs.
Proof. exact csv_as_it_stands. Qed.
Print Assumptions C81_csv.
(** C81.  A CSV file without times: one output without time. *)
Theorem C81_table : forall t names rows ls connection label_length, csv_table t names rows ls -> NoDup names -> even names rows ->
  exists o, read_output None connection label_length ls = Ok [o] /\ shows t $"csv" names None rows o.
Proof. exact csv_table_as_it_stands. Qed.
Print Assumptions C81_table.
(** C81.  A PetraSim file with its rows in any order: one output per time, in order of
    time, with the rows of this time in their order. *)
Theorem C81_petrasim : forall names rows ls connection label_length, petrasim_file names rows ls -> NoDup names ->
  Forall (fun r => finite_number (fst (fst r)) /\ List.length (snd r) = List.length names) rows ->
  exists outs, read_output None connection label_length ls = Ok outs /\
    StronglySorted (fun o o' => forall t t', o_time o = Some t -> o_time o' = Some t' -> (fval t < fval t')%Q) outs /\
    (forall r, In r rows -> exists o t, In o outs /\ o_time o = Some t /\ (fval (fst (fst r)) == fval t)%Q) /\
    Forall (fun o => exists t, at_time t rows <> [] /\ shows Element $"petrasim" names (Some t) (at_time t rows) o) outs.
Proof. exact petrasim_as_it_stands. Qed.
Print Assumptions C81_petrasim.
(** C81.  Whatever the file is: outputs which are read have columns with different
    names, of one length, that of the labels. *)
Theorem C81_shape : forall order connection label_length ls outs, read_output order connection label_length ls = Ok outs -> Forall well_shaped outs.
Proof. exact output_shape. Qed.
Print Assumptions C81_shape.
(** C81.  Whatever the file is: reading ends, unless it looks like a Tecplot file (an
    equal sign in the first line) and has no line VARIABLES. *)
Theorem C81_ends : forall order connection label_length ls, read_output order connection label_length ls = Err Diverge <->
  (exists t, get_output_type ls = Ok (t, FTecplot)) /\ Forall (fun l => startswith $"VARIABLES" (upper (strip l)) = false) ls.
Proof. exact output_ends. Qed.
Print Assumptions C81_ends.

(** A CSV file with irregular spaces. *)
Definition C81_line (s : string) : str := lit s ++ [nl].
Definition C81_lines : list str := map C81_line
  ["""ELEM"" ,X,""  PRES """; "anything"; """TIME [sec]  1e0"" "; " AAA10, 1.5,  2.E1"; """AAA11"" ,3, 4"; """TIME 2.00"; "AAA10,-1.5, 0"; "AAA11,.5,1"; "  "; "not read"]%string.
Definition C81_steps : list (flt * list (list str * list flt)) :=
  [(real 1 0, [([$"AAA10"], [real 15 (-1); real 20 0]); ([$"AAA11"], [real 3 0; real 4 0])]); (real 2 0, [([$"AAA10"], [real (-15) (-1); real 0 0]); ([$"AAA11"], [real 5 (-1); real 1 0])])].
Ltac C81_numbers := repeat (apply Forall2_cons; [vm_compute; reflexivity|]); apply Forall2_nil.
Ltac C81_row ts := exists ts; split; [vm_compute; reflexivity|]; split; [reflexivity|]; split; [C81_numbers|]; split; [vm_compute; discriminate|vm_compute; reflexivity].
Example C81_case :
  csv_file Element [$"X"; $"PRES"] C81_steps C81_lines /\
  (exists o1 o2, read_output None false None C81_lines = Ok [o1; o2] /\ o_time o1 = Some (real 1 0) /\ o_labels o2 = Some [[$"AAA10"]; [$"AAA11"]] /\
     o_data o1 = [($"X", [real 15 (-1); real 3 0]); ($"PRES", [real 20 0; real 4 0])]) /\
  (forall connection label_length, exists outs, read_output None connection label_length C81_lines = Ok outs /\ Forall2 (fun s o => shows Element $"csv" [$"X"; $"PRES"] (Some (fst s)) (snd s) o) C81_steps outs).
Proof.
  assert (C : csv_file Element [$"X"; $"PRES"] C81_steps C81_lines).
  { exists (nth 0 C81_lines []), (nth 1 C81_lines []), [firstn 3 (skipn 2 C81_lines); firstn 3 (skipn 5 C81_lines)], (skipn 8 C81_lines). split; [vm_compute; reflexivity|]. split; [split; [vm_compute; intuition discriminate|vm_compute; reflexivity]|]. split; [vm_compute; reflexivity|].
    apply Forall2_cons; [|apply Forall2_cons; [|apply Forall2_nil]].
    - exists (nth 2 C81_lines []), (firstn 2 (skipn 3 C81_lines)). split; [vm_compute; reflexivity|]. split; [split; [vm_compute; reflexivity|]; exists [$"TIME"; $"[sec]"], $"1e0"; split; vm_compute; reflexivity|].
      apply Forall2_cons; [C81_row [$"1.5"; $"2.E1"]|apply Forall2_cons; [C81_row [$"3"; $"4"]|apply Forall2_nil]].
    - exists (nth 5 C81_lines []), (firstn 2 (skipn 6 C81_lines)). split; [vm_compute; reflexivity|]. split; [split; [vm_compute; reflexivity|]; exists [$"TIME"], $"2.00"; split; vm_compute; reflexivity|].
      apply Forall2_cons; [C81_row [$"-1.5"; $"0"]|apply Forall2_cons; [C81_row [$".5"; $"1"]|apply Forall2_nil]]. }
  split; [exact C|]. split.
  - do 2 eexists. split; [vm_compute; reflexivity|]. split; [vm_compute; reflexivity|]. split; vm_compute; reflexivity.
  - intros connection label_length. apply (C81_csv Element [$"X"; $"PRES"] C81_steps C81_lines connection label_length 2 C).
    + discriminate.
    + apply nodupb_ok. vm_compute. reflexivity.
    + repeat (apply Forall_cons; [split; [split; [discriminate|repeat (apply Forall_cons; [reflexivity|]); apply Forall_nil]|reflexivity]|]). apply Forall_nil.
Qed.
(** Connections without times, and a PetraSim file with its rows in disorder. *)
Definition C81_conne : list str := map C81_line ["ELEM1,ELEM2,HEAT"; ""; "AAA10,AAA11,1e-3"; "AAA11,AAA12, 2"]%string.
Definition C81_petra : list str := map C81_line ["TIME [sec],ELEM,INDEX, P"; "2,AAA10,1,7"; "1,AAA10,1,5"; "2.0, AAA11 ,x,8"; "1.,AAA11,,6"]%string.
Example C81_case_others :
  csv_table Connection [$"HEAT"] [([$"AAA10"; $"AAA11"], [real 1 (-3)]); ([$"AAA11"; $"AAA12"], [real 2 0])] C81_conne /\
  petrasim_file [$"P"] [(real 2 0, $"AAA10", [real 7 0]); (real 1 0, $"AAA10", [real 5 0]); (real 2 0, $"AAA11", [real 8 0]); (real 1 0, $"AAA11", [real 6 0])] C81_petra /\
  exists o1 o2, read_output None false None C81_petra = Ok [o1; o2] /\ o_data o1 = [($"P", [real 5 0; real 6 0])] /\ o_data o2 = [($"P", [real 7 0; real 8 0])] /\ well_shaped o1.
Proof.
  split; [|split].
  - exists (nth 0 C81_conne []), (nth 1 C81_conne []), (skipn 2 C81_conne), []. split; [vm_compute; reflexivity|]. split; [split; [vm_compute; intuition discriminate|exists $"ELEM2"; vm_compute; reflexivity]|]. split; [exact I|].
    apply Forall2_cons; [C81_row [$"1e-3"]|apply Forall2_cons; [C81_row [$"2"]|apply Forall2_nil]].
  - exists (nth 0 C81_petra []), (skipn 1 C81_petra), []. split; [vm_compute; reflexivity|]. split; [vm_compute; intuition discriminate|]. split; [vm_compute; reflexivity|]. split; [exists $"TIME [sec]", $"ELEM", $"INDEX"; vm_compute; reflexivity|]. split; [exact I|].
    apply Forall2_cons; [exists $"2", $"1", [$"7"]; split; [vm_compute; reflexivity|split; [vm_compute; reflexivity|C81_numbers]]|].
    apply Forall2_cons; [exists $"1", $"1", [$"5"]; split; [vm_compute; reflexivity|split; [vm_compute; reflexivity|C81_numbers]]|].
    apply Forall2_cons; [exists $"2.0", $"x", [$"8"]; split; [vm_compute; reflexivity|split; [vm_compute; reflexivity|C81_numbers]]|].
    apply Forall2_cons; [exists $"1.", [], [$"6"]; split; [vm_compute; reflexivity|split; [vm_compute; reflexivity|C81_numbers]]|]. apply Forall2_nil.
  - do 2 eexists. split; [vm_compute; reflexivity|]. split; [vm_compute; reflexivity|]. split; [vm_compute; reflexivity|].
    match goal with |- well_shaped ?o => assert (R : Forall well_shaped (match read_output None false None C81_petra with Ok l => l | _ => [] end)) end.
    { destruct (read_output None false None C81_petra) eqn:E; [exact (C81_shape _ _ _ _ _ E)|constructor]. }
    vm_compute in R. inversion R. assumption.
Qed.
(** Reading which never ends. *)
Example C81_case_endless : read_output None false None [C81_line "TITLE = run"%string; C81_line "ZONE I = 1"%string] = Err Diverge.
Proof. apply C81_ends. split; [exists Element; vm_compute; reflexivity|]. repeat (apply Forall_cons; [vm_compute; reflexivity|]). apply Forall_nil. Qed.

(** C81 fails for Tecplot files with more rows than announced: such a file is read
    without error, one row is lost, and the following rows become a further output with
    the same time. *)
Definition C81_zones (ls : list str) : nat := List.length (filter (startswith $"ZONE") ls).
Definition C81_tec : list str := map C81_line ["VARIABLES = X Y"; "ZONE T=""5.0 SEC"" I = 1"; "1.0 10.0"; "2.0 20.0"; "3.0 30.0"]%string.
Theorem C81_tecplot_refuted : ~ (forall ls outs, get_output_type ls = Ok (Element, FTecplot) -> read_output None false None ls = Ok outs -> List.length outs = C81_zones ls) /\
  exists o1 o2, read_output None false None C81_tec = Ok [o1; o2] /\ o_time o1 = Some (real 5 0) /\ o_time o2 = Some (real 5 0) /\ o_data o1 = [($"X", [real 1 0]); ($"Y", [real 10 0])] /\ o_data o2 = [($"X", [real 3 0]); ($"Y", [real 30 0])].
Proof.
  assert (R : exists o1 o2, read_output None false None C81_tec = Ok [o1; o2] /\ o_time o1 = Some (real 5 0) /\ o_time o2 = Some (real 5 0) /\ o_data o1 = [($"X", [real 1 0]); ($"Y", [real 10 0])] /\ o_data o2 = [($"X", [real 3 0]); ($"Y", [real 30 0])]).
  { do 2 eexists. split; [vm_compute; reflexivity|]. split; [vm_compute; reflexivity|]. split; [vm_compute; reflexivity|]. split; vm_compute; reflexivity. }
  split; [|exact R]. intros H. destruct R as (o1 & o2 & R & _). assert (T : get_output_type C81_tec = Ok (Element, FTecplot)) by (vm_compute; reflexivity). specialize (H C81_tec [o1; o2] T R). vm_compute in H. discriminate H.
Qed.
Print Assumptions C81_tecplot_refuted.
(** C81 fails for a CSV file with a blank line: what follows is left out, without error. *)
Definition C81_times (ls : list str) : nat := List.length (filter (startswith (quote :: $"TIME")) ls).
Definition C81_blank : list str := map C81_line ["ELEM,P"; ""; """TIME 1"""; "AAA10,5"; ""; """TIME 2"""; "AAA10,6"]%string.
Theorem C81_blank_refuted : ~ (forall ls outs, get_output_type ls = Ok (Element, FCsv) -> read_output None false None ls = Ok outs -> List.length outs = C81_times ls).
Proof.
  intros H. assert (R : exists o, read_output None false None C81_blank = Ok [o]) by (eexists; vm_compute; reflexivity). destruct R as (o & R).
  assert (T : get_output_type C81_blank = Ok (Element, FCsv)) by (vm_compute; reflexivity). specialize (H C81_blank [o] T R). vm_compute in H. discriminate H.
Qed.
Print Assumptions C81_blank_refuted.
