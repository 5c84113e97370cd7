(** C66: toughio-extract. *)
From Coq Require Import String Ascii ZArith Bool Lia Permutation List.
From Verif Require Import Base.Str Base.Flt Base.FltText Base.FltArith Model.Py Model.Records Model.Write Model.Read Model.Dispatch
  Model.Output Model.Cli Model.Extract.
From Verif Require Import Spec.Output Spec.Values Spec.Mesh Spec.Dispatch Spec.Extract.
From Verif Require Import Proofs.ExtractProof Proofs.Samples Proofs.OutputSamples.
Import ListNotations.
Local Open Scope Z_scope.

(** C66.  In the CSV file written, every row of every time step has the
    coordinates of its own element (or the middle of its two elements), and what
    the listing says of it. *)
Theorem C66_csv : forall fuel d a infile mesh p els outs ls,
  d (x_infile a) = Some infile -> d (x_mesh a) = Some mesh ->
  read_text fuel (x_length a) mesh = Ok p -> dget #"elements" p = Some (PDict els) ->
  read_output None (x_connection a) (option_map Z.to_nat (x_length a)) (lines infile) = Ok outs ->
  outs <> [] -> ls <> [] ->
  Forall (fun o => o_format o = $"tough" /\ o_labels o = Some ls /\ no_coordinates o) outs ->
  Forall (fun l => label_kind (x_connection a) l /\ exists pt, place p l pt) ls ->
  x_format a = XCsv -> forall t n, csv_sheets t n outs -> no_equal_sign outs -> coordinates_f64 p ls ->
  forall f, target (x_output a) (x_connection a) (x_format a) f -> x_split a = false \/ List.length outs = 1%nat ->
  exists text outs1 outs2, extract fuel d a = (Ok tt, store d f text) /\
    Forall2 (with_places p) outs outs1 /\ (forall b len, read_output None b len (lines text) = Ok outs2) /\
    Forall2 (comes_back $"csv" 8 12 true) outs1 outs2.
Proof. exact extract_csv. Qed.
Print Assumptions C66_csv.

(** C66.  The same for the other formats: the file holds the outputs with their
    coordinates. *)
Theorem C66_formats : forall fuel d a infile mesh p els outs ls,
  d (x_infile a) = Some infile -> d (x_mesh a) = Some mesh ->
  read_text fuel (x_length a) mesh = Ok p -> dget #"elements" p = Some (PDict els) ->
  read_output None (x_connection a) (option_map Z.to_nat (x_length a)) (lines infile) = Ok outs ->
  outs <> [] -> ls <> [] ->
  Forall (fun o => o_format o = $"tough" /\ o_labels o = Some ls /\ no_coordinates o) outs ->
  Forall (fun l => label_kind (x_connection a) l /\ exists pt, place p l pt) ls ->
  forall f text, target (x_output a) (x_connection a) (x_format a) f -> x_connection a && negb (is_csv (x_format a)) = false ->
  x_split a = false \/ List.length outs = 1%nat ->
  exists outs', Forall2 (with_places p) outs outs' /\
    (write_output (x_format a) outs' = Ok text -> extract fuel d a = (Ok tt, store d f text)).
Proof. exact extract_whole. Qed.
Print Assumptions C66_formats.

(** C66.  With --split, one file per time step, numbered from 1, and no other file
    changes. *)
Theorem C66_split : forall fuel d a infile mesh p els outs ls,
  d (x_infile a) = Some infile -> d (x_mesh a) = Some mesh ->
  read_text fuel (x_length a) mesh = Ok p -> dget #"elements" p = Some (PDict els) ->
  read_output None (x_connection a) (option_map Z.to_nat (x_length a)) (lines infile) = Ok outs ->
  outs <> [] -> ls <> [] ->
  Forall (fun o => o_format o = $"tough" /\ o_labels o = Some ls /\ no_coordinates o) outs ->
  Forall (fun l => label_kind (x_connection a) l /\ exists pt, place p l pt) ls ->
  x_format a = XCsv -> forall t n, csv_sheets t n outs -> no_equal_sign outs -> coordinates_f64 p ls ->
  forall f, target (x_output a) (x_connection a) (x_format a) f -> x_split a = true -> List.length outs <> 1%nat ->
  exists d1 outs1 names, extract fuel d a = (Ok tt, d1) /\ Forall2 (with_places p) outs outs1 /\
    (forall i g, nth_error names i = Some g -> step_file f (S i) g) /\ NoDup names /\
    (forall m, ~ In m names -> d1 m = d m) /\
    Forall2 (fun o g => exists text o2, d1 g = Some text /\
      (forall b len, read_output None b len (lines text) = Ok [o2]) /\ comes_back $"csv" 8 12 true o o2) outs1 names.
Proof. exact extract_split. Qed.
Print Assumptions C66_split.

(** C66.  A listing with an element that the mesh does not have is refused and
    nothing is written; so are flows in another format than CSV. *)
Theorem C66_missing : forall fuel d a infile mesh p els outs o ls,
  x_connection a && negb (is_csv (x_format a)) = false ->
  d (x_infile a) = Some infile -> d (x_mesh a) = Some mesh ->
  read_text fuel (x_length a) mesh = Ok p -> dget #"elements" p = Some (PDict els) ->
  read_output None (x_connection a) (option_map Z.to_nat (x_length a)) (lines infile) = Ok (outs ++ [o]) ->
  o_format o = $"tough" -> o_labels o = Some ls ->
  Forall (fun l => label_kind (x_connection a) l /\
                   Forall (fun s => dget (KS s) els = None \/ exists c, center_at p s c) l) ls ->
  (exists l s, In l ls /\ In s l /\ dget (KS s) els = None) ->
  extract fuel d a = (Err ValueError, d).
Proof. exact extract_missing. Qed.
Print Assumptions C66_missing.
Theorem C66_flows : forall fuel d a, x_connection a = true -> x_format a <> XCsv -> extract fuel d a = (Err ValueError, d).
Proof. exact extract_flows. Qed.
Print Assumptions C66_flows.

(** Two elements and a listing of one time step. *)
Definition C66_line (s : string) : str := lit s ++ [nl].
Definition C66_element (label : string) (c : list pyval) : key * pyval :=
  (KS (lit label), PDict [(#"material", text "SAND"); (#"volume", num 25 0); (#"center", plist c)]).
Definition C66_p : dict :=
  [(#"elements", PDict [C66_element "AAA10" [num 1 0; num (-25) (-1); num 3 0]; C66_element "AAB10" [num 4 0; num 5 0; num 6 0]]);
   (#"elements_order", plist [text "AAA10"; text "AAB10"]); (#"coordinates", PBool false)].
Definition C66_mesh : str := concat
  [C66_line "ELEME";
   C66_line "AAA10          SAND       25.0                          1.00     -2.50      3.00";
   C66_line "AAB10          SAND       25.0                          4.00       5.0      6.00"; [nl]].
Definition C66_listing (time row1 row2 : string) : str := concat
  [C66_line "1      @@@@@"; C66_line " TOTAL TIME    KCYC"; C66_line time; C66_line " ELEM. INDEX     P"; [nl];
   C66_line row1; C66_line row2; C66_line " @@@@@@@@"].
Definition C66_infile : str := C66_listing " 0.86400E+05     7" " AAA10  1  0.10133E+06" " AAB10  2  -0.1E-10".
Definition C66_disk : disk := store (store (fun _ => None) $"OUTPUT" C66_infile) $"MESH" C66_mesh.
Definition C66_args : xargs := XArgs $"OUTPUT" $"MESH" None XCsv None false false.
Definition C66_out : output :=
  Output Element $"tough" (Some (real 864 2)) (Some [[$"AAA10"]; [$"AAB10"]]) [($"P", [real 10133 1; real (-1) (-11)])].
Example C66_example :
  C66_disk (x_infile C66_args) = Some C66_infile /\ C66_disk (x_mesh C66_args) = Some C66_mesh /\
  read_text 0 None C66_mesh = Ok C66_p /\ read_output None false None (lines C66_infile) = Ok [C66_out] /\
  Forall (fun l => label_kind false l /\ exists pt, place C66_p l pt) [[$"AAA10"]; [$"AAB10"]] /\
  csv_sheets Element 2 [C66_out] /\ no_equal_sign [C66_out] /\ no_coordinates C66_out /\
  coordinates_f64 C66_p [[$"AAA10"]; [$"AAB10"]] /\
  located 0 C66_args C66_infile C66_mesh =
    Ok [Output Element $"tough" (Some (real 864 2)) (Some [[$"AAA10"]; [$"AAB10"]])
          [($"P", [real 10133 1; real (-1) (-11)]); ($"X", [real 1 0; real 4 0]); ($"Y", [real (-25) (-1); real 5 0]); ($"Z", [real 3 0; real 6 0])]].
Proof.
  parts; [byc|byc|byc|byc| | | | | |byc].
  - each; (split; [reflexivity|]); eexists; eexists _, _, _, _, _; (split; [reflexivity|split; [reflexivity|reflexivity]]).
  - apply csv_sheets_check; try discriminate; byc.
  - apply no_equal_check; byc.
  - intros k K I. destruct I as [<-|[]]. destruct K as [K|[K|[K|[]]]]; discriminate K.
  - intros l pt [<-|[<-|[]]] (e & q & x & y & z & H1 & H2 & ->).
    + change (Some (snd (C66_element "AAA10" [num 1 0; num (-25) (-1); num 3 0])) = Some (PDict e)) in H1.
      assert (X : PDict e = snd (C66_element "AAA10" [num 1 0; num (-25) (-1); num 3 0])) by congruence. unfold C66_element in X. cbn [snd] in X.
      assert (X' : e = [(#"material", text "SAND"); (#"volume", num 25 0); (#"center", plist [num 1 0; num (-25) (-1); num 3 0])]) by congruence.
      rewrite X' in H2. change (Some (plist [num 1 0; num (-25) (-1); num 3 0]) = Some (PSeq q [PFloat x; PFloat y; PFloat z])) in H2.
      unfold plist, num in H2. assert (Y : [x; y; z] = [flt_of_dec (1 <? 0) (Z.abs 1) 0; flt_of_dec (-25 <? 0) (Z.abs (-25)) (-1); flt_of_dec (3 <? 0) (Z.abs 3) 0]) by congruence.
      rewrite Y. each; byc.
    + change (Some (snd (C66_element "AAB10" [num 4 0; num 5 0; num 6 0])) = Some (PDict e)) in H1.
      assert (X : PDict e = snd (C66_element "AAB10" [num 4 0; num 5 0; num 6 0])) by congruence. unfold C66_element in X. cbn [snd] in X.
      assert (X' : e = [(#"material", text "SAND"); (#"volume", num 25 0); (#"center", plist [num 4 0; num 5 0; num 6 0])]) by congruence.
      rewrite X' in H2. change (Some (plist [num 4 0; num 5 0; num 6 0]) = Some (PSeq q [PFloat x; PFloat y; PFloat z])) in H2.
      unfold plist, num in H2. assert (Y : [x; y; z] = [flt_of_dec (4 <? 0) (Z.abs 4) 0; flt_of_dec (5 <? 0) (Z.abs 5) 0; flt_of_dec (6 <? 0) (Z.abs 6) 0]) by congruence.
      rewrite Y. each; byc.
Qed.

Example C66_split_case : target (x_output C66_args) (x_connection C66_args) (x_format C66_args) $"OUTPUT_ELEME.csv" /\
  step_file $"OUTPUT_ELEME.csv" 12 $"OUTPUT_ELEME_12.csv".
Proof.
  split; [constructor; discriminate|]. left. exists $"OUTPUT_ELEME", $".csv". split; [|split; reflexivity].
  exists [], $"OUTPUT_ELEME", $"csv". split; [reflexivity|]. split; [reflexivity|]. split; [now left|].
  split; [|split; [|split]]; try (intros I; cbn in I; repeat (destruct I as [I|I]; [discriminate I|]); exact I).
  exists "O"%char. split; [now left|discriminate].
Qed.

(** C66.  Findings: with --split the format asked is ignored; with an explicit
    label length nothing can be extracted; the coordinates of the last time step
    are given to the rows of all. *)
Theorem C66_split_refuted : forall fuel d infile mesh f ll fmt text1 text2,
  d infile = Some text1 -> d mesh = Some text2 ->
  (forall outs, located fuel (XArgs infile mesh (Some f) fmt ll true false) text1 text2 = Ok outs -> List.length outs <> 1%nat) ->
  extract fuel d (XArgs infile mesh (Some f) fmt ll true false) = extract fuel d (XArgs infile mesh (Some f) XCsv ll true false).
Proof. exact split_format. Qed.
Print Assumptions C66_split_refuted.
Theorem C66_length_refuted : forall fuel d a z infile mesh p els outs t,
  x_connection a && negb (is_csv (x_format a)) = false ->
  d (x_infile a) = Some infile -> d (x_mesh a) = Some mesh -> x_length a = Some z -> (0 < z)%Z ->
  read_text fuel (x_length a) mesh = Ok p -> dget #"elements" p = Some (PDict els) ->
  get_output_type (lines infile) = Ok (t, FTough) ->
  read_output None (x_connection a) None (lines infile) = Ok outs ->
  (exists o l r, In o outs /\ o_labels o = Some (l :: r)) ->
  extract fuel d a = (Err UnboundLocalError, d).
Proof. exact extract_length. Qed.
Print Assumptions C66_length_refuted.
Theorem C66_order_refuted :
  exists o1 o2, located 0 C66_args
    (C66_listing " 1.0     7" " AAA10  1  2.0" " AAB10  2  3.0" ++ C66_listing " 2.0     7" " AAB10  1  2.0" " AAA10  2  3.0") C66_mesh = Ok [o1; o2] /\
  o_labels o1 = Some [[$"AAA10"]; [$"AAB10"]] /\ tget $"X" (o_data o1) = Some [real 4 0; real 1 0] /\
  o_labels o2 = Some [[$"AAB10"]; [$"AAA10"]] /\ tget $"X" (o_data o2) = Some [real 4 0; real 1 0].
Proof. eexists _, _. parts; byc. Qed.
Print Assumptions C66_order_refuted.
