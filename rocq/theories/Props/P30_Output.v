(** C30 to C34, C62: output files. *)
From Coq Require Import String Ascii ZArith Bool Lia Permutation Sorted QArith List.
From Verif Require Import Base.Str Base.Flt Base.FltText Model.Py Model.Dispatch Model.Output Spec.Output Spec.Length Spec.Listing
  Proofs.ReorderProof Proofs.CsvProof Proofs.PetrasimProof Proofs.RecognizeProof Proofs.TecplotProof Proofs.ListingProof
  Proofs.Samples Proofs.OutputSamples.
Import ListNotations.
Local Open Scope nat_scope.

(** C30.  Reordering by a permutation of the labels keeps the data of every
    label. *)
Theorem C30_reorder : forall o own labels,
  o_labels o = Some (map single own) -> NoDup own -> Permutation own labels ->
  (forall k c, In (k, c) (o_data o) -> List.length c = List.length own) ->
  exists o', reorder_labels o labels = Ok o' /\ o_type o' = o_type o /\ o_format o' = o_format o /\
    o_time o' = o_time o /\ o_labels o' = Some (map single labels) /\ names o' = names o /\
    forall n k c, nth_error (o_data o) n = Some (k, c) ->
      exists c', nth_error (o_data o') n = Some (k, c') /\ List.length c' = List.length labels /\
        forall i j l, nth_error own i = Some l -> nth_error labels j = Some l -> nth_error c' j = nth_error c i.
Proof. exact reorder_keeps. Qed.
Print Assumptions C30_reorder.

(** C30.  A list of another length, or with an unknown label, is refused. *)
Theorem C30_refused : forall o own labels, o_labels o = Some (map single own) ->
  (List.length labels <> List.length own -> reorder_labels o labels = Err ValueError) /\
  (List.length labels = List.length own -> (exists l, In l labels /\ ~ In l own) ->
     reorder_labels o labels = Err KeyError).
Proof. exact reorder_refuses. Qed.
Print Assumptions C30_refused.

Example C30_example :
  NoDup [$"AAA10"; $"AAA11"] /\ Permutation [$"AAA10"; $"AAA11"] [$"AAA11"; $"AAA10"] /\
  o_labels sample1 = Some (map single [$"AAA10"; $"AAA11"]) /\
  (forall k c, In (k, c) (o_data sample1) -> List.length c = 2) /\
  reorder_labels sample1 [$"AAA11"; $"AAA10"] =
    Ok (Output Element $"tough" (Some (real 864 2)) (Some [[$"AAA11"]; [$"AAA10"]])
      [($"P", [real 2 5; real 101325 0]); ($"X", [real 15 (-1); real 5 (-1)]); ($"Y", [real (-1) 0; real 0 0]); ($"SAT_G", [real 1 0; real 1 (-9)])]).
Proof.
  parts; try byc.
  - now apply nodupb_ok.
  - constructor.
  - intros k c [E | [E | [E | [E | []]]]]; injection E as <- <-; reflexivity.
Qed.

(** C30.  Finding: a list naming a label twice is accepted, and the data of the
    label left out are lost. *)
Theorem C30_refuted :
  exists o', reorder_labels sample1 [$"AAA10"; $"AAA10"] = Ok o' /\ o_labels o' = Some [[$"AAA10"]; [$"AAA10"]].
Proof. eexists. split; byc. Qed.
Print Assumptions C30_refuted.

(** C31.  CSV outputs come back from a file, read without naming its format. *)
Theorem C31_csv : forall t n outs, csv_sheets t n outs -> no_equal_sign outs ->
  exists recs outs', csv_write outs = Ok recs /\
    (forall b len, read_output None b len (lines (concat recs)) = Ok outs') /\ Forall2 (comes_back $"csv" 8 12 true) outs outs'.
Proof. exact csv_api. Qed.
Print Assumptions C31_csv.

Example C31_example :
  csv_sheets Element 2 [sample1; sample2] /\ no_equal_sign [sample1; sample2] /\
  csv_sheets Connection 1 [flow] /\ no_equal_sign [flow].
Proof.
  parts.
  - apply csv_sheets_check; try discriminate; byc.
  - apply no_equal_check; byc.
  - apply csv_sheets_check; try discriminate; byc.
  - apply no_equal_check; byc.
Qed.

(** C31.  Findings: an output without rows loses its columns; a column that the
    last output does not have is dropped from the earlier ones. *)
Definition no_rows : output := Output Element $"tough" (Some (real 1 0)) (Some []) [($"P", [])].
Definition only_p (o : output) : output :=
  Output (o_type o) (o_format o) (o_time o) (o_labels o) (filter (fun kc => streqb (fst kc) $"P") (o_data o)).
Definition csv_back (outs : list output) : res (list output) :=
  let* recs := csv_write outs in read_output None false None (lines (concat recs)).
Theorem C31_refuted :
  (exists o, csv_back [no_rows] = Ok [o] /\ names o = [] /\ names no_rows = [$"P"]) /\
  (exists o o', csv_back [sample1; only_p sample2] = Ok [o; o'] /\ names o = [$"P"] /\ In $"SAT_G" (names sample1)).
Proof.
  split.
  - eexists. parts; byc.
  - eexists _, _. parts; [byc|byc|]. unfold sample1. cbn. auto.
Qed.
Print Assumptions C31_refuted.

(** C32.  PetraSim outputs come back, in increasing order of time. *)
Theorem C32_petrasim : forall outs sorted, petrasim_sheets outs -> Forall (finite_time 12) outs ->
  Permutation outs sorted -> StronglySorted (earlier 12) sorted -> no_equal_sign outs ->
  exists recs outs', petrasim_write outs = Ok recs /\
    (forall b len, read_output None b len (lines (concat recs)) = Ok outs') /\ Forall2 (comes_back $"petrasim" 12 12 true) sorted outs'.
Proof. exact petrasim_api. Qed.
Print Assumptions C32_petrasim.

Example C32_example :
  petrasim_sheets [sample2; sample1] /\ Forall (finite_time 12) [sample2; sample1] /\
  Permutation [sample2; sample1] [sample1; sample2] /\ StronglySorted (earlier 12) [sample1; sample2] /\ no_equal_sign [sample2; sample1].
Proof.
  parts.
  - apply petrasim_check; try discriminate; byc.
  - apply Forall_cons; [vm_compute; exact I|]. apply Forall_cons; [vm_compute; exact I|]. apply Forall_nil.
  - apply perm_swap.
  - apply SSorted_cons; [apply SSorted_cons; [apply SSorted_nil|apply Forall_nil]|]. apply Forall_cons; [byc|apply Forall_nil].
  - apply no_equal_check; byc.
Qed.

(** C32.  Findings: outputs whose times agree to 13 digits become one output;
    an output without columns loses its rows. *)
Definition at_time (t : flt) (o : output) : output := Output (o_type o) (o_format o) (Some t) (o_labels o) (o_data o).
Definition petrasim_back (outs : list output) : res (list output) :=
  let* recs := petrasim_write outs in read_output None false None (lines (concat recs)).
Theorem C32_refuted :
  (exists o, petrasim_back [at_time (real 1 0) sample1; at_time (real 10000000000001 (-13)) sample2] = Ok [o] /\
     o_labels o = Some [[$"AAA10"]; [$"AAA11"]; [$"AAA10"]; [$"AAA11"]]) /\
  (exists recs, petrasim_write [Output Element [] (Some (real 1 0)) (Some [[$"AAA10"]]) []] = Ok [recs]).
Proof. split; eexists; [split|]; byc. Qed.
Print Assumptions C32_refuted.

(** C33.  What was written is recognised. *)
Theorem C33_csv : forall outs front o recs, outs = front ++ [o] -> csv_write outs = Ok recs ->
  Forall (fun k => ~ In "="%char k /\ ~ In nl k) (names o) ->
  get_output_type (lines (concat recs)) = Ok (o_type o, FCsv).
Proof. exact csv_recognized. Qed.
Print Assumptions C33_csv.
Theorem C33_petrasim : forall outs front o recs, outs = front ++ [o] -> petrasim_write outs = Ok recs ->
  Forall (fun k => ~ In "="%char k /\ ~ In nl k) (names o) ->
  get_output_type (lines (concat recs)) = Ok (Element, FPetrasim).
Proof. exact petrasim_recognized. Qed.
Print Assumptions C33_petrasim.
Theorem C33_tecplot : forall outs recs, tecplot_write outs = Ok recs ->
  get_output_type (lines (concat recs)) = Ok (Element, FTecplot).
Proof. exact tecplot_recognized. Qed.
Print Assumptions C33_tecplot.

Example C33_example :
  (exists r, csv_write [sample1; sample2] = Ok r) /\ (exists r, petrasim_write [sample1; sample2] = Ok r) /\
  (exists r, tecplot_write [sample1; sample2] = Ok r) /\ Forall (fun k => ~ In "="%char k /\ ~ In nl k) (names sample2).
Proof.
  parts; try (eexists; byc). repeat constructor; intros H; vm_compute in H; intuition discriminate.
Qed.

(** C33.  Finding: a column with "=" in its name makes a CSV or PetraSim file
    look like Tecplot. *)
Definition with_equal : output := Output Element $"tough" (Some (real 1 0)) (Some [[$"AAA10"]]) [($"T=0", [real 1 0])].
Theorem C33_refuted :
  (let* r := csv_write [with_equal] in get_output_type (lines (concat r))) = Ok (Element, FTecplot) /\
  (let* r := petrasim_write [with_equal] in get_output_type (lines (concat r))) = Ok (Element, FTecplot).
Proof. parts; byc. Qed.
Print Assumptions C33_refuted.

(** C34.  The tables of a listing are read: times, labels, columns and values. *)
Theorem C34_listing : forall t n fmt heads steps rest, good_listing t n heads steps ->
  Forall (fun l => startswith $"TOTAL TIME" (strip l) = false) rest ->
  exists outs, listing_read t fmt None None (concat (map step_lines steps) ++ rest) = Ok outs /\
    Forall2 (step_result t fmt heads) steps outs.
Proof. exact listing_read_ok. Qed.
Print Assumptions C34_listing.

(** C34.  Finding: with any explicit label length, no listing that has a row can
    be read. *)
Theorem C34_refuted : forall t fmt order n ls outs, listing_read t fmt order None ls = Ok outs ->
  (exists o l ls', In o outs /\ o_labels o = Some (l :: ls')) ->
  listing_read t fmt order (Some (S n)) ls = Err UnboundLocalError.
Proof. exact explicit_length. Qed.
Print Assumptions C34_refuted.

Definition nl_ (s : string) : str := lit s ++ [nl].
Definition listing_row1 : row := Row 1 [$"AAA10"] $"1" [(2, $"0.10133E+06"); (1, $"2.5")] [real 10133 1; real 25 (-1)].
Definition listing_row2 : row := Row 1 [$"AAB10"] $"2" [(2, $"-0.1E-10"); (0, $"0.0")] [real (-1) (-11); real 0 0].
Definition listing_step : step :=
  Step [nl_ "1      @@@@@"; [nl]] (nl_ " TOTAL TIME    KCYC") (nl_ " 0.86400E+05     7") (real 864 2)
    [[nl]; nl_ " @@@@@@@"] (nl_ " ELEM. INDEX     P     T") 
    [TSkip [nl]; TSkip (nl_ "              (PA)  (C)"); TRow listing_row1; TSkip (nl_ " ELEM. INDEX     P     T"); TRow listing_row2]
    (nl_ " @@@@@@@@").
Example C34_example :
  good_listing Element 5 [$"ELEM."; $"INDEX"; $"P"; $"T"] [listing_step] /\
  (exists o, read_output None false None (step_lines listing_step) = Ok [o] /\
     o_data o = [($"P", [real 10133 1; real (-1) (-11)]); ($"T", [real 25 (-1); real 0 0])]).
Proof.
  split; [|eexists; split; byc].
  split; [discriminate|]. split; [|split; [|split]].
  - constructor; [|constructor]. constructor.
    + each; byc.
    + byc.
    + eexists _, _. split; byc.
    + each; byc.
    + split; byc.
    + assert (NB : forall w, nonempty w && forallb (fun c => negb (is_space c)) w = true -> no_blank w).
      { intros w H. apply andb_true_iff in H as [H1 H2]. split; [now destruct w|]. rewrite forallb_forall in H2.
        intros c I. apply H2 in I. now apply negb_true_iff in I. }
      assert (RW : forall r, r_lead r < 10 -> List.length (r_labels r) = 1 ->
        forallb (fun s => Nat.eqb (List.length s) 5 && match s with c :: _ => negb (is_space c) | [] => false end) (r_labels r) = true ->
        startswith $"ELEM" (label_text (r_labels r)) = false -> startswith $"@@@@@" (skipn 1 (row_text r)) = false ->
        no_blank (r_index r) -> Forall (fun gw => no_blank (snd gw)) (r_words r) ->
        Forall2 (fun gw x => parse_float (snd gw) = Some x) (r_words r) (r_values r) -> good_row Element 5 r).
      { intros r A B C D E F G H. repeat (split; [now auto|]). split; [|split; auto].
        rewrite forallb_forall in C. apply Forall_forall. intros s I. apply C in I. apply andb_true_iff in I as [I1 I2].
        apply Nat.eqb_eq in I1. split; auto. split; [discriminate|]. intros c J. destruct s; [discriminate|]. injection J as ->.
        now apply negb_true_iff in I2. }
      each; try (split; [now left|byc]); try (split; [right; byc|byc]).
      all: apply RW; [cbn; lia|byc|byc|byc|byc|apply NB; byc
        |apply Forall_cons; [apply NB; byc|apply Forall_cons; [apply NB; byc|apply Forall_nil]]
        |apply Forall2_cons; [byc|apply Forall2_cons; [byc|apply Forall2_nil]]].
    + discriminate.
    + apply Forall_cons; [byc|apply Forall_cons; [byc|apply Forall_nil]].
    + byc.
  - now apply nodupb_ok.
  - intros s s' [<-|[]] [<-|[]]. reflexivity.
  - intros s r r' [= <-] [= <- <-]. split; [lia|]. split.
    + intros i I. assert (i = 5 -> False) by lia. lia.
    + intros _ c J. vm_compute in J. now injection J as <-.
Qed.

(** C34.  More findings: the row of an element called ELEM1 is skipped; numbers
    written without a blank between them become NaN; a table not closed by @@@@@
    ends in StopIteration. *)
Definition listing_with (l : string) : list str :=
  [nl_ "1      @@@@@"; nl_ " TOTAL TIME"; nl_ " 0.86400E+05"; nl_ " ELEM. INDEX P"; nl_ " AAA10 1 0.5"; nl_ l; nl_ " @@@@@"].
Theorem C34_rows_refuted :
  (exists o, read_output None false None (listing_with " ELEM1 2 0.5") = Ok [o] /\ o_labels o = Some [[$"AAA10"]]) /\
  (exists o, read_output None false None (listing_with " AAA11 2 0.51254E-01-0.1254E-01") = Ok [o] /\
     o_data o = [($"P", [real 5 (-1); NaN])]) /\
  read_output None false None (firstn 6 (listing_with " AAA11 2 0.5")) = Err StopIteration.
Proof. parts; try (eexists; split); byc. Qed.
Print Assumptions C34_rows_refuted.

(** C62.  Tecplot outputs come back without their labels. *)
Theorem C62_tecplot : forall outs, tecplot_sheets outs ->
  exists recs outs', tecplot_write outs = Ok recs /\
    (forall b len, read_output None b len (lines (concat recs)) = Ok outs') /\
    Forall2 (comes_back $"tecplot" 7 12 false) outs outs'.
Proof. exact tecplot_api. Qed.
Print Assumptions C62_tecplot.

Example C62_example : tecplot_sheets [sample1; sample2].
Proof. apply tecplot_check; try discriminate; byc. Qed.

(** C62.  Findings: a negative number below 1e-99 takes the 20 characters of its
    column and runs into the previous one, and the file cannot be read; a name
    of 18 characters runs into the previous name and a column is lost. *)
Definition tecplot_back (outs : list output) : res (list output) :=
  let* recs := tecplot_write outs in read_output None false None (lines (concat recs)).
Definition xy (k : str) (x : flt) : output :=
  Output Element $"tough" (Some (real 1 0)) None [($"X", [real 1 0]); ($"Y", [real 2 0]); ($"T", [real 3 0]); (k, [x])].
Theorem C62_refuted :
  tecplot_back [xy $"P" (real (-1) (-100))] = Err ValueError /\
  (exists o, tecplot_back [xy $"PRESSURE_GAS_PHASE" (real 1 0)] = Ok [o] /\ 
     o_data o = [($"X", [real 1 0]); ($"Y", [real 2 0]); ($"TPRESSURE_GAS_PHASE", [real 3 0])]).
Proof. parts; try (eexists; split); byc. Qed.
Print Assumptions C62_refuted.
