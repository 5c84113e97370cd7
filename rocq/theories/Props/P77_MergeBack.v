(** C77: reading the input file merged with a mesh. *)
From Coq Require Import String Ascii Arith ZArith QArith Bool Lia List.
From Verif Require Import Base.Str Base.Digits Base.Flt Base.FltText Model.Py Model.Records Model.Write Model.Cli Model.Mesh Model.MeshFile Model.Read Model.MeshRead
  Spec.Fields Spec.Values Spec.Types Spec.Rocks Spec.Flac Spec.Simple Spec.Param Spec.Indom Spec.Outpu Spec.Labels Spec.Mesh Spec.Incon Spec.Gener
  Spec.File Spec.Cli Spec.MeshBack Spec.InconBack Spec.MergeBack
  Proofs.DictLemmas Proofs.FileProof Proofs.CliProof Proofs.MeshBackProof Proofs.MergeBackProof Proofs.Samples.
Import ListNotations.
Local Open Scope nat_scope.

(** C77.  Beside the input file are the MESH file of a mesh and possibly an INCON
    file; no line of the input file but the last looks like an end line.  The file
    made by toughio-merge is read as the parameters, then the cells and interfaces
    of the mesh, then the initial conditions. *)
Theorem C77_merged : forall u p n names ending coord cs conn me mt ic k d infile outfile input mesh ll fuel,
  prepare u = Ok p -> FILE_ok p -> FILE_known (label_given ll) p -> List.length (titles_of p) < fuel ->
  mesh_fits n names coord cs (links conn) me mt -> length_told ll n (map mc_label cs) ->
  write_text u $"all" = Ok input -> write_mesh names ending coord cs conn me = Ok mesh -> ends_once input ->
  d infile = Some input -> d (beside infile $"MESH") = Some mesh ->
  match ic with
  | Some ics => conditions_fit n k ics /\ length_told ll n (map ic_label ics) /\ exists t, write_incon ics = Ok t /\ d (beside infile $"INCON") = Some t
  | None => d (beside infile $"INCON") = None
  end ->
  exists text, merge d infile outfile = (Ok tt, store d outfile text) /\
    read_text fuel ll text = Ok (dupdate (dupdate (FILE_back p)
      (mesh_read coord (map (fun c => (c, mt c)) (ending_last ending cs))
        (map (fun l => (nth (fst (fst l)) (map mc_label cs) [], nth (snd l) (map mc_label cs) [], me l)) (links conn)))) (conditions_if ic)).
Proof. exact merged_reads. Qed.
Print Assumptions C77_merged.
(** C77.  Entry by entry: the initial conditions and the mesh hide those of the
    input file, everything else is as in the input file. *)
Theorem C77_entries : forall p coord order pairs ic, (filled (val #"coordinates" p) = true -> filled (val #"elements" p) = true) ->
  forall k, dget k (dupdate (dupdate (FILE_back p) (mesh_read coord order pairs)) (conditions_if ic)) = merged_entry p (mesh_read coord order pairs) (conditions_if ic) k.
Proof. exact merged_entries. Qed.
Print Assumptions C77_entries.
(** C77.  Any file read as input, read as a mesh, gives exactly its entries on
    cells, interfaces and initial conditions. *)
Theorem C77_as_mesh : forall fuel ll text q, read_text fuel ll text = Ok q ->
  exists m, read_mesh fuel ll text = Ok m /\ forall k, dget k m = if of_mesh k then dget k q else None.
Proof. exact mesh_entries. Qed.
Print Assumptions C77_as_mesh.

(** A rock, three cells in a row, one of a material to move to the end, initial conditions for two of them. *)
Definition third : flt := flt_of_dec false 333333333333 (-12).
Definition unset : flt := flt_of_Z (-1000000000).
Definition three_cells : list mcell :=
  [MCell $"A1100" (MName $"SAND") (flt_of_Z 2) false third third third; MCell $"A1101" (MName $"CLAY") (flt_of_Z 3) true third (flt_of_Z (-1)) third;
   MCell $"A1102" (MNum 7) (flt_of_Z 4) false (flt_of_Z 5) third third].
Definition material_of (c : mcell) : mat := five (mc_mat c).
Definition some_links (l : nat * nat * nat) : measures := Measures 3 third third (flt_of_Z 2) (flt_of_Z (-1)).
Definition in_a_row : list (list Z) := [[1; -1]; [0; 2]; [1; -1]]%Z.
Definition some_conditions : list icell :=
  [ICell $"A1100" [flt_of_Z 100000; third] (Some third) None; ICell $"A1101" [unset; unset] None None; ICell $"A1102" [unset; flt_of_Z 4] None None].
Definition params (title rock : string) : dict :=
  [(#"title", text title); (#"options", PDict [(#"t_max", num 1 8); (#"t_steps", num 1 0)]); (#"rocks", PDict [(KS (lit rock), PDict [(#"density", num 2600 0)])])].
Definition completed : dict := Eval vm_compute in match prepare (params "three cells" "SAND") with Ok p => p | Err _ => [] end.
Definition ok {A} (d : A) (r : res A) : A := match r with Ok x => x | Err _ => d end.
Definition mesh_file : str := ok [] (write_mesh [] [MName $"CLAY "] true three_cells in_a_row some_links).
Definition incon_file : str := ok [] (write_incon some_conditions).
Definition input_file (title rock : string) : str := ok [] (write_text (params title rock) $"all").
Definition files (title rock : string) : disk := fun f =>
  if streqb f $"run/flow.inp" then Some (input_file title rock)
  else if streqb f $"run/MESH" then Some mesh_file
  else if streqb f $"run/INCON" then Some incon_file else None.
Definition output (title rock : string) : str :=
  match snd (merge (files title rock) $"run/flow.inp" $"out") $"out" with Some t => t | None => [] end.
Example C77_case :
  prepare (params "three cells" "SAND") = Ok completed /\ FILE_ok completed /\ FILE_known None completed /\
  mesh_fits 5 [] true three_cells (links in_a_row) some_links material_of /\ length_told None 5 (map mc_label three_cells) /\
  conditions_fit 5 2 some_conditions /\ length_told None 5 (map ic_label some_conditions) /\
  write_text (params "three cells" "SAND") $"all" = Ok (input_file "three cells" "SAND") /\
  write_mesh [] [MName $"CLAY "] true three_cells in_a_row some_links = Ok mesh_file /\ write_incon some_conditions = Ok incon_file /\
  ends_once (input_file "three cells" "SAND") /\
  exists q, read_text 2 None (output "three cells" "SAND") = Ok q /\
    dkeys q = [#"title"; #"rocks"; #"rocks_order"; #"start"; #"options"; #"extra_options"; #"default"; #"elements"; #"elements_order"; #"coordinates";
               #"connections"; #"connections_order"; #"initial_conditions"; #"initial_conditions_order"] /\
    dget #"elements_order" q = Some (PSeq SList [PStr $"A1100"; PStr $"A1102"; PStr $"A1101"]) /\
    dget #"initial_conditions_order" q = Some (PSeq SList [PStr $"A1100"; PStr $"A1102"]).
Proof.
  split; [vm_compute; reflexivity|]. split.
  { unfold FILE_ok.
    parts; try (let H := fresh in intros H; vm_compute in H; discriminate H); [byc| | | | |].
    - change (titles_of completed) with [text "three cells"]. each; eexists; parts; [reflexivity|byc|byc|byc].
    - unfold ROCKS_ok; parts; [eexists; split; [reflexivity|byc]|byc|byc|exact I|distinct|].
      literal. each; do 2 eexists; parts; [reflexivity|byc|byc].
    - unfold RPCAP_ok. eexists. parts; [reflexivity|distinct|byc].
    - unfold PARAM_ok. parts; [byc|distinct|byc|byc| | |apply Nat.leb_le; byc|byc|byc|byc|].
      + split; [distinct|]. literal. each.
      + do 2 eexists. split; reflexivity.
      + split; [left; literal; each; byc|byc].
    - literal. each; exact I. }
  split; [unfold FILE_known; parts; let H := fresh in intros H; vm_compute in H; discriminate H|].
  assert (M : forallb (fun c => cell_fits 5 true c && mat_fits (material_of c)) three_cells = true) by (vm_compute; reflexivity).
  split.
  { unfold mesh_fits. split; [lia|]. split.
    - intros c I. rewrite forallb_forall in M. specialize (M c I). apply andb_true_iff in M as [M1 M2]. split; [exact M1|]. split; [|exact M2]. right. split; [intros []|reflexivity].
    - split; [repeat constructor; cbn; intuition discriminate|]. split; [constructor|]. split; [vm_compute; discriminate|]. split.
      + intros i f j I. vm_compute in I. destruct I as [I | [I | []]]; injection I as <- <- <-; (split; [cbn; lia|split; [cbn; lia|vm_compute; reflexivity]]).
      + intros i f f' j I1 I2. vm_compute in I1, I2. destruct I1 as [I1 | [I1 | []]], I2 as [I2 | [I2 | []]]; congruence. }
  split; [right; split; [reflexivity|]; repeat constructor|]. split.
  { unfold conditions_fit. split; [lia|]. split; [discriminate|]. split; [|repeat constructor; cbn; intuition discriminate].
    assert (C : forallb (fun c => condition_fits 5 2 c && (negb (has_conditions c) || long_filled 2 c)) some_conditions = true) by (vm_compute; reflexivity).
    intros c I. rewrite forallb_forall in C. specialize (C c I). apply andb_true_iff in C as [C1 C2]. split; [exact C1|]. split; [|intros H; now rewrite H in C2].
    intros X. destruct I as [<- | [<- | [<- | []]]].
    - exists third. split; [right; left; reflexivity|]. apply Qle_bool_iff. vm_compute. reflexivity.
    - vm_compute in X. discriminate X.
    - exists (flt_of_Z 4). split; [right; left; reflexivity|]. apply Qle_bool_iff. vm_compute. reflexivity. }
  split; [right; split; [reflexivity|]; repeat constructor|].
  split; [vm_compute; reflexivity|]. split; [vm_compute; reflexivity|]. split; [vm_compute; reflexivity|]. split.
  { unfold ends_once. apply Forall_forall. intros l H X. apply is_end_spec in X.
    assert (E : existsb is_end (removelast (lines (input_file "three cells" "SAND"))) = false) by (vm_compute; reflexivity).
    assert (Y : existsb is_end (removelast (lines (input_file "three cells" "SAND"))) = true); [|congruence]. apply existsb_exists. exists l. split; assumption. }
  eexists. split; [vm_compute; reflexivity|]. split; [vm_compute; reflexivity|]. split; vm_compute; reflexivity.
Qed.

(** C77 fails when a line looks like an end line: with the title
    "Endfield reservoir" the mesh goes before the title, which is lost; with a rock
    named ENDCY the file cannot be read any more. *)
Theorem C77_end_refuted :
  (exists q q', read_text 2 None (input_file "Endfield reservoir" "SAND") = Ok q /\ dget #"title" q = Some (text "Endfield reservoir") /\
     fst (merge (files "Endfield reservoir" "SAND") $"run/flow.inp" $"out") = Ok tt /\
     read_text 2 None (output "Endfield reservoir" "SAND") = Ok q' /\ dget #"title" q' = None) /\
  (exists q, read_text 2 None (input_file "three cells" "ENDCY") = Ok q /\ fst (merge (files "three cells" "ENDCY") $"run/flow.inp" $"out") = Ok tt /\
     read_text 2 None (output "three cells" "ENDCY") = Err ValueError).
Proof.
  split.
  - do 2 eexists. split; [vm_compute; reflexivity|]. split; [vm_compute; reflexivity|]. split; [vm_compute; reflexivity|]. split; [vm_compute; reflexivity|]. vm_compute. reflexivity.
  - eexists. split; [vm_compute; reflexivity|]. split; vm_compute; reflexivity.
Qed.
Print Assumptions C77_end_refuted.
