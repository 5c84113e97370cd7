(** C78: a run restarted from the SAVE file of another. *)
From Coq Require Import String Ascii Arith ZArith Bool Lia List.
From Verif Require Import Base.Str Base.Digits Base.Flt Base.FltText Model.Py Model.Records Model.Write Model.Cli Model.Mesh Model.MeshFile Model.Read Model.MeshRead Model.Save
  Spec.Fields Spec.Values Spec.Types Spec.Rocks Spec.Indom Spec.Labels Spec.Incon Spec.Simple Spec.File Spec.Cli Spec.MeshBack Spec.InconBack Spec.MergeBack Spec.Save Spec.Restart
  Proofs.DictLemmas Proofs.BlockTools Proofs.InconProof Proofs.FileProof Proofs.MeshBackProof Proofs.SaveProof Proofs.RestartProof Proofs.Samples Props.P77_MergeBack.
Import ListNotations.
Local Open Scope nat_scope.

(** C78.  A SAVE file holds initial conditions.  toughio-save2incon makes a file
    from which read_input gives these initial conditions and nothing else, and
    which read as an output gives what the SAVE file gives, in any order asked or
    refused alike.  Without reset it is the same file; with reset no line of it
    starts the restart data.  No other file changes. *)
Theorem C78_converted : forall d f g p h body title stop rest reset, INCON_ok p -> Write.write_incon p = Ok (h :: body ++ [[nl]]) -> save_frame title stop rest ->
  d f = Some (concat (title :: body ++ stop :: rest)) -> f <> g ->
  exists d' text, save2incon d f g reset = (Ok tt, d') /\ d' g = Some text /\ (forall n, n <> g -> d' n = d n) /\
    (reset = true -> Forall (fun l => ~ plus_line l) (lines text)) /\ (reset = false -> d' g = d f) /\
    (forall ll fuel, label_choice ll -> INCON_known (label_given ll) p -> read_text fuel ll text = Ok (INCON_back p)) /\
    (INCON_known None p -> forall fuel order, read_save fuel order text = read_save fuel order (concat (title :: body ++ stop :: rest))).
Proof. exact restart_reads. Qed.
Print Assumptions C78_converted.
(** C78.  Converted to the INCON file beside an input file and its MESH file, then
    merged by toughio-merge, with or without reset: what is read has the
    parameters, the mesh, and exactly the initial conditions of the SAVE file. *)
Theorem C78_restart : forall u p n names ending coord cs conn me mt s h body title stop rest reset d save infile outfile input mesh ll fuel,
  prepare u = Ok p -> FILE_ok p -> FILE_known (label_given ll) p -> List.length (titles_of p) < fuel ->
  mesh_fits n names coord cs (links conn) me mt -> length_told ll n (map mc_label cs) ->
  write_text u $"all" = Ok input -> write_mesh names ending coord cs conn me = Ok mesh -> ends_once input ->
  INCON_ok s -> INCON_known (label_given ll) s -> Write.write_incon s = Ok (h :: body ++ [[nl]]) -> save_frame title stop rest ->
  d infile = Some input -> d (beside infile $"MESH") = Some mesh -> d save = Some (concat (title :: body ++ stop :: rest)) ->
  save <> beside infile $"INCON" -> infile <> beside infile $"INCON" ->
  exists d' text, save2incon d save (beside infile $"INCON") reset = (Ok tt, d') /\ merge d' infile outfile = (Ok tt, store d' outfile text) /\
    read_text fuel ll text = Ok (dupdate (dupdate (FILE_back p)
      (mesh_read coord (map (fun c => (c, mt c)) (ending_last ending cs))
        (map (fun l => (nth (fst (fst l)) (map mc_label cs) [], nth (snd l) (map mc_label cs) [], me l)) (links conn)))) (INCON_back s)).
Proof. exact restart_merged. Qed.
Print Assumptions C78_restart.

(** The three cells of C77, and a SAVE file with two of them. *)
Definition saved_conditions : dict :=
  [(#"initial_conditions", PDict [
      (KS ($"A1100"), PDict [(#"porosity", num 1 (-1)); (#"userx", plist [num 7 0; PNone; num 9 0]); (#"values", plist [num 1 5; PNone; num 2 1])]);
      (KS ($"A1102"), PDict [(#"porosity", num 3 (-1)); (#"userx", plist [num 1 0; PNone; num 3 0]); (#"values", plist [num 1 5; PInt 2; num 3 0])])]);
   (#"initial_conditions_order", plist [text "A1102"; text "A1100"])].
Definition save_title : str := $"INCON -- INITIAL CONDITIONS FOR    2 ELEMENTS AT TIME  0.1E+01" ++ [nl].
Definition save_rest : list str := [$"   10   20    0" ++ [nl]].
Definition save_text : str := concat (save_title :: removelast (tl (ok [] (Write.write_incon saved_conditions))) ++ ($"+++" ++ [nl]) :: save_rest).
Definition restart_files : disk := fun f => if streqb f $"SAVE" then Some save_text else files "three cells" "SAND" f.
Definition restarted (reset : bool) : str :=
  match snd (merge (snd (save2incon restart_files $"SAVE" $"run/INCON" reset)) $"run/flow.inp" $"out") $"out" with Some t => t | None => [] end.
Example C78_case :
  INCON_ok saved_conditions /\ INCON_known None saved_conditions /\ save_frame save_title ($"+++" ++ [nl]) save_rest /\
  (exists h body, Write.write_incon saved_conditions = Ok (h :: body ++ [[nl]]) /\ save_text = concat (save_title :: body ++ ($"+++" ++ [nl]) :: save_rest)) /\
  beside $"run/flow.inp" $"INCON" = $"run/INCON" /\ restart_files $"run/INCON" = Some incon_file /\
  (exists q, read_text 2 None (restarted true) = Ok q /\
    dget #"elements_order" q = Some (PSeq SList [PStr $"A1100"; PStr $"A1102"; PStr $"A1101"]) /\
    dget #"initial_conditions_order" q = Some (PSeq SList [PStr $"A1102"; PStr $"A1100"]) /\
    read_text 2 None (restarted false) = Ok q) /\
  restarted true <> restarted false.
Proof.
  assert (O : INCON_ok saved_conditions).
  { unfold INCON_ok. cbv zeta. parts; [byc|byc|discriminate|distinct| |apply Nat.leb_le; byc|apply Nat.leb_le; byc| |byc].
    + unfold subset_ok. change (val #"initial_conditions_order" saved_conditions) with (plist [text "A1102"; text "A1100"]). unfold plist. split.
      * apply NoDup_cons; [intros [E|[]]; discriminate|]. apply NoDup_cons; [intros []|apply NoDup_nil].
      * each; eexists; (split; [reflexivity|]); [right; left|left]; byc.
    + change (incons_of saved_conditions) with (entries (snd (hd (KNone, PNone) saved_conditions))). unfold saved_conditions. cbn [hd snd entries].
      each; eexists _, _; (split; [reflexivity|split; [byc|split; [byc|]]]); unfold incon_ok; parts; try byc; try distinct; try exact I. }
  split; [exact O|]. split; [unfold INCON_known; cbv zeta; right; parts; [now left|byc|byc|]; intros _; byc|]. split.
  { unfold save_frame. parts; [byc| |right; byc| |].
    + eexists. split; [reflexivity|byc].
    + eexists. split; [reflexivity|byc].
    + each. split; [byc|]. eexists. split; [reflexivity|byc]. }
  split; [exists (head ($"INCON")), (save_entries saved_conditions); split; [now apply INCON_write|byc]|].
  split; [byc|]. split; [byc|]. split.
  - eexists. split; [vm_compute; reflexivity|]. split; [vm_compute; reflexivity|]. split; [vm_compute; reflexivity|]. vm_compute. reflexivity.
  - intros E. apply (f_equal (@List.length ascii)) in E. vm_compute in E. discriminate.
Qed.
