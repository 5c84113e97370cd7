(** SAVE files converted, read and merged. *)
From Coq Require Import String Ascii Arith ZArith Bool Lia List.
From Verif Require Import Base.Str Base.Digits Base.Flt Base.FltText Model.Py Model.Records Model.Write Model.Cli Model.Mesh Model.MeshFile Model.Read Model.MeshRead Model.Dispatch Model.Output Model.Save
  Spec.Fields Spec.Values Spec.Layouts Spec.Labels Spec.Simple Spec.Indom Spec.Incon Spec.File Spec.Cli Spec.MeshBack Spec.InconBack Spec.MergeBack Spec.Save Spec.Restart
  Proofs.RecordLemmas Proofs.DictLemmas Proofs.BlockTools Proofs.TwoLines Proofs.InconProof Proofs.FileProof Proofs.FileKeys Proofs.CliProof Proofs.CellText Proofs.SaveProof Proofs.MeshBackProof Proofs.MergeBackProof.
Import ListNotations.
Local Open Scope nat_scope.

Lemma plus_spec l : plus_line l <-> plus3 l = true.
Proof. unfold plus_line, plus3. split; [intros (r & ->); apply startswith_app|intros H; now apply starts_app]. Qed.
Lemma body_entries p h body : INCON_ok p -> Write.write_incon p = Ok (h :: body ++ [[nl]]) -> body = save_entries p.
Proof.
  intros H E. rewrite (INCON_write p H) in E. assert (X : INCON_body p = body ++ [[nl]]) by congruence. unfold INCON_body in X. apply app_inj_tail in X as [X _]. symmetry. exact X.
Qed.
Lemma entries_no_plus p : INCON_ok p -> Forall (fun l => ~ plus_line l) (save_entries p).
Proof.
  intros H. unfold save_entries. apply Forall_concat. intros x Hx. destruct (INCON_item p x H Hx) as (s & e & -> & Ge & E & Ls & L & Wd & K).
  pose proof H as (_ & _ & _ & _ & _ & W & _). pose proof (incon_head_ok (incon_width p) s e L Wd Ls W K) as [H1 _].
  pose proof K as (_ & _ & _ & _ & _ & _ & V). apply values_w_ok in V. destruct (values_spec _ V) as (_ & FF & _).
  unfold incon_lines, entry_lines, incon_headline, incon_values, value_lines. rewrite E.
  assert (X : forall l, plus3 l = false -> ~ plus_line l) by (intros l P Q; apply plus_spec in Q; congruence).
  constructor; [|constructor].
  - apply X. apply orb_false_iff in H1. tauto.
  - apply X, values_no_plus. now apply forallb_firstn.
  - destruct (long (values_w e)); [|constructor]. constructor; [|constructor]. apply X, values_no_plus. now apply forallb_skipn.
Qed.
Lemma split_plus (l : list str) : exists A B, l = A ++ B /\ Forall (fun x => ~ plus_line x) A /\ (B = [] \/ exists q C, B = ($"+++" ++ q) :: C).
Proof.
  induction l as [|x l (A & B & -> & F & H)]; [exists [], []; auto|]. destruct (plus3 x) eqn:P.
  - apply plus_spec in P as (r & ->). exists [], (($"+++" ++ r) :: A ++ B). split; [reflexivity|]. split; [constructor|]. right. eauto.
  - exists (x :: A), B. split; [reflexivity|]. split; [|exact H]. constructor; [|exact F]. intros Q. apply plus_spec in Q. congruence.
Qed.
Lemma title_no_plus title : startswith $"INCON" title = true -> ~ plus_line title.
Proof. intros H (r & ->). discriminate. Qed.
Lemma ended_nl : ended [nl].
Proof. exists []. auto. Qed.

(** The converted file is again a SAVE file of the same entries. *)
Theorem converted d f g p title stop rest reset : INCON_ok p -> save_frame title stop rest ->
  d f = Some (concat (title :: save_entries p ++ stop :: rest)) -> f <> g ->
  exists stop' rest', save_frame title stop' rest' /\
    save2incon d f g reset = (Ok tt, store (store d g []) g (concat (title :: save_entries p ++ stop' :: rest'))) /\
    (reset = true -> Forall (fun l => ~ plus_line l) (title :: save_entries p ++ stop' :: rest')).
Proof.
  intros H F D N. pose proof (save_lines_good p title stop rest H F) as G.
  assert (LT : lines (concat (title :: save_entries p ++ stop :: rest)) = title :: save_entries p ++ stop :: rest) by now apply lines_all.
  assert (FS : first_line_starts "INCON" (concat (title :: save_entries p ++ stop :: rest))).
  { destruct F as (T1 & _). apply starts_app in T1 as (r & ->). unfold first_line_starts. cbn [concat]. rewrite <- app_assoc. eauto. }
  destruct reset.
  - pose proof F as (T1 & T2 & S1 & S2 & R). pose proof (entries_no_plus p H) as EP. pose proof (title_no_plus title T1) as TP.
    destruct (plus3 stop) eqn:P.
    + apply plus_spec in P as (q & ->). exists [nl], []. split; [|split].
      * split; [exact T1|]. split; [exact T2|]. split; [left; reflexivity|]. split; [apply ended_nl|constructor].
      * rewrite (save2incon_reset d f g _ (title :: save_entries p) (($"+++" ++ q) :: rest) D N FS LT); [|now constructor|right; eauto].
        do 2 f_equal. cbn [concat]. rewrite concat_app. cbn [concat]. rewrite app_nil_r, app_assoc. reflexivity.
      * intros _. constructor; [exact TP|]. apply Forall_app. split; [exact EP|]. constructor; [|constructor]. intros (r & E). discriminate.
    + destruct (split_plus rest) as (A & B & -> & FA & HB). exists stop, (A ++ [[nl]]). apply Forall_app in R as [RA RB].
      assert (SP : ~ plus_line stop) by (intros Q; apply plus_spec in Q; congruence).
      split; [|split].
      * split; [exact T1|]. split; [exact T2|]. split; [exact S1|]. split; [exact S2|]. apply Forall_app. split; [exact RA|]. constructor; [|constructor]. split; [reflexivity|apply ended_nl].
      * rewrite (save2incon_reset d f g _ (title :: save_entries p ++ stop :: A) B D N FS); [|rewrite LT; cbn [app]; rewrite <- app_assoc; reflexivity| |exact HB].
        -- do 2 f_equal. cbn [concat]. rewrite !concat_app. cbn [concat]. rewrite concat_app. cbn [concat]. rewrite app_nil_r, <- !app_assoc. reflexivity.
        -- constructor; [exact TP|]. apply Forall_app. split; [exact EP|]. now constructor.
      * intros _. constructor; [exact TP|]. apply Forall_app. split; [exact EP|]. constructor; [exact SP|]. apply Forall_app. split; [exact FA|]. constructor; [|constructor]. intros (r & E). discriminate.
  - exists stop, rest. split; [exact F|]. split; [|discriminate]. now apply save2incon_copy.
Qed.

Theorem restart_reads d f g p h body title stop rest reset : INCON_ok p -> Write.write_incon p = Ok (h :: body ++ [[nl]]) -> save_frame title stop rest ->
  d f = Some (concat (title :: body ++ stop :: rest)) -> f <> g ->
  exists d' text, save2incon d f g reset = (Ok tt, d') /\ d' g = Some text /\ (forall n, n <> g -> d' n = d n) /\
    (reset = true -> Forall (fun l => ~ plus_line l) (lines text)) /\ (reset = false -> d' g = d f) /\
    (forall ll fuel, label_choice ll -> INCON_known (label_given ll) p -> read_text fuel ll text = Ok (INCON_back p)) /\
    (INCON_known None p -> forall fuel order, read_save fuel order text = read_save fuel order (concat (title :: body ++ stop :: rest))).
Proof.
  intros H W F D N. apply body_entries in W; [|exact H]. subst body.
  destruct (converted d f g p title stop rest reset H F D N) as (stop' & rest' & F' & S & P).
  do 2 eexists. split; [exact S|]. split; [apply store_same|]. split; [intros n X; now rewrite !store_other by auto|]. split; [|split; [|split]].
  - intros E. rewrite lines_all by now apply save_lines_good. now apply P.
  - intros ->. rewrite store_same. rewrite (save2incon_copy d f g _ D N) in S.
    + apply (f_equal (fun r => snd r g)) in S. cbn [snd] in S. rewrite !store_same in S. rewrite D. symmetry. exact S.
    + destruct F as (T1 & _). apply starts_app in T1 as (r & ->). unfold first_line_starts. cbn [concat]. rewrite <- app_assoc. eauto.
  - intros ll fuel C K. now apply save_text_read.
  - intros K fuel order. unfold read_save. rewrite !save_recognized by auto. cbn [bind]. unfold save_read. now rewrite !save_text_read by (auto; exact I).
Qed.

Lemma beside_mesh f : beside f $"MESH" <> beside f $"INCON".
Proof. unfold beside. intros E. apply app_inv_head in E. destruct (path_head f); [discriminate|]. apply app_inv_head in E. discriminate. Qed.

Theorem restart_merged u p n names ending coord cs conn me mt s h body title stop rest reset d save infile outfile input mesh ll fuel :
  prepare u = Ok p -> FILE_ok p -> FILE_known (label_given ll) p -> List.length (titles_of p) < fuel ->
  mesh_fits n names coord cs (links conn) me mt -> length_told ll n (map mc_label cs) ->
  write_text u $"all" = Ok input -> write_mesh names ending coord cs conn me = Ok mesh -> ends_once input ->
  INCON_ok s -> INCON_known (label_given ll) s -> Write.write_incon s = Ok (h :: body ++ [[nl]]) -> save_frame title stop rest ->
  d infile = Some input -> d (beside infile $"MESH") = Some mesh -> d save = Some (concat (title :: body ++ stop :: rest)) ->
  save <> beside infile $"INCON" -> infile <> beside infile $"INCON" ->
  exists d' text, save2incon d save (beside infile $"INCON") reset = (Ok tt, d') /\ merge d' infile outfile = (Ok tt, store d' outfile text) /\
    read_text fuel ll text = Ok (dupdate (dupdate (FILE_back p)
      (mesh_read coord (map (fun c => (c, mt c)) (ending_last ending cs)) (map (labelled cs me) (links conn)))) (INCON_back s)).
Proof.
  intros P F K L M LT WI WM EO H KS W SF DI DM DS NS NI. apply body_entries in W; [|exact H]. subst body.
  destruct (converted d save (beside infile $"INCON") s title stop rest reset H SF DS NS) as (stop' & rest' & F' & S & _).
  eexists. 
  destruct (merged_with u p n names ending coord cs conn me mt (title :: save_entries s ++ stop' :: rest') (INCON_back s)
    (store (store d (beside infile $"INCON") []) (beside infile $"INCON") (concat (title :: save_entries s ++ stop' :: rest'))) infile outfile input mesh ll fuel) as (text & ME & R); auto.
  - now rewrite !store_other by auto.
  - pose proof (beside_mesh infile). now rewrite !store_other by auto.
  - rewrite store_same. split; [now apply save_lines_good|]. split; [|split].
    + intros q. cbn [app]. rewrite <- app_assoc. cbn [app]. apply save_run; auto. apply Run_end.
    + reflexivity.
    + intros i E. assert (X : concat (title :: save_entries s ++ stop' :: rest') = i) by congruence. subst i. destruct F' as (T1 & _). apply starts_app in T1 as (r & ->). unfold first_line_starts. cbn [concat]. rewrite <- app_assoc. eauto.
  - exists text. split; [exact S|]. split; [exact ME|exact R].
Qed.
