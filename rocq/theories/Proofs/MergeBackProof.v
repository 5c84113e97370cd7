(** Reading the input file merged with a mesh. *)
From Coq Require Import String Ascii Arith ZArith Bool Lia List.
From Verif Require Import Base.Str Base.Digits Base.Flt Base.FltText Model.Py Model.Records Model.Write Model.Cli Model.Mesh Model.MeshFile Model.Read Model.MeshRead
  Spec.Fields Spec.Values Spec.Layouts Spec.Labels Spec.Simple Spec.File Spec.Cli Spec.MeshBack Spec.InconBack Spec.MergeBack
  Proofs.RecordLemmas Proofs.DictLemmas Proofs.BlockTools Proofs.FileProof Proofs.FileKeys Proofs.CliProof Proofs.MeshBackProof Proofs.InconBackProof.
Import ListNotations.
Local Open Scope nat_scope.

Lemma removelast_last {A} (l : list A) x : removelast (l ++ [x]) = l.
Proof. apply removelast_last. Qed.
Lemma opens_exact k r : upper (lit k) = lit k -> opens_with k (lit k ++ r).
Proof. intros U. exists (lit k), r. auto. Qed.
Lemma head_opens k : List.length (lit k) <= 5 -> upper (lit k) = lit k -> opens_with k (head (lit k)).
Proof. intros L U. unfold head, ljust. rewrite <- !app_assoc. now apply opens_exact. Qed.
Lemma head_first k l : first_line_starts k (concat (head (lit k) :: l)).
Proof. unfold first_line_starts. cbn [concat]. unfold head, ljust. repeat rewrite <- app_assoc. eauto. Qed.
Lemma endcy_line : end_line (head_noend $"ENDCY").
Proof. right. unfold head_noend. change $"ENDCY" with (lit "ENDCY"). exists (lit "ENDCY"). eexists. split; [vm_compute; reflexivity|reflexivity]. Qed.

(** The INCON file beside the input, as lines which give the entries [cond]. *)
Definition incon_beside (ll : option nat) (file : option str) (more : list str) (cond : dict) : Prop :=
  Forall good_line more /\
  (forall q, Run ll q (more ++ [head_noend $"ENDCY"]) (Ok (dupdate q cond))) /\
  match file return str with Some i => i | None => [] end = concat more /\
  (forall incon, file = Some incon -> first_line_starts "INCON" incon).

Theorem merged_with u p n names ending coord cs conn me mt more cond d infile outfile input mesh ll fuel :
  prepare u = Ok p -> FILE_ok p -> FILE_known (label_given ll) p -> List.length (titles_of p) < fuel ->
  mesh_fits n names coord cs (links conn) me mt -> length_told ll n (map mc_label cs) ->
  write_text u $"all" = Ok input -> write_mesh names ending coord cs conn me = Ok mesh -> ends_once input ->
  d infile = Some input -> d (beside infile $"MESH") = Some mesh ->
  incon_beside (label_given ll) (d (beside infile $"INCON")) more cond ->
  exists text, merge d infile outfile = (Ok tt, store d outfile text) /\
    read_text fuel ll text = Ok (dupdate (dupdate (FILE_back p)
      (mesh_read coord (map (fun c => (c, mt c)) (ending_last ending cs)) (map (labelled cs me) (links conn)))) cond).
Proof.
  intros P F K L (N & FC & DL & DN & NL & FL & ONE) LT WI WM EO DI DM (GB & RB & EI & SI).
  destruct (mesh_back_lines n names ending coord cs conn me mt N FC DL DN NL FL ONE) as (mb & WM' & GM & RM). assert (EM0 : mesh = concat (head $"ELEME" :: mb)) by congruence. subst mesh. clear WM.
  destruct (RM ll LT) as (LC & RM').
  destruct (FILE_extended u p ll fuel P F LC K L) as (a & b & c & WI' & GI & RI). assert (EI0 : input = concat (a ++ head $"ROCKS" :: b ++ head $"PARAM" :: c) ++ head_noend $"ENDCY") by congruence. subst input. clear WI.
  set (A := a ++ head $"ROCKS" :: b ++ head $"PARAM" :: c) in *.
  assert (LI : lines (concat A ++ head_noend $"ENDCY") = A ++ [head_noend $"ENDCY"]) by (rewrite lines_good by exact GI; reflexivity).
  unfold ends_once in EO. rewrite LI, removelast_last in EO.
  exists (concat A ++ concat (head $"ELEME" :: mb ++ more) ++ head_noend $"ENDCY"). split.
  - rewrite (merge_ok d infile outfile _ _ A (head_noend $"ENDCY") [] DI DM LI EO endcy_line).
    + match goal with |- (_, store d outfile (_ ++ _ ++ ?i ++ _)) = _ => replace i with (concat more) by (symmetry; exact EI) end. do 2 f_equal. change (head $"ELEME" :: mb ++ more) with ((head $"ELEME" :: mb) ++ more). rewrite concat_app. cbn [concat]. rewrite app_nil_r, <- !app_assoc. reflexivity.
    + rewrite LI. unfold A. exists a, (head $"ROCKS"), b, (head $"PARAM"), c, (head_noend $"ENDCY"), [].
      split; [repeat (rewrite <- app_assoc; cbn [app]); reflexivity|]. split; [|split].
      * left. now apply head_opens; [vm_compute; lia|].
      * right; left. now apply head_opens; [vm_compute; lia|].
      * right; right. apply endcy_line.
    + exact (head_first _ _).
    + exact SI.
  - apply RI; [right; do 2 eexists; split; [|reflexivity]; cbn [block_names In]; tauto| |].
    + apply Forall_cons_iff in GM as [G1 G2]. constructor; [exact G1|]. apply Forall_app. auto.
    + cbn [app]. rewrite <- app_assoc. apply RM'. apply RB.
Qed.


Theorem merged_reads u p n names ending coord cs conn me mt (ic : option (list icell)) k d infile outfile input mesh ll fuel :
  prepare u = Ok p -> FILE_ok p -> FILE_known (label_given ll) p -> List.length (titles_of p) < fuel ->
  mesh_fits n names coord cs (links conn) me mt -> length_told ll n (map mc_label cs) ->
  write_text u $"all" = Ok input -> write_mesh names ending coord cs conn me = Ok mesh -> ends_once input ->
  d infile = Some input -> d (beside infile $"MESH") = Some mesh ->
  match ic with
  | Some ics => conditions_fit n k ics /\ length_told ll n (map ic_label ics) /\ exists t, write_incon ics = Ok t /\ d (beside infile $"INCON") = Some t
  | None => d (beside infile $"INCON") = None
  end ->
  exists text, merge d infile outfile = (Ok tt, store d outfile text) /\
    read_text fuel ll text = Ok (dupdate (dupdate (FILE_back p)
      (mesh_read coord (map (fun c => (c, mt c)) (ending_last ending cs)) (map (labelled cs me) (links conn)))) (conditions_if ic)).
Proof.
  intros P F K L M LT WI WM EO DI DM HI. pose proof M as (N & _).
  assert (X : exists more, incon_beside (label_given ll) (d (beside infile $"INCON")) more (conditions_if ic)).
  { destruct ic as [ics|].
    - destruct HI as ((_ & NE & FI & DI') & LT' & t & WT & DT). destruct (incon_back_lines n k ics N NE FI DI') as (ib & WT' & GB & RB). assert (ET0 : t = concat (head $"INCON" :: ib)) by congruence. subst t. clear WT.
      destruct (RB ll LT') as (_ & RB'). exists (head $"INCON" :: ib). split; [exact GB|]. split; [|split].
      + intros q. cbn [app]. apply RB'. apply Run_end.
      + now rewrite DT.
      + intros i E. rewrite DT in E. injection E as <-. exact (head_first _ _).
    - exists []. split; [constructor|]. split; [|split].
      + intros q. apply Run_end.
      + now rewrite HI.
      + intros i E. congruence. }
  destruct X as (more & X). exact (merged_with u p n names ending coord cs conn me mt more _ d infile outfile input mesh ll fuel P F K L M LT WI WM EO DI DM X).
Qed.

Theorem merged_entries p coord order pairs ic : (filled (val #"coordinates" p) = true -> filled (val #"elements" p) = true) ->
  forall k, dget k (dupdate (dupdate (FILE_back p) (mesh_read coord order pairs)) (conditions_if ic)) = merged_entry p (mesh_read coord order pairs) (conditions_if ic) k.
Proof.
  intros C k. assert (K1 : keys_unique (mesh_read coord order pairs)) by (apply no_dup_keys_ok; reflexivity).
  assert (K2 : keys_unique (conditions_if ic)) by (destruct ic; apply no_dup_keys_ok; reflexivity).
  rewrite !dget_dupdate by assumption. rewrite (FILE_lookup p C). reflexivity.
Qed.
Lemma dget_filter (f : key -> bool) k d : dget k (filter (fun kv => f (fst kv)) d) = if f k then dget k d else None.
Proof.
  induction d as [|[a w] d IH]; [now destruct (f k)|]. cbn [filter fst]. destruct (f a) eqn:E; cbn [dget]; destruct (key_eqb k a) eqn:E'; try exact IH.
  - apply key_eqb_eq in E'. subst a. now rewrite E.
  - apply key_eqb_eq in E'. subst a. rewrite IH, E. reflexivity.
Qed.
Theorem mesh_entries fuel ll text q : read_text fuel ll text = Ok q ->
  exists m, read_mesh fuel ll text = Ok m /\ forall k, dget k m = if of_mesh k then dget k q else None.
Proof. intros E. unfold read_mesh. rewrite E. cbn [bind]. eexists. split; [reflexivity|]. intros k. apply (dget_filter of_mesh). Qed.
