(** The type checks of the writer. *)
From Coq Require Import String Ascii ZArith Bool Lia List.
From Verif Require Import Base.Str Base.Digits Base.Flt.
From Verif Require Import Model.Py Model.Records Model.Write.
From Verif Require Import Spec.Types Spec.Values Spec.Rocks Spec.File Spec.Checked.
From Verif Require Import Proofs.DictLemmas Proofs.Types Proofs.FileProof Proofs.FileKeys Proofs.SelectProof.
Import ListNotations.
Local Open Scope Z_scope.

Lemma check_dict_inv dt t v : same_table dt t -> check_dict dt v = Ok tt -> exists d, v = PDict d /\ well_typed t d = true.
Proof.
  intros S E. destruct v; try discriminate. rewrite (check_dict_ok dt t) in E by auto.
  destruct (well_typed t d) eqn:W; [eauto|discriminate].
Qed.
Lemma dgetE_inv k p v : dgetE k p = Ok v -> dget k p = Some v.
Proof. unfold dgetE. destruct (dget k p); congruence. Qed.
Lemma check_at_inv dt t k p : same_table dt t -> check_at dt k [] p = Ok tt -> dict_typed t k p.
Proof.
  intros S E. unfold check_at in E. apply bind_Ok in E as (v & G & E). apply dgetE_inv in G. cbn [descend bind] in E.
  destruct (check_dict_inv _ _ _ S E) as (d & -> & W). exists d. auto.
Qed.
Lemma check_at_default dt k p : same_table dt kinds_MODEL -> check_at dt #"default" [k] p = Ok tt -> default_typed k p.
Proof.
  intros S E. unfold check_at in E. apply bind_Ok in E as (v & G & E). apply dgetE_inv in G. cbn [descend bind] in E.
  apply bind_Ok in E as (v' & D & E). apply bind_Ok in D as (m & D & D'). injection D' as ->.
  destruct v; try discriminate. cbn [subscript] in D. apply dgetE_inv in D.
  destruct (check_dict_inv _ _ _ S E) as (d' & -> & W). exists d, d'. auto.
Qed.
Lemma mapM_all {A B} (f : A -> res B) l bs : mapM f l = Ok bs -> Forall (fun a => exists b, f a = Ok b) l.
Proof.
  revert bs. induction l as [|a l IH]; intros bs E; constructor; cbn [mapM] in E;
    apply bind_Ok in E as (b & E1 & E); [eauto|]. apply bind_Ok in E as (r & E2 & _). eauto.
Qed.
Lemma check_list_inv dt t k p : same_table dt t -> check_list dt k [] p = Ok tt -> each_typed t k p.
Proof.
  intros S E. unfold check_list in E. apply bind_Ok in E as (v & G & E). apply dgetE_inv in G.
  apply bind_Ok in E as (d & D & E). destruct v; try discriminate. injection D as ->.
  apply bind_Ok in E as (us & M & _). exists d. split; auto. apply mapM_all in M.
  eapply Forall_impl; [|exact M]. intros [k' v'] (u & C). cbn [descend snd] in *. destruct u.
  destruct (check_dict_inv _ _ _ S C) as (x & -> & W). eauto.
Qed.
Lemma check_list_models dt k p : same_table dt kinds_MODEL -> each_typed kinds_ROCKS #"rocks" p ->
  check_list dt #"rocks" [k] p = Ok tt -> models_typed k p.
Proof.
  intros S (d & G & F) E. unfold check_list, dgetE in E. rewrite G in E. cbn [bind as_dict] in E.
  apply bind_Ok in E as (us & M & _). exists d. split; auto. apply mapM_all in M.
  rewrite Forall_forall in F, M |- *. intros kv I. destruct (F _ I) as (x & Ex & _). exists x. split; auto.
  destruct (M _ I) as (u & C). rewrite Ex in C. cbn [descend subscript] in C. unfold dgetE in C.
  destruct (dget k x) as [m|]; [|exact Logic.I]. cbn [bind] in C. destruct u.
  destruct (check_dict_inv _ _ _ S C) as (y & -> & W). eauto.
Qed.

(** Reading back along a different order of the rocks. *)
Lemma dget_re k p p' : reordered p p' -> k <> #"rocks_order" -> dget k p' = dget k p.
Proof. intros [-> | (v & ->)] N; [reflexivity|]. now rewrite dget_dset_other. Qed.

Lemma when_true (b : bool) (w : res (list str)) o : when b w = Ok o -> b = true -> exists o', w = Ok o'.
Proof. intros E ->. eauto. Qed.
Lemma if_some_inv k f p o : if_some k f p = Ok o -> given k p = true -> exists o', f p = Ok o'.
Proof.
  unfold if_some, given, val. intros E G. apply bind_Ok in E as (v & D & E). apply dgetE_inv in D.
  rewrite D in G. eapply when_true; eauto.
Qed.
(** What the writer takes for true. *)
Lemma truthy_filled_dict p k t : well_typed kinds_PARAMETERS p = true -> kind_of k kinds_PARAMETERS = Some Dictionary ->
  truthy (val k p) = Ok t -> filled (val k p) = t.
Proof.
  intros W K. pose proof (typed_at _ _ k Dictionary W K) as X. destruct (val k p) as [| | | | | | |d]; try discriminate.
  - intros E. now injection E as <-.
  - cbn. destruct d; intros E; now injection E as <-.
Qed.
Lemma if_true_inv k f p o : well_typed kinds_PARAMETERS p = true -> kind_of k kinds_PARAMETERS = Some Dictionary ->
  if_true k f p = Ok o -> filled (val k p) = true -> exists o', f p = Ok o'.
Proof.
  unfold if_true. intros W K E F. apply bind_Ok in E as (v & D & E). apply bind_Ok in E as (b & T & E).
  apply dgetE_inv in D. assert (V : val k p = v) by (unfold val; now rewrite D). rewrite <- V in T.
  rewrite (truthy_filled_dict p k b) in F by auto. subst b. eauto.
Qed.

Lemma dict_re t k p p' : reordered p p' -> k <> #"rocks_order" -> dict_typed t k p' -> dict_typed t k p.
Proof. intros R N (d & G & W). exists d. rewrite <- (dget_re k p p') by auto. auto. Qed.
Lemma each_re t k p p' : reordered p p' -> k <> #"rocks_order" -> each_typed t k p' -> each_typed t k p.
Proof. intros R N (d & G & W). exists d. rewrite <- (dget_re k p p') by auto. auto. Qed.
Lemma models_re k p p' : reordered p p' -> models_typed k p' -> models_typed k p.
Proof. intros R (d & G & W). exists d. rewrite <- (dget_re #"rocks" p p') by (auto; discriminate). auto. Qed.
Lemma default_re k p p' : reordered p p' -> default_typed k p' -> default_typed k p.
Proof. intros R (d & m & G & W). exists d, m. rewrite <- (dget_re #"default" p p') by (auto; discriminate). auto. Qed.
Lemma val_re k p p' : reordered p p' -> k <> #"rocks_order" -> val k p' = val k p.
Proof. intros R N. unfold val. now rewrite (dget_re k p p'). Qed.
Lemma typed_re p p' : reordered p p' -> forall k, k <> #"rocks_order" -> kind_of k kinds_PARAMETERS = Some Dictionary ->
  well_typed kinds_PARAMETERS p = true -> forall f o, if_true k f p' = Ok o -> filled (val k p) = true -> exists o', f p' = Ok o'.
Proof.
  unfold if_true. intros R k N K W f o E F. rewrite (dgetE_re k p p') in E by auto.
  apply bind_Ok in E as (v & D & E). apply bind_Ok in E as (b & T & E).
  apply dgetE_inv in D. assert (V : val k p = v) by (unfold val; now rewrite D). rewrite <- V in T.
  rewrite (truthy_filled_dict p k b) in F by auto. subst b. eauto.
Qed.
Ltac checks X := repeat match type of X with
  | bind (check_at _ _ _ _) _ = Ok _ => let C := fresh "C" in apply bind_Ok in X as ([] & C & X)
  | bind (check_list _ _ _ _) _ = Ok _ => let C := fresh "C" in apply bind_Ok in X as ([] & C & X)
  end.

Lemma gener_checked p : well_typed kinds_PARAMETERS p = true -> forall o, if_true #"generators" write_gener p = Ok o -> GENER_checked p.
Proof.
  intros W o E F. destruct (if_true_inv #"generators" _ _ _ W eq_refl E F) as (o' & X). unfold write_gener in X. checks X.
  now apply (check_list_inv _ _ _ _ st_GENER).
Qed.
Lemma incon_checked p : well_typed kinds_PARAMETERS p = true -> forall o, if_true #"initial_conditions" write_incon p = Ok o -> INCON_checked p.
Proof.
  intros W o E F. destruct (if_true_inv #"initial_conditions" _ _ _ W eq_refl E F) as (o' & X). unfold write_incon in X. checks X.
  now apply (check_list_inv _ _ _ _ st_INCON).
Qed.
Lemma mesh_checked p : well_typed kinds_PARAMETERS p = true -> forall o, mesh_part p = Ok o -> MESH_checked p.
Proof.
  intros W o E. unfold mesh_part in E. apply bind_Ok in E as (a & Ea & E). apply bind_Ok in E as (b & _ & E).
  apply bind_Ok in E as (c & Ec & _). split; intros F.
  - destruct (if_true_inv #"elements" _ _ _ W eq_refl Ea F) as (o' & X). unfold write_eleme in X. checks X.
    now apply (check_list_inv _ _ _ _ st_ELEME).
  - destruct (if_true_inv #"connections" _ _ _ W eq_refl Ec F) as (o' & X). unfold write_conne in X. checks X.
    now apply (check_list_inv _ _ _ _ st_CONNE).
Qed.
Lemma top_checked p sel l : write_buffer p sel = Ok l -> well_typed kinds_PARAMETERS p = true.
Proof.
  unfold write_buffer. intros E. apply bind_Ok in E as ([] & E1 & _). rewrite (check_dict_ok _ _ _ st_PARAMETERS) in E1.
  destruct (well_typed kinds_PARAMETERS p); congruence.
Qed.
Lemma top_rejected p sel : well_typed kinds_PARAMETERS p = false -> write_buffer p sel = Err TypeError.
Proof. intros W. unfold write_buffer. rewrite (check_dict_ok _ _ _ st_PARAMETERS), W. reflexivity. Qed.

Lemma all_checked p l : write_buffer p SelAll = Ok l -> FILE_checked p.
Proof.
  intros E. pose proof (top_checked _ _ _ E) as W.
  destruct (buffer_parts p l E) as (a & g & b & m & i & c & _ & Wg & Wm & Wi & _).
  apply (gener_checked p W) in Wg. apply (mesh_checked p W) in Wm. apply (incon_checked p W) in Wi.
  unfold write_buffer in E.
  do 4 (apply bind_Ok in E as (? & _ & E)).
  apply bind_Ok in E as (def & ED & E). unfold get_dict in ED. apply bind_Ok in ED as (vd & ED & ED').
  apply bind_Ok in E as (c1 & E1 & E). apply bind_Ok in E as (c2 & E2 & E).
  do 6 (apply bind_Ok in E as (? & _ & E)).
  apply bind_Ok in E as ([out1 p'] & E14 & E).
  apply bind_Ok in E as (? & _ & E). apply bind_Ok in E as (out3 & E15 & E). clear E.
  cbv iota in E14. apply bind_Ok in E14 as (o0 & _ & E14). apply bind_Ok in E14 as ([o1 p1] & WR & E14).
  pose proof (rocks_re _ _ _ WR) as R.
  apply bind_Ok in E14 as (o2 & X2 & E14). apply bind_Ok in E14 as (o3 & X3 & E14).
  apply bind_Ok in E14 as (o4 & _ & E14). apply bind_Ok in E14 as (o5 & X5 & E14). apply bind_Ok in E14 as (o6 & _ & E14).
  apply bind_Ok in E14 as (o7 & X7 & E14). apply bind_Ok in E14 as (o8 & X8 & E14). apply bind_Ok in E14 as (o9 & _ & E14).
  apply bind_Ok in E14 as (o10 & X10 & E14). do 4 (apply bind_Ok in E14 as (? & _ & E14)). injection E14 as _ <-.
  cbv iota in E15. apply bind_Ok in E15 as (? & _ & E15). apply bind_Ok in E15 as (o16 & X16 & _).
  unfold write_rocks in WR. checks WR.
  apply (check_at_inv _ _ _ _ st_ROCKS) in C. apply (check_list_inv _ _ _ _ st_ROCKS) in C0.
  apply (check_list_models _ _ _ st_MODEL C0) in C1. apply (check_list_models _ _ _ st_MODEL C0) in C2.
  unfold write_param in X7. checks X7.
  apply (check_at_inv _ _ _ _ st_PARAM) in C3. apply (check_at_inv _ _ _ _ st_MOP) in C4.
  split; [exact W|]. split; [exact C|]. split; [exact C0|]. split; [exact C1|]. split; [exact C2|].
  split; [|split; [|split; [|split; [|split; [|split; [|split; [|split; [|auto]]]]]]]].
  - intros F. assert (B : c1 || c2 = true).
    { destruct C as (d & GD & _). apply dgetE_inv in ED. rewrite GD in ED. injection ED as <-. cbn [as_dict] in ED'. injection ED' as <-.
      unfold rpcap_given, default_of in F. rewrite (val_some _ _ _ GD) in F. cbn [entries model_keys existsb] in F.
      rewrite orb_false_r in F.
      assert (Q : forall k b, model_set d k = Ok b -> model_given d k = true -> b = true).
      { intros k b' M G. unfold model_set in M. unfold model_given, val in G. destruct (dget k d) as [v|]; [|discriminate].
        apply bind_Ok in M as (id & M & M'). injection M' as <-. destruct v; try discriminate. cbn [subscript entries] in *.
        apply dgetE_inv in M. unfold val in G. rewrite M in G. exact G. }
      apply orb_true_iff in F as [F|F]; [rewrite (Q _ _ E1 F)|rewrite (Q _ _ E2 F)]; auto using orb_true_r. }
    destruct (when_true _ _ _ X2 B) as (o & Y). unfold write_rpcap in Y. checks Y.
    split; apply (default_re _ _ _ R); eapply check_at_default; eauto using st_MODEL.
  - intros F. assert (F' : given #"flac" p1 = true) by (unfold given in *; now rewrite (val_re _ p p1)).
    destruct (if_some_inv _ _ _ _ X3 F') as (o & Y). unfold write_flac in Y. checks Y.
    assert (ER : each_typed kinds_ROCKS #"rocks" p1).
    { destruct C0 as (d & G & FF). exists d. rewrite (dget_re #"rocks" p p1) by (auto; discriminate). auto. }
    split; [apply (dict_re _ _ _ _ R); [discriminate|]; apply (check_at_inv _ _ _ _ st_FLAC); assumption|].
    split; [apply (default_re _ _ _ R); eapply check_at_default; eauto using st_MODEL|].
    split; [apply (default_re _ _ _ R); eapply check_at_default; eauto using st_MODEL|].
    split; apply (models_re _ _ _ R); eapply check_list_models; eauto using st_MODEL.
  - intros F. destruct (typed_re _ _ R #"solver" ltac:(discriminate) eq_refl W _ _ X5 F) as (o & Y). unfold write_solvr in Y. checks Y.
    apply (dict_re _ _ _ _ R); [discriminate|]. apply (check_at_inv _ _ _ _ st_SOLVR); assumption.
  - apply (dict_re _ _ _ _ R); [discriminate|exact C3].
  - apply (dict_re _ _ _ _ R); [discriminate|exact C4].
  - intros F. destruct (typed_re _ _ R #"selections" ltac:(discriminate) eq_refl W _ _ X8 F) as (o & Y). unfold write_selec in Y. checks Y.
    apply (dict_re _ _ _ _ R); [discriminate|]. apply (check_at_inv _ _ _ _ st_SELEC); assumption.
  - intros F. destruct (typed_re _ _ R #"more_options" ltac:(discriminate) eq_refl W _ _ X10 F) as (o & Y). unfold write_momop in Y. checks Y.
    apply (dict_re _ _ _ _ R); [discriminate|]. apply (check_at_inv _ _ _ _ st_MOMOP); assumption.
  - intros F. destruct (typed_re _ _ R #"output" ltac:(discriminate) eq_refl W _ _ X16 F) as (o & Y). unfold write_outpu in Y. checks Y.
    apply (dict_re _ _ _ _ R); [discriminate|]. apply (check_at_inv _ _ _ _ st_OUTPU); assumption.
Qed.

(** ** Written files *)
Lemma gener_part p l : write_buffer p SelGener = Ok l -> exists o, if_true #"generators" write_gener p = Ok o.
Proof.
  unfold write_buffer. intros E. do 13 (apply bind_Ok in E as (? & _ & E)). cbn [bind] in E.
  apply bind_Ok in E as (o & E1 & _). eauto.
Qed.
Lemma mesh_only p l : write_buffer p SelMesh = Ok l -> exists o, mesh_part p = Ok o.
Proof.
  unfold write_buffer. intros E. do 13 (apply bind_Ok in E as (? & _ & E)). cbn [bind] in E.
  fold (mesh_part p) in E. apply bind_Ok in E as (o & E1 & _). eauto.
Qed.
Lemma incon_part p l : write_buffer p SelIncon = Ok l -> exists o, if_true #"initial_conditions" write_incon p = Ok o.
Proof.
  unfold write_buffer. intros E. do 13 (apply bind_Ok in E as (? & _ & E)). cbn [bind] in E.
  apply bind_Ok in E as (o & E1 & _). eauto.
Qed.
Theorem written_checked u s t : write_text u s = Ok t ->
  exists p, prepare u = Ok p /\ well_typed kinds_PARAMETERS p = true /\
    (s = $"all" -> FILE_checked p) /\ (s = $"gener" -> GENER_checked p) /\
    (s = $"mesh" -> MESH_checked p) /\ (s = $"incon" -> INCON_checked p).
Proof.
  unfold write_text. destruct (sel_of s) as [sel|] eqn:ES; [|discriminate]. intros E.
  apply bind_Ok in E as (p & EP & E). apply bind_Ok in E as (l & EW & _). exists p. split; auto.
  pose proof (top_checked _ _ _ EW) as W. split; auto.
  split; [|split; [|split]]; intros ->; vm_compute in ES; injection ES as <-.
  - eapply all_checked; eauto.
  - destruct (gener_part _ _ EW) as (o & X). eapply gener_checked; eauto.
  - destruct (mesh_only _ _ EW) as (o & X). eapply mesh_checked; eauto.
  - destruct (incon_part _ _ EW) as (o & X). eapply incon_checked; eauto.
Qed.

(** ** Refused parameters *)
Theorem wrong_refused u p s k v kd : keys_unique u -> keys_unique (entries (val #"default" u)) -> keys_unique (entries (val #"rocks" u)) ->
  prepare u = Ok p -> In s [$"all"; $"gener"; $"mesh"; $"incon"] -> ~ In k [#"title"; #"default"; #"rocks"] ->
  dget k u = Some v -> kind_of k kinds_PARAMETERS = Some kd -> v <> PNone -> of_kind kd v = false ->
  write_text u s = Err TypeError.
Proof.
  intros U UD UR E S N G K V B. destruct (prepare_completes u p U UD UR E) as (C & _).
  specialize (C k N). rewrite G in C. cbn [pick] in C.
  assert (W : well_typed kinds_PARAMETERS p = false).
  { destruct (well_typed kinds_PARAMETERS p) eqn:W; auto. pose proof (typed_at _ _ k kd W K) as X.
    rewrite (val_some _ _ _ C) in X. rewrite B in X. destruct v; try discriminate. congruence. }
  unfold write_text.
  destruct S as [<-|[<-|[<-|[<-|[]]]]];
    match goal with |- context [sel_of ?x] => let v := eval vm_compute in (sel_of x) in change (sel_of x) with v end;
    cbv iota; rewrite E; cbn [bind]; now rewrite top_rejected.
Qed.

Lemma check_at_bad dt t k p d : same_table dt t -> dget k p = Some (PDict d) -> well_typed t d = false ->
  check_at dt k [] p = Err TypeError.
Proof.
  intros S G W. unfold check_at, dgetE. rewrite G. cbn [bind descend].
  rewrite (check_dict_ok dt t) by auto. now rewrite W.
Qed.
Lemma check_list_bad dt t k p d : same_table dt t -> dget k p = Some (PDict d) ->
  Forall (fun kv => exists x, snd kv = PDict x) d -> Exists (fun kv => well_typed t (entries (snd kv)) = false) d ->
  check_list dt k [] p = Err TypeError.
Proof.
  intros S G F X. unfold check_list, dgetE. rewrite G. cbn [bind as_dict]. clear G.
  match goal with |- context [mapM ?f d] => set (g := f) end.
  assert (H : forall k' x, g (k', PDict x) = if well_typed t x then Ok tt else Err TypeError)
    by (intros; unfold g; cbn [snd descend]; now rewrite (check_dict_ok dt t)).
  assert (M : mapM g d = Err TypeError).
  { clearbody g. induction F as [|[k' v] d (x & Ex) F IH]; [inversion X|]. cbn [snd] in Ex. subst v. cbn [mapM].
    rewrite H. destruct (well_typed t x) eqn:W; cbn [bind]; [|reflexivity].
    rewrite IH; [reflexivity|]. inversion X as [? ? Y|]; subst; auto. cbn [snd entries] in Y. congruence. }
  now rewrite M.
Qed.
Theorem single_refused w k t p d : In (w, k, t) single_blocks -> dget k p = Some (PDict d) -> well_typed t d = false ->
  w p = Err TypeError.
Proof.
  intros I G W. cbn [single_blocks In] in I.
  repeat destruct I as [I|I]; try contradiction; injection I as <- <- <-.
  - unfold write_flac. rewrite (check_at_bad _ _ #"flac" _ _ st_FLAC G W). reflexivity.
  - unfold write_solvr. rewrite (check_at_bad _ _ #"solver" _ _ st_SOLVR G W). reflexivity.
  - unfold write_param. rewrite (check_at_bad _ _ #"options" _ _ st_PARAM G W). reflexivity.
  - unfold write_selec. rewrite (check_at_bad _ _ #"selections" _ _ st_SELEC G W). reflexivity.
  - unfold write_momop. rewrite (check_at_bad _ _ #"more_options" _ _ st_MOMOP G W). reflexivity.
  - unfold write_outpu. rewrite (check_at_bad _ _ #"output" _ _ st_OUTPU G W). reflexivity.
Qed.
Theorem named_refused w k t p d : In (w, k, t) named_blocks -> dget k p = Some (PDict d) ->
  Forall (fun kv => exists x, snd kv = PDict x) d -> Exists (fun kv => well_typed t (entries (snd kv)) = false) d ->
  w p = Err TypeError.
Proof.
  intros I G F X. cbn [named_blocks In] in I.
  repeat destruct I as [I|I]; try contradiction; injection I as <- <- <-.
  - unfold write_gener. rewrite (check_list_bad _ _ #"generators" _ _ st_GENER G F X). reflexivity.
  - unfold write_eleme. rewrite (check_list_bad _ _ #"elements" _ _ st_ELEME G F X). reflexivity.
  - unfold write_conne. rewrite (check_list_bad _ _ #"connections" _ _ st_CONNE G F X). reflexivity.
  - unfold write_incon. rewrite (check_list_bad _ _ #"initial_conditions" _ _ st_INCON G F X). reflexivity.
Qed.
