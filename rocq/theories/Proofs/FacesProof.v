(** The arrays of faces, cell by cell. *)
From Coq Require Import String Ascii Arith ZArith QArith Qcanon Reals Qreals Lra Bool Lia Permutation List.
From Verif Require Import Base.Str Model.Py Model.Numpy Model.Mesh Model.MeshOps Model.Geometry Model.Import Model.Conne.
From Verif Require Import Proofs.ReorderProof Proofs.ImportProof.
Import ListNotations.
Local Open Scope nat_scope.

Section Regroup.
Context {A : Type}.
Definition of_cell (i : nat) (l : list (nat * A)) : list A := map snd (filter (fun ix => fst ix =? i) l).
Lemma fold_rows l : forall rows, (forall ix, In ix l -> fst ix < List.length rows) ->
  exists rows', foldM add_row rows l = Ok rows' /\ List.length rows' = List.length rows /\
    forall i r, nth_error rows i = Some r -> nth_error rows' i = Some (r ++ of_cell i l).
Proof.
  induction l as [|[j x] l IH]; intros rows B; cbn [foldM].
  - exists rows. split; [reflexivity|]. split; [reflexivity|]. intros i r E. unfold of_cell. cbn. now rewrite app_nil_r.
  - unfold add_row at 1. cbn [fst snd]. pose proof (B (j, x) (or_introl eq_refl)) as BJ. cbn in BJ.
    destruct (nth_error rows j) as [r0|] eqn:E; [|apply nth_error_None in E; lia]. cbn [bind].
    destruct (IH (set_nth j (r0 ++ [x]) rows)) as (rows' & E1 & L & H). { intros ix I. rewrite set_nth_length. apply B. now right. }
    exists rows'. split; [exact E1|]. split; [now rewrite L, set_nth_length|]. intros i r EI. unfold of_cell. cbn [filter fst].
    destruct (Nat.eqb_spec j i) as [->|NE].
    + assert (r = r0) by congruence. subst r. rewrite (H i (r0 ++ [x])) by now apply set_nth_same. cbn [map snd]. now rewrite <- app_assoc.
    + apply H. now rewrite set_nth_other.
Qed.
Lemma regroup_rows n l : (forall ix, In ix l -> fst ix < n) ->
  exists rows, regroup n l = Ok rows /\ List.length rows = n /\ forall i, i < n -> nth_error rows i = Some (of_cell i l).
Proof.
  intros B. destruct (fold_rows l (repeat [] n)) as (rows & E & L & H); [intros ix I; rewrite repeat_length; auto|]. exists rows. split; [exact E|]. rewrite repeat_length in L.
  split; [exact L|]. intros i I. apply (H i []). rewrite nth_error_repeat; auto.
Qed.
End Regroup.

(** Triangles come before quads. *)
Definition triangles_first (fs : list (list nat)) : Prop :=
  filter (fun f => List.length f =? 3) fs ++ filter (fun f => List.length f =? 4) fs = fs.
Lemma take_length {A} (l : list A) idx r : take l idx = Ok r -> List.length r = List.length idx.
Proof. unfold take. intros E. exact (mapM_length _ _ _ E). Qed.
Lemma cell_faces_first t c fs : cell_faces t c = Ok fs -> triangles_first fs.
Proof.
  unfold cell_faces. destruct (face_table t) as [tb|] eqn:T; [|discriminate]. intros E.
  assert (S : map (@List.length nat) fs = map (@List.length nat) tb).
  { revert fs E. clear T. induction tb as [|f tb IH]; intros fs E; cbn [mapM] in E; [injection E as <-; reflexivity|].
    destruct (take c f) as [x|] eqn:X; [|discriminate]. cbn [bind] in E. destruct (mapM (take c) tb) as [y|]; [|discriminate]. cbn [bind] in E. injection E as <-. cbn [map]. rewrite (take_length _ _ _ X), (IH y eq_refl). reflexivity. }
  unfold face_table in T. repeat match type of T with (if ?b then _ else _) = _ => destruct b end; try discriminate; injection T as <-; cbn in S;
  repeat (destruct fs as [|?f fs]; [discriminate S|]; cbn in S; injection S as ?H S); destruct fs; try discriminate; unfold triangles_first; cbn;
  repeat match goal with H : List.length _ = _ |- _ => rewrite H; clear H end; reflexivity.
Qed.
Lemma faces_first cells F : faces cells = Ok F -> Forall triangles_first F.
Proof.
  unfold faces. generalize (all_cells cells). intros l. revert F. induction l as [|tc l IH]; intros F E; cbn [mapM] in E; [injection E as <-; constructor|].
  destruct (cell_faces (fst tc) (snd tc)) as [x|] eqn:X; [|discriminate]. cbn [bind] in E. destruct (mapM _ l) as [y|]; [|discriminate]. cbn [bind] in E. injection E as <-.
  constructor; [eapply cell_faces_first; eauto|auto].
Qed.
Lemma all_cells_length cells : List.length (all_cells cells) = n_cells cells.
Proof. unfold all_cells, n_cells. induction cells as [|b r IH]; [reflexivity|]. cbn [map concat list_sum fold_right]. rewrite app_length, map_length, IH. reflexivity. Qed.
Lemma faces_length cells F : faces cells = Ok F -> List.length F = n_cells cells.
Proof. unfold faces. intros E. rewrite (mapM_length _ _ _ E). apply all_cells_length. Qed.

Lemma filter_map {A B} (p : B -> bool) (g : A -> B) l : filter p (map g l) = map g (filter (fun x => p (g x)) l).
Proof. induction l as [|x l IH]; [reflexivity|]. cbn. destruct (p (g x)); cbn; now rewrite IH. Qed.
Lemma filter_none {A} (p : A -> bool) l : (forall x, In x l -> p x = false) -> filter p l = [].
Proof. induction l as [|x l IH]; intros H; [reflexivity|]. cbn. rewrite (H x (or_introl eq_refl)). apply IH. intros; apply H; now right. Qed.
Lemma filter_all {A} (p : A -> bool) l : (forall x, In x l -> p x = true) -> filter p l = l.
Proof. induction l as [|x l IH]; intros H; [reflexivity|]. cbn. rewrite (H x (or_introl eq_refl)). f_equal. apply IH. intros; apply H; now right. Qed.
Lemma filter_filter {A} (p q : A -> bool) l : filter p (filter q l) = filter q (filter p l).
Proof. induction l as [|x l IH]; [reflexivity|]. cbn. destruct (p x) eqn:P, (q x) eqn:Q; cbn; rewrite ?P, ?Q, IH; reflexivity. Qed.

(** The occurrences in cell [i] are the faces of cell [i]. *)
Lemma occ_from F : forall b i fs, nth_error F i = Some fs ->
  filter (fun o : (nat * nat) * list nat => fst (fst o) =? (b + i)) (concat (map (fun ic => map (fun jf => ((fst ic, fst jf), snd jf)) (numbered (snd ic))) (combine (seq b (List.length F)) F))) =
  map (fun jf => ((b + i, fst jf), snd jf)) (numbered fs).
Proof.
  induction F as [|c F IH]; intros b i fs E; [now destruct i|]. cbn [List.length seq combine map concat fst snd]. rewrite filter_app. destruct i as [|i].
  - injection E as ->. rewrite Nat.add_0_r. rewrite filter_all.
    2: { intros x I. apply in_map_iff in I as (y & <- & _). cbn. apply Nat.eqb_refl. }
    rewrite filter_none; [apply app_nil_r|]. intros x I. apply in_concat in I as (l & I1 & I2). apply in_map_iff in I1 as ([k d] & <- & I1). apply in_map_iff in I2 as (y & <- & _).
    cbn. apply in_combine_l in I1. apply in_seq in I1. apply Nat.eqb_neq. lia.
  - rewrite filter_none. 2: { intros x I. apply in_map_iff in I as (y & <- & _). cbn. apply Nat.eqb_neq. lia. }
    cbn [app]. rewrite Nat.add_succ_r, <- Nat.add_succ_l. apply (IH (S b) i fs). exact E.
Qed.
Lemma map_snd_numbered {A} (l : list A) : map snd (numbered l) = l.
Proof. unfold numbered. generalize 0. induction l as [|x l IH]; intros k; [reflexivity|]. cbn. now rewrite IH. Qed.
Lemma kind_of_cell F i fs : nth_error F i = Some fs -> triangles_first fs ->
  map snd (filter (fun o => fst (fst o) =? i) (by_kind F)) = fs.
Proof.
  intros E T. unfold by_kind. rewrite filter_app. unfold of_kind. rewrite !(filter_filter (fun o => fst (fst o) =? i)).
  pose proof (occ_from F 0 i fs E) as O. cbn [plus] in O. unfold occurrences, numbered at 2 4. rewrite O. clear O.
  rewrite map_app, !filter_map. cbn [snd]. rewrite !map_map. cbn [snd].
  assert (G : forall (q : list nat -> bool), map (fun x => snd x) (filter (fun x : nat * list nat => q (snd x)) (numbered fs)) = filter q fs).
  { intros q. rewrite <- (map_snd_numbered fs) at 2. rewrite filter_map. reflexivity. }
  cbn beta.
  rewrite (G (fun f => List.length f =? 3)), (G (fun f => List.length f =? 4)). exact T.
Qed.
Lemma by_kind_bound F o : In o (by_kind F) -> fst (fst o) < List.length F.
Proof.
  intros I. unfold by_kind, of_kind in I. apply in_app_or in I as [I|I]; apply filter_In in I as (I & _); unfold occurrences in I;
  apply in_concat in I as (l & I1 & I2); apply in_map_iff in I1 as ([k d] & <- & I1); apply in_map_iff in I2 as (y & <- & _); cbn; unfold numbered in I1; apply in_combine_l in I1; apply in_seq in I1; lia.
Qed.

(** A value for each face, back by cell, is the array of the values of its faces. *)
Section Values.
Context {A : Type} (g : list nat -> res A).
Lemma values_filter i l ns : mapM (fun o : (nat * nat) * list nat => let* a := g (snd o) in Ok (fst (fst o), a)) l = Ok ns ->
  mapM g (map snd (filter (fun o => fst (fst o) =? i) l)) = Ok (of_cell i ns).
Proof.
  revert ns. induction l as [|o l IH]; intros ns E; cbn [mapM] in E; [injection E as <-; reflexivity|].
  destruct (g (snd o)) as [a|] eqn:G; [|discriminate]. cbn [bind] in E. destruct (mapM _ l) as [y|]; [|discriminate]. cbn [bind] in E. injection E as <-.
  unfold of_cell. cbn [filter fst]. destruct (fst (fst o) =? i); [|exact (IH y eq_refl)]. cbn [map mapM snd]. rewrite G. cbn [bind]. rewrite (IH y eq_refl). reflexivity.
Qed.
Lemma values_bound l ns : mapM (fun o : (nat * nat) * list nat => let* a := g (snd o) in Ok (fst (fst o), a)) l = Ok ns ->
  forall ix, In ix ns -> exists o, In o l /\ fst ix = fst (fst o).
Proof.
  revert ns. induction l as [|o l IH]; intros ns E ix I; cbn [mapM] in E; [injection E as <-; destruct I|].
  destruct (g (snd o)) as [a|] eqn:G; [|discriminate]. cbn [bind] in E. destruct (mapM _ l) as [y|]; [|discriminate]. cbn [bind] in E. injection E as <-.
  destruct I as [<-|I]; [exists o; split; [now left|reflexivity]|]. destruct (IH y eq_refl ix I) as (o' & I' & E'). exists o'. split; [now right|exact E'].
Qed.
Lemma per_cell cells F ns n : faces cells = Ok F -> n = n_cells cells ->
  mapM (fun o : (nat * nat) * list nat => let* a := g (snd o) in Ok (fst (fst o), a)) (by_kind F) = Ok ns ->
  exists rows, regroup n ns = Ok rows /\ List.length rows = n /\
    forall i fs, nth_error F i = Some fs -> exists row, nth_error rows i = Some row /\ mapM g fs = Ok row.
Proof.
  intros EF EN E. pose proof (faces_length _ _ EF) as FL. destruct (regroup_rows n ns) as (rows & R & L & H).
  { intros ix I. destruct (values_bound _ _ E ix I) as (o & IO & ->). apply by_kind_bound in IO. lia. }
  exists rows. split; [exact R|]. split; [exact L|]. intros i fs NI. assert (B : i < List.length F) by (apply nth_error_Some; congruence).
  exists (of_cell i ns). split; [apply H; lia|]. rewrite <- (values_filter i _ _ E). rewrite (kind_of_cell F i fs NI); [reflexivity|].
  pose proof (faces_first _ _ EF) as T. rewrite Forall_forall in T. apply T. eapply nth_error_In; eauto.
Qed.
End Values.

(** Face by face. *)
Lemma mapM_nth_error {A B} (g : A -> res B) l r : mapM g l = Ok r -> forall k a, nth_error l k = Some a -> exists b, nth_error r k = Some b /\ g a = Ok b.
Proof. intros E k a H. destruct (mapM_nth _ _ _ _ _ E H) as (b & H1 & H2). eauto. Qed.
Definition face_at (F : list (list (list nat))) (i k : nat) : option (list nat) :=
  match nth_error F i with Some fs => nth_error fs k | None => None end.
Definition value_at {A} (rows : list (list A)) (i k : nat) : option A :=
  match nth_error rows i with Some r => nth_error r k | None => None end.
Lemma face_areas_ok {V} (m : mesh Qc V) F areas : faces (cells m) = Ok F -> face_areas m = Ok areas ->
  List.length areas = n_cells (cells m) /\ (forall i fs, nth_error F i = Some fs -> exists row, nth_error areas i = Some row /\ List.length row = List.length fs) /\
  forall i k f, face_at F i k = Some f -> exists a, value_at areas i k = Some a /\ face_area (points m) f = Ok a.
Proof.
  intros EF E. unfold face_areas in E. rewrite EF in E. cbn [bind] in E. destruct (guard _ _); [|discriminate]. cbn [bind] in E.
  destruct (mapM _ (by_kind F)) as [ns|] eqn:N; [|discriminate]. cbn [bind] in E.
  destruct (per_cell _ (cells m) F ns _ EF eq_refl N) as (rows & R & L & H). assert (rows = areas) by congruence. subst rows. split; [exact L|]. split.
  - intros i fs NI. destruct (H i fs NI) as (row & H1 & H2). exists row. split; [exact H1|]. exact (mapM_length _ _ _ H2).
  - intros i k f FA. unfold face_at in FA. destruct (nth_error F i) as [fs|] eqn:NI; [|discriminate]. destruct (H i fs NI) as (row & H1 & H2). unfold value_at. rewrite H1. eapply mapM_nth_error; eauto.
Qed.
Lemma face_normals_ok {V} (m : mesh Qc V) F normals : faces (cells m) = Ok F -> face_normals m = Ok normals ->
  List.length normals = n_cells (cells m) /\ (forall i fs, nth_error F i = Some fs -> exists row, nth_error normals i = Some row /\ List.length row = List.length fs) /\
  forall i k f, face_at F i k = Some f -> exists u n, value_at normals i k = Some u /\ triangle_normal (points m) 0 1 2 f = Ok n /\ normalized n = Ok u.
Proof.
  intros EF E. unfold face_normals in E. rewrite EF in E. cbn [bind] in E. destruct (guard _ _); [|discriminate]. cbn [bind] in E.
  destruct (mapM _ (by_kind F)) as [ns|] eqn:N; [|discriminate]. cbn [bind] in E.
  assert (N' : mapM (fun o : (nat * nat) * list nat => let* a := (fun f => let* n := triangle_normal (points m) 0 1 2 f in normalized n) (snd o) in Ok (fst (fst o), a)) (by_kind F) = Ok ns).
  { rewrite <- N. clear. induction (by_kind F) as [|o l IH]; [reflexivity|]. cbn [mapM]. rewrite IH. destruct (triangle_normal (points m) 0 1 2 (snd o)); reflexivity. }
  destruct (per_cell _ (cells m) F ns _ EF eq_refl N') as (rows & R & L & H). assert (rows = normals) by congruence. subst rows. split; [exact L|]. split.
  - intros i fs NI. destruct (H i fs NI) as (row & H1 & H2). exists row. split; [exact H1|]. exact (mapM_length _ _ _ H2).
  - intros i k f FA. unfold face_at in FA. destruct (nth_error F i) as [fs|] eqn:NI; [|discriminate]. destruct (H i fs NI) as (row & H1 & H2). unfold value_at. rewrite H1.
    destruct (mapM_nth_error _ _ _ H2 k f FA) as (u & U1 & U2). destruct (triangle_normal (points m) 0 1 2 f) as [n|] eqn:T; [|discriminate]. exists u, n. auto.
Qed.
