(** Results exported on a mesh. *)
From Coq Require Import String Ascii Arith ZArith QArith Qcanon Bool Lia Permutation Sorted List.
From Verif Require Import Base.Str Base.Flt Model.Py Model.Numpy Model.Mesh Model.MeshOps Model.Labeler Model.Dispatch Model.Output Model.Extract Model.TimeSeries Model.Import Model.Export Spec.MeshCells Spec.Output Spec.Import Spec.TimeSeries Spec.Export Proofs.ReorderProof Proofs.TimeSeriesProof Proofs.ImportProof Spec.Dispatch Proofs.DispatchProof.
Import ListNotations.
Local Open Scope nat_scope.

Lemma is_xyz_spec k : is_xyz k = true <-> coordinate_name k.
Proof.
  unfold is_xyz, coordinate_name. rewrite existsb_exists. split.
  - intros (x & I & E). apply streqb_eq in E. now subst.
  - intros I. exists k. split; [exact I|apply streqb_refl].
Qed.
Lemma points_default {T P V} argsort of_nat cells (cd : list (list (str * list V))) (ts : list T) : cd <> [] ->
  @write_time_series T P V argsort of_nat cells None (Some cd) (Some ts) = write_time_series argsort of_nat cells (Some (map (fun _ => []) cd)) (Some cd) (Some ts).
Proof.
  intros N. destruct cd as [|c cd]; [contradiction|]. unfold write_time_series. cbn [TimeSeries.given TimeSeries.size orb negb or_empty map List.length guard bind]. rewrite !map_length, !Nat.eqb_refl. cbn [guard bind].
  replace (map (fun _ : list (str * list V) => []) cd) with (repeat (@nil (str * P)) (List.length cd)); [reflexivity|]. clear. induction cd as [|q cd IH]; [reflexivity|]. cbn [repeat List.length map]. now rewrite IH.
Qed.
Lemma triples_map {A B T} (f : A -> T) (g : A -> B) (l : list A) (h : B -> list (str * unit)) : triples (map f l) (map h (map g l)) (map g l) = map (fun a => (f a, h (g a), g a)) l.
Proof. induction l as [|a l IH]; [reflexivity|]. cbn [map triples]. now rewrite IH. Qed.

(** The columns shown of an output put in order. *)
Lemma reordered labels o own t : results_for labels o own t -> exists o', reorder_labels o labels = Ok o' /\ o_time o' = Some t /\
  exports labels o (t, [], shown o').
Proof.
  intros (L & N & P & T & C). destruct (reorder_keeps o own labels L N P C) as (o' & R & T' & F' & Ti & L' & Na & D). exists o'. split; [exact R|]. split; [congruence|].
  exists own. split; [repeat split; auto|]. split; [reflexivity|]. cbn [fst snd]. split.
  - intros k. unfold names in *. rewrite <- Na. unfold shown. rewrite !in_map_iff. split.
    + intros ([k1 c] & <- & I). apply filter_In in I as [I X]. cbn [fst] in *. split; [exists (k1, c); auto|]. intros Y. apply is_xyz_spec in Y. rewrite Y in X. discriminate X.
    + intros [([k1 c] & <- & I) X]. exists (k1, c). split; [reflexivity|]. apply filter_In. split; [exact I|]. cbn [fst] in *. destruct (is_xyz k1) eqn:E; [|reflexivity]. apply is_xyz_spec in E. contradiction.
  - intros k c' I. unfold shown in I. apply filter_In in I as [I _]. apply In_nth_error in I as (n & I).
    assert (LN : List.length (o_data o') = List.length (o_data o)) by (apply (f_equal (@List.length str)) in Na; unfold names in Na; now rewrite !map_length in Na).
    destruct (nth_error (o_data o) n) as [[k0 c]|] eqn:E; [|apply nth_error_None in E; assert (X : nth_error (o_data o') n = None) by (apply nth_error_None; lia); congruence].
    destruct (D n k0 c E) as (c1 & H1 & H2 & H3). rewrite H1 in I. injection I as -> ->. exists c. split; [eapply nth_error_In; eauto|]. split; [exact H2|exact H3].
Qed.
Lemma all_reordered labels outs : Forall (fun o => exists own t, results_for labels o own t) outs -> exists outs' (rows : list (flt * list (str * list flt))),
  mapM (fun o => reorder_labels o labels) outs = Ok outs' /\ mapM (fun o => match o_time o with Some t => Ok t | None => Err Unmodelled end) outs' = Ok (map fst rows) /\
  map shown outs' = map snd rows /\ Forall2 (fun o r => exports labels o (fst r, [], snd r)) outs rows.
Proof.
  induction 1 as [|o outs (own & t & H) _ (outs' & rows & E1 & E2 & E3 & E4)]; [exists [], []; cbn; auto|].
  destruct (reordered labels o own t H) as (o' & R & T & X). exists (o' :: outs'), ((t, shown o') :: rows). cbn [mapM map fst snd]. rewrite R. cbn [bind]. rewrite E1. cbn [bind]. rewrite T. cbn [bind]. rewrite E2. cbn [bind]. rewrite E3.
  split; [reflexivity|]. split; [reflexivity|]. split; [reflexivity|]. constructor; auto.
Qed.
Lemma last_some (outs : list output) : outs <> [] -> exists o, last_output outs = Some o /\ In o outs.
Proof.
  induction outs as [|o outs IH]; [contradiction|]. intros _. destruct outs as [|o1 outs]; [exists o; split; [reflexivity|now left]|]. destruct IH as (x & E & I); [discriminate|]. exists x. split; [exact E|now right].
Qed.

Theorem export_series argsort leb ll time_step outs (m : mesh Qc cellvalue) labels : sorts leb argsort -> cells m <> [] ->
  labeler (Z.of_nat (n_cells (cells m))) ll = Ok labels -> List.length labels = list_sum (sizes (cells m)) ->
  outs <> [] -> Forall (fun o => exists own t, results_for labels o own t) outs -> Forall (fun o => o_format o <> $"tecplot") outs ->
  exists steps rows, export_mesh argsort ll EXdmf time_step outs m = Ok (Series steps) /\
    StronglySorted (fun s s' => leb (fst (fst s)) (fst (fst s')) = true) steps /\
    Permutation (map read_step steps) rows /\ Forall2 (exports labels) outs rows /\
    forall s k pieces, In s steps -> In (k, pieces) (snd s) -> map (@List.length flt) pieces = sizes (cells m).
Proof.
  intros S NE LA LL NO F FT. destruct (all_reordered labels outs F) as (outs' & rows & E1 & E2 & E3 & E4).
  destruct (last_some outs NO) as (o & LO & IO). unfold export_mesh. rewrite LO. rewrite Forall_forall in FT. destruct (streqb (o_format o) $"tecplot") eqn:TF; [apply streqb_eq in TF; exfalso; exact (FT o IO TF)|]. cbn [negb guard bind].
  rewrite LA. cbn [bind]. rewrite E1. cbn [bind]. rewrite E2. cbn [bind]. rewrite E3. unfold table in *.
  assert (NR : rows <> []) by (intros ->; inversion E4; subst; contradiction). assert (NR2 : map snd rows <> []) by (destruct rows; [contradiction|discriminate]).
  pose proof (points_default (P := unit) (V := flt) argsort (fun n => Fin false (Z.of_nat n) 0) (cells m) (map snd rows) (map fst rows) NR2) as PD.
  destruct (write_steps leb argsort (fun n => Fin false (Z.of_nat n) 0) S (cells m) (map (fun _ => @nil (str * unit)) (map snd rows)) (map snd rows) (map fst rows)) as (steps & W & SS & PE).
  - destruct rows; [contradiction|discriminate].
  - exact NR2.
  - now rewrite !map_length.
  - now rewrite !map_length.
  - pose proof W as W2. rewrite W in PD. rewrite PD. cbn [bind]. exists steps, (map (fun r => (fst r, [], snd r)) rows). split; [reflexivity|]. split; [exact SS|]. split; [|split].
    + rewrite (triples_map fst snd rows (fun _ => [])) in PE. exact PE.
    + clear -E4. induction E4; [constructor|]. cbn [map]. now constructor.
    + intros s k pieces. refine (write_blocks argsort _ (cells m) _ _ _ steps NE _ W2 s k pieces).
      intros d k' v I J. apply in_map_iff in I as (r & <- & I). transitivity (List.length labels); [|exact LL]. clear -E4 I J. induction E4 as [|o r' outs rows (own & _ & _ & _ & X) E4 IH]; [destruct I|]. destruct I as [->|I]; [|auto]. cbn [snd] in X. destruct (X k' v J) as (c & _ & B & _). exact B.
Qed.
Theorem export_one argsort ll f time_step outs (m : mesh Qc cellvalue) labels o own t : f <> EXdmf ->
  match time_step with
  | Some z => exists i, nth_error outs i = Some o /\ (Z.of_nat i = z \/ (Z.of_nat i = z + Z.of_nat (List.length outs))%Z)
  | None => nth_error outs (List.length outs - 1) = Some o
  end ->
  labeler (Z.of_nat (n_cells (cells m))) ll = Ok labels -> List.length labels = n_cells (cells m) ->
  o_type o = Element -> o_format o <> $"tecplot" -> results_for labels o own t -> NoDup (names o) ->
  exists m', export_mesh argsort ll f time_step outs m = Ok (OneStep m') /\
    dim m' = dim m /\ points m' = points m /\ cells m' = cells m /\ point_data m' = [] /\ field_data m' = [] /\
    (forall k, ~ In k (names o) -> find_column k (cell_data m') = find_column k (cell_data m)) /\
    (forall k c, In (k, c) (o_data o) -> exists c', find_column k (cell_data m') = Some c' /\ by_label own labels (map Num c) c').
Proof.
  intros NX ST LA LL TY FT (L & N & P & T & C) ND. assert (SA : step_asked outs time_step = Ok o).
  { unfold step_asked. destruct time_step as [z|].
    - destruct ST as (i & I & Z). assert (LT : i < List.length outs) by (apply nth_error_Some; congruence). unfold position.
      assert (G : ((- Z.of_nat (List.length outs) <=? z)%Z && (z <? Z.of_nat (List.length outs))%Z)%bool = true) by (apply andb_true_intro; split; [apply Z.leb_le|apply Z.ltb_lt]; lia).
      rewrite G. cbn [guard bind]. replace (Z.to_nat (if (z <? 0)%Z then Z.of_nat (List.length outs) + z else z)) with i; [now rewrite I|]. destruct (Z.ltb_spec z 0); lia.
    - assert (X : last_output outs = Some o); [|now rewrite X]. clear -ST. induction outs as [|x outs IH]; [discriminate ST|]. destruct outs as [|y outs]; [exact ST|]. apply IH. cbn [List.length Nat.sub] in *. rewrite Nat.sub_0_r in *. exact ST. }
  destruct (import_elements ll o own labels (cleared m) TY L N LA LL P ND C) as (m' & o' & I & (G1 & G2 & G3 & G4 & G5) & K & D).
  exists m'. split.
  - unfold export_mesh. destruct (streqb (o_format o) $"tecplot") eqn:TF; [apply streqb_eq in TF; contradiction|]. destruct f; try contradiction; rewrite SA; cbn [bind]; rewrite TF; cbn [negb guard bind]; rewrite I; reflexivity.
  - cbn [cleared dim points cells point_data field_data cell_data] in *. repeat split; auto. intros k c IC. destruct (D k c IC) as (c' & F1 & F2 & F3). exists c'. split; [exact F1|]. split; [congruence|].
    intros i j l H1 H2. rewrite (F3 i j l H1 H2). symmetry. destruct (nth_error c i) eqn:Q; [now apply map_nth_error|]. apply nth_error_None in Q. apply nth_error_None. now rewrite map_length.
Qed.
Theorem file_series argsort ll time_step ls outs (m : mesh Qc cellvalue) labels : sorts not_later argsort -> read_output None false None ls = Ok outs ->
  cells m <> [] -> labeler (Z.of_nat (n_cells (cells m))) ll = Ok labels -> List.length labels = list_sum (sizes (cells m)) ->
  outs <> [] -> Forall (fun o => exists own t, results_for labels o own t) outs -> Forall (fun o => o_format o <> $"tecplot") outs ->
  exists steps rows, export_file argsort ll EXdmf time_step ls m = Ok (Series steps) /\
    StronglySorted (fun s s' => not_later (fst (fst s)) (fst (fst s')) = true) steps /\
    Permutation (map read_step steps) rows /\ Forall2 (exports labels) outs rows /\
    forall s k pieces, In s steps -> In (k, pieces) (snd s) -> map (@List.length flt) pieces = sizes (cells m).
Proof. intros S R. unfold export_file. rewrite R. now apply export_series. Qed.
Theorem file_one argsort ll f time_step ls outs (m : mesh Qc cellvalue) labels o own t : f <> EXdmf -> read_output None false None ls = Ok outs ->
  match time_step with
  | Some z => exists i, nth_error outs i = Some o /\ (Z.of_nat i = z \/ (Z.of_nat i = z + Z.of_nat (List.length outs))%Z)
  | None => nth_error outs (List.length outs - 1) = Some o
  end ->
  labeler (Z.of_nat (n_cells (cells m))) ll = Ok labels -> List.length labels = n_cells (cells m) ->
  o_type o = Element -> o_format o <> $"tecplot" -> results_for labels o own t -> NoDup (names o) ->
  exists m', export_file argsort ll f time_step ls m = Ok (OneStep m') /\
    dim m' = dim m /\ points m' = points m /\ cells m' = cells m /\ point_data m' = [] /\ field_data m' = [] /\
    (forall k, ~ In k (names o) -> find_column k (cell_data m') = find_column k (cell_data m)) /\
    (forall k c, In (k, c) (o_data o) -> exists c', find_column k (cell_data m') = Some c' /\ by_label own labels (map Num c) c').
Proof. intros F R. unfold export_file. rewrite R. now apply export_one. Qed.
Theorem file_refuses argsort ll f time_step ls outs (m : mesh Qc cellvalue) labels : read_output None false None ls = Ok outs ->
  labeler (Z.of_nat (n_cells (cells m))) ll = Ok labels -> List.length labels = n_cells (cells m) ->
  (forall z, f <> EXdmf -> time_step = Some z -> (z < - Z.of_nat (List.length outs) \/ Z.of_nat (List.length outs) <= z)%Z -> export_file argsort ll f time_step ls m = Err ValueError) /\
  (forall o own, outs = [o] -> time_step = None -> o_type o = Element -> o_format o <> $"tecplot" -> o_labels o = Some (map single own) ->
    (List.length own <> n_cells (cells m) -> export_file argsort ll f time_step ls m = Err ValueError) /\
    (List.length own = n_cells (cells m) -> (exists l, In l labels /\ ~ In l own) -> export_file argsort ll f time_step ls m = Err KeyError)).
Proof.
  intros R LA LL. unfold export_file. rewrite R. cbn [bind]. split.
  - intros z F -> Z. unfold export_mesh. assert (X : step_asked outs (Some z) = Err ValueError).
    { unfold step_asked, position. assert (G : ((- Z.of_nat (List.length outs) <=? z)%Z && (z <? Z.of_nat (List.length outs))%Z)%bool = false); [|now rewrite G].
      apply andb_false_iff. destruct Z as [Z|Z]; [left; now apply Z.leb_gt|right; now apply Z.ltb_ge]. }
    destruct f; try contradiction; now rewrite X.
  - intros o own -> -> T NT L. assert (G : streqb (o_format o) $"tecplot" = false) by (destruct (streqb _ _) eqn:E; [apply streqb_eq in E; contradiction|reflexivity]).
    destruct (import_refuses ll o own labels (cleared m) T L LA LL) as [I1 I2]. destruct (reorder_refuses o own labels L) as [R1 R2]. unfold export_mesh. cbn [last_output step_asked bind]. rewrite G. cbn [negb guard bind]. rewrite LA. cbn [bind mapM]. split.
    + intros N. rewrite (I1 N). rewrite R1 by congruence. now destruct f.
    + intros E X. rewrite (I2 E X). rewrite (R2 ltac:(congruence) X). now destruct f.
Qed.
Theorem export_named infile given f : export_names infile given
  (match f with ETecplot => $".dat" | EVtk => $".vtk" | EVtu => $".vtu" | EXdmf => $".xdmf" end) (export_name infile given f).
Proof.
  unfold export_names, export_name. fold (eformat_ext f). generalize (eformat_ext f). intros x.
  assert (X : (exists stem old, has_extension infile old /\ infile = stem ++ old /\ without_ext infile ++ x = stem ++ x) \/
         ((forall old, ~ has_extension infile old) /\ without_ext infile ++ x = infile ++ x)).
  { unfold without_ext. destruct (extension infile) as [|c e] eqn:E.
    - right. split.
      + intros ext H. pose proof (extension_of _ _ H) as X. rewrite E in X. subst ext. destruct H as (dir & base & e & _ & X & _). discriminate.
      + unfold drop_last. cbn [List.length]. now rewrite Nat.sub_0_r, firstn_all.
    - left. assert (H : has_extension infile (extension infile)) by (apply extension_inv; congruence). rewrite E in H.
      destruct H as (dir & base & e' & X & Y & R). exists (dir ++ base), (c :: e). split; [now exists dir, base, e'|]. split; [now rewrite <- app_assoc|].
      f_equal. unfold drop_last. rewrite X, app_assoc, app_length, Nat.add_sub, firstn_app, Nat.sub_diag, firstn_all. apply app_nil_r. }
  destruct given as [[|c r]|]; auto.
Qed.
