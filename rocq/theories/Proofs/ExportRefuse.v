(** What toughio-export refuses, and results for which the mesh is not used. *)
From Coq Require Import String Ascii Arith ZArith QArith Qcanon Bool Lia Permutation Sorted List.
From Verif Require Import Base.Str Base.Flt Base.FltRound Model.Py Model.Numpy Model.Mesh Model.MeshOps Model.Dispatch Model.Output Model.Extract Model.TimeSeries Model.Import Model.Export Model.Grid Model.ExportPlain.
From Verif Require Import Spec.Output Spec.Import Spec.Export Spec.TimeSeries Spec.Grid Spec.ExportPlain Proofs.VoxelProof Proofs.ExportProof Proofs.ImportProof Proofs.ExportPlainProof Proofs.ExportVoxels.
Import ListNotations.
Local Open Scope nat_scope.

Lemma export_lines argsort delaunay a ls outs : read_output None false None ls = Ok outs -> export_results argsort delaunay a ls = export argsort delaunay a outs.
Proof. intros R. unfold export_results. rewrite R. destruct (match a_mesh a with Some _ => _ | None => _ end) as [[]|e] eqn:E; [reflexivity|]. unfold export. rewrite E. reflexivity. Qed.
Lemma bad_origin_err a : bad_origin a -> origin_of a = Err ValueError.
Proof. unfold origin_of. intros [-> | (p & -> & N)]; [reflexivity|]. destruct (Nat.eqb_spec (List.length p) 3); [contradiction|reflexivity]. Qed.
Theorem no_origin argsort delaunay a ls : a_mesh a = None -> a_voxelize a = true -> bad_origin a -> export_results argsort delaunay a ls = Err ValueError.
Proof. intros M V B. unfold export_results. rewrite M, V, (bad_origin_err a B). reflexivity. Qed.
Theorem no_step argsort delaunay a ls outs z : read_output None false None ls = Ok outs -> a_format a <> EXdmf -> a_time_step a = Some z ->
  (z < - Z.of_nat (List.length outs) \/ Z.of_nat (List.length outs) <= z)%Z -> export_results argsort delaunay a ls = Err ValueError.
Proof.
  intros R F T Z. rewrite (export_lines argsort delaunay a ls outs R). unfold export.
  assert (X : step_asked outs (Some z) = Err ValueError).
  { unfold step_asked, position. assert (G : ((- Z.of_nat (List.length outs) <=? z)%Z && (z <? Z.of_nat (List.length outs))%Z)%bool = false); [|now rewrite G].
    apply andb_false_iff. destruct Z as [Z|Z]; [left; now apply Z.leb_gt|right; now apply Z.ltb_ge]. }
  assert (Y : match a_format a with EXdmf => step_asked outs None | _ => step_asked outs (a_time_step a) end = Err ValueError) by (rewrite T; destruct (a_format a); congruence). rewrite Y.
  destruct (a_mesh a) as [[m ll]|]; [reflexivity|]. destruct (a_voxelize a); [|reflexivity]. unfold origin_of. destruct (a_origin a); [|reflexivity]. destruct (List.length _ =? 3); reflexivity.
Qed.
Theorem one_axis argsort delaunay a ls outs o n C axis : read_output None false None ls = Ok outs -> a_format a <> EXdmf -> meshless a outs -> asked outs (a_time_step a) o -> located o n C -> axes C axis ->
  List.length axis = 1 -> a_voxelize a = false -> bad_origin a -> export_results argsort delaunay a ls = Err ValueError.
Proof.
  intros R F M A L X O V B. rewrite (export_lines argsort delaunay a ls outs R). rewrite (export_meshless argsort delaunay a outs o F M A) by congruence.
  unfold export_alone. rewrite (output_points_ok o n C axis L X). cbn [bind]. rewrite O, V. cbn [orb Nat.eqb]. rewrite (bad_origin_err a B). reflexivity.
Qed.
Theorem no_coordinates argsort delaunay a ls outs o k c d : read_output None false None ls = Ok outs -> a_format a <> EXdmf -> meshless a outs -> asked outs (a_time_step a) o -> a_voxelize a = false ->
  o_data o = (k, c) :: d -> c <> [] -> (forall k, coordinate_name k -> ~ In k (names o)) -> export_results argsort delaunay a ls = Err ValueError.
Proof.
  intros R F M A V D NC N. rewrite (export_lines argsort delaunay a ls outs R). rewrite (export_meshless argsort delaunay a outs o F M A) by congruence.
  unfold export_alone, output_points. assert (CA : forall k, coordinate_name k -> coordinate_array o k = Ok None).
  { intros k' K. unfold coordinate_array. rewrite assoc_find. rewrite (find_none k' (o_data o)); [reflexivity|]. exact (N k' K). }
  rewrite (CA $"X") by (cbn; tauto). rewrite (CA $"Y") by (cbn; tauto). rewrite (CA $"Z") by (cbn; tauto). rewrite D. cbn [bind forallb andb]. destruct c; [contradiction|]. reflexivity.
Qed.
Theorem mesh_ignored argsort delaunay a m ls outs : read_output None false None ls = Ok outs -> Forall (fun o => o_format o = $"tecplot") outs -> a_voxelize a = false \/ ~ bad_origin a ->
  export_results argsort delaunay (Args (Some m) (a_time_step a) (a_format a) (a_voxelize a) (a_origin a) (a_layer a)) ls =
  export_results argsort delaunay (Args None (a_time_step a) (a_format a) (a_voxelize a) (a_origin a) (a_layer a)) ls.
Proof.
  intros R F V. rewrite !(export_lines argsort delaunay _ ls outs R). unfold export. cbn [a_mesh a_voxelize a_format a_time_step].
  assert (G : (if a_voxelize a then let* _ := origin_of (Args None (a_time_step a) (a_format a) (a_voxelize a) (a_origin a) (a_layer a)) in Ok tt else Ok tt) = Ok tt).
  { destruct (a_voxelize a) eqn:E; [|reflexivity]. destruct V as [V|V]; [discriminate V|]. unfold origin_of. cbn [a_origin]. unfold bad_origin in V. destruct (a_origin a) as [p|]; [|exfalso; apply V; now left].
    destruct (Nat.eqb_spec (List.length p) 3); [reflexivity|]. exfalso. apply V. right. eauto. }
  rewrite G. cbn [bind]. destruct m as [m ll]. destruct (match a_format a with EXdmf => step_asked outs None | _ => step_asked outs (a_time_step a) end) as [o|] eqn:SA; [|reflexivity]. cbn [bind].
  assert (I : In o outs).
  { assert (ST : forall t, step_asked outs t = Ok o -> In o outs).
    { intros t E. unfold step_asked in E. destruct t as [z|]; [destruct (position _ z) as [i|]; [|discriminate E]; cbn [bind] in E; destruct (nth_error outs i) as [x|] eqn:N; [|discriminate E]; apply nth_error_In in N; congruence|].
      destruct (last_output outs) as [x|] eqn:N; [|discriminate E]. apply last_In in N. congruence. }
    destruct (a_format a); eapply ST; eauto. }
  rewrite Forall_forall in F. rewrite (F o I), streqb_refl. reflexivity.
Qed.
Theorem file_triangulated argsort delaunay a ls outs o n C axis simplices : read_output None false None ls = Ok outs -> a_format a <> EXdmf -> meshless a outs -> asked outs (a_time_step a) o -> a_voxelize a = false ->
  located o n C -> NoDup (names o) -> axes C axis -> 1 < List.length axis -> delaunay (centres_along C axis n) = Ok simplices ->
  exists m, export_results argsort delaunay a ls = Ok (Alone m) /\ points m = centres_along C axis n /\ cells m = [(simplex axis, simplices)] /\
    results_only o (point_data m) /\ map fst (cell_data m) = [$"material"].
Proof. intros R. rewrite (export_lines argsort delaunay a ls outs R). apply triangulated. Qed.
Theorem file_triangulated_series argsort delaunay a ls outs n C axis simplices : sorts not_later argsort -> read_output None false None ls = Ok outs -> outs <> [] -> a_format a = EXdmf -> meshless a outs -> a_voxelize a = false ->
  Forall (fun o => located o n C) outs -> Forall timed outs -> axes C axis -> 1 < List.length axis -> delaunay (centres_along C axis n) = Ok simplices ->
  exists steps rows, export_results argsort delaunay a ls = Ok (Steps (centres_along C axis n) [(simplex axis, simplices)] steps) /\
    StronglySorted (fun s s' => not_later (fst (fst s)) (fst (fst s')) = true) steps /\
    Permutation (map fst steps) rows /\ Forall2 (fun o r => o_time o = Some (fst r) /\ results_only o (snd r)) outs rows /\ Forall (fun s => snd s = []) steps.
Proof. intros S R NE. rewrite (export_lines argsort delaunay a ls outs R). destruct outs as [|o outs]; [contradiction|]. exact (triangulated_series argsort delaunay a o outs n C axis simplices S). Qed.
Theorem file_voxelised argsort delaunay a ls outs o n C axis xs ys zs x0 y0 z0 : read_output None false None ls = Ok outs -> a_format a <> EXdmf -> meshless a outs -> asked outs (a_time_step a) o -> located o n C -> NoDup (names o) ->
  full_grid xs ys zs (centres_in_space C axis n) -> increasing xs -> increasing ys -> increasing zs -> before x0 xs -> before y0 ys -> before z0 zs -> a_origin a = Some [x0; y0; z0] ->
  a_voxelize a = true \/ List.length axis = 1 -> axes C axis -> one_layer xs ys zs (a_layer a) ->
  exists m, export_results argsort delaunay a ls = Ok (Alone m) /\ voxels xs ys zs x0 y0 z0 (a_layer a) (points m) (cells m) /\ point_data m = [] /\
    (forall k, In k (map fst (cell_data m)) -> k = $"material" \/ In k (names o) /\ ~ coordinate_name k) /\
    forall k c, In (k, c) (o_data o) -> ~ coordinate_name k -> exists w, find_column k (cell_data m) = Some w /\ in_boxes xs ys zs (a_layer a) (centres_in_space C axis n) c w.
Proof. intros R F M A L N G IX IY IZ BX BY BZ OR VO AX Z. rewrite (export_lines argsort delaunay a ls outs R). exact (voxelised argsort delaunay a n C axis xs ys zs x0 y0 z0 G IX IY IZ BX BY BZ OR VO AX outs o F M A L N Z). Qed.
Theorem file_voxelised_series argsort delaunay a ls outs n C axis xs ys zs x0 y0 z0 : sorts not_later argsort -> read_output None false None ls = Ok outs -> outs <> [] -> a_format a = EXdmf -> meshless a outs ->
  Forall (fun o => located o n C) outs -> Forall timed outs ->
  full_grid xs ys zs (centres_in_space C axis n) -> increasing xs -> increasing ys -> increasing zs -> before x0 xs -> before y0 ys -> before z0 zs -> a_origin a = Some [x0; y0; z0] ->
  a_voxelize a = true \/ List.length axis = 1 -> axes C axis -> one_layer xs ys zs (a_layer a) ->
  exists mp mc steps rows, export_results argsort delaunay a ls = Ok (Steps mp mc steps) /\ voxels xs ys zs x0 y0 z0 (a_layer a) mp mc /\
    StronglySorted (fun s s' => not_later (fst (fst s)) (fst (fst s')) = true) steps /\ Permutation (map read_step steps) rows /\
    Forall2 (fun o r => o_time o = Some (fst (fst r)) /\ snd (fst r) = [] /\ (forall k, In k (map fst (snd r)) <-> In k (names o) /\ ~ coordinate_name k) /\
      forall k w, In (k, w) (snd r) -> exists c, In (k, c) (o_data o) /\ in_boxes xs ys zs (a_layer a) (centres_in_space C axis n) c w) outs rows.
Proof. intros S R NE F M L T G IX IY IZ BX BY BZ OR VO AX Z. rewrite (export_lines argsort delaunay a ls outs R). destruct outs as [|o outs]; [contradiction|]. exact (voxelised_series argsort delaunay a n C axis xs ys zs x0 y0 z0 G IX IY IZ BX BY BZ OR VO AX o outs S F M L T Z). Qed.
Theorem file_refuses_plain argsort delaunay a ls :
  (a_mesh a = None -> a_voxelize a = true -> bad_origin a -> export_results argsort delaunay a ls = Err ValueError) /\
  forall outs, read_output None false None ls = Ok outs -> a_format a <> EXdmf ->
    (forall z, a_time_step a = Some z -> (z < - Z.of_nat (List.length outs) \/ Z.of_nat (List.length outs) <= z)%Z -> export_results argsort delaunay a ls = Err ValueError) /\
    forall o, meshless a outs -> asked outs (a_time_step a) o -> a_voxelize a = false ->
      (forall n C axis, located o n C -> axes C axis -> List.length axis = 1 -> bad_origin a -> export_results argsort delaunay a ls = Err ValueError) /\
      (forall k c d, o_data o = (k, c) :: d -> c <> [] -> (forall k, coordinate_name k -> ~ In k (names o)) -> export_results argsort delaunay a ls = Err ValueError).
Proof.
  split; [apply no_origin|]. intros outs R F. split; [intros z T Z; now apply (no_step argsort delaunay a ls outs z)|]. intros o M A V. split.
  - intros n C axis L X O B. now apply (one_axis argsort delaunay a ls outs o n C axis).
  - intros k c d D NC N. now apply (no_coordinates argsort delaunay a ls outs o k c d).
Qed.
