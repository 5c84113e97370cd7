(** C80: results exported without a mesh. *)
From Coq Require Import String Ascii Arith ZArith QArith Qcanon Bool Lia Permutation Sorted List.
From Verif Require Import Base.Str Base.Flt Base.FltRound Model.Py Model.Numpy Model.Mesh Model.MeshOps Model.Dispatch Model.Output Model.Extract Model.TimeSeries Model.Import Model.Export Model.Grid Model.ExportPlain.
From Verif Require Import Spec.Output Spec.Import Spec.Export Spec.TimeSeries Spec.Grid Spec.ExportPlain Proofs.Samples Proofs.OutputSamples Proofs.SortsProof Proofs.ExportRefuse.
Import ListNotations.
Local Open Scope nat_scope.

(** C80.  Without a mesh file (or with Tecplot results), elements which vary along two
    axes or three: the points are their centres along these axes, in their order, the
    cells are the simplices of the triangulation of these points, and every column but
    the coordinates is there at the points, as in the results of the step asked. *)
Theorem C80_triangulated : forall argsort delaunay a ls outs o n C axis simplices, read_output None false None ls = Ok outs -> a_format a <> EXdmf -> meshless a outs -> asked outs (a_time_step a) o -> a_voxelize a = false ->
  located o n C -> NoDup (names o) -> axes C axis -> 1 < List.length axis -> delaunay (centres_along C axis n) = Ok simplices ->
  exists m, export_results argsort delaunay a ls = Ok (Alone m) /\ points m = centres_along C axis n /\ cells m = [(simplex axis, simplices)] /\
    results_only o (point_data m) /\ map fst (cell_data m) = [$"material"].
Proof. exact file_triangulated. Qed.
Print Assumptions C80_triangulated.
(** C80.  In an XDMF file: all steps, in order of time, when their elements are the same. *)
Theorem C80_triangulated_series : forall argsort delaunay a ls outs n C axis simplices, sorts not_later argsort -> read_output None false None ls = Ok outs -> outs <> [] -> a_format a = EXdmf -> meshless a outs -> a_voxelize a = false ->
  Forall (fun o => located o n C) outs -> Forall timed outs -> axes C axis -> 1 < List.length axis -> delaunay (centres_along C axis n) = Ok simplices ->
  exists steps rows, export_results argsort delaunay a ls = Ok (Steps (centres_along C axis n) [(simplex axis, simplices)] steps) /\
    StronglySorted (fun s s' => not_later (fst (fst s)) (fst (fst s')) = true) steps /\
    Permutation (map fst steps) rows /\ Forall2 (fun o r => o_time o = Some (fst r) /\ results_only o (snd r)) outs rows /\ Forall (fun s => snd s = []) steps.
Proof. exact file_triangulated_series. Qed.
Print Assumptions C80_triangulated_series.
(** C80.  With --voxelize, or along one axis: the cells are boxes, from the origin,
    with the centres of the elements in the middle; each has the values of its element,
    for a single layer of elements. *)
Theorem C80_voxels : forall argsort delaunay a ls outs o n C axis xs ys zs x0 y0 z0, read_output None false None ls = Ok outs -> a_format a <> EXdmf -> meshless a outs -> asked outs (a_time_step a) o -> located o n C -> NoDup (names o) ->
  full_grid xs ys zs (centres_in_space C axis n) -> increasing xs -> increasing ys -> increasing zs -> before x0 xs -> before y0 ys -> before z0 zs -> a_origin a = Some [x0; y0; z0] ->
  a_voxelize a = true \/ List.length axis = 1 -> axes C axis -> one_layer xs ys zs (a_layer a) ->
  exists m, export_results argsort delaunay a ls = Ok (Alone m) /\ voxels xs ys zs x0 y0 z0 (a_layer a) (points m) (cells m) /\ point_data m = [] /\
    (forall k, In k (map fst (cell_data m)) -> k = $"material" \/ In k (names o) /\ ~ coordinate_name k) /\
    forall k c, In (k, c) (o_data o) -> ~ coordinate_name k -> exists w, find_column k (cell_data m) = Some w /\ in_boxes xs ys zs (a_layer a) (centres_in_space C axis n) c w.
Proof. exact file_voxelised. Qed.
Print Assumptions C80_voxels.
Theorem C80_voxels_series : forall argsort delaunay a ls outs n C axis xs ys zs x0 y0 z0, sorts not_later argsort -> read_output None false None ls = Ok outs -> outs <> [] -> a_format a = EXdmf -> meshless a outs ->
  Forall (fun o => located o n C) outs -> Forall timed outs ->
  full_grid xs ys zs (centres_in_space C axis n) -> increasing xs -> increasing ys -> increasing zs -> before x0 xs -> before y0 ys -> before z0 zs -> a_origin a = Some [x0; y0; z0] ->
  a_voxelize a = true \/ List.length axis = 1 -> axes C axis -> one_layer xs ys zs (a_layer a) ->
  exists mp mc steps rows, export_results argsort delaunay a ls = Ok (Steps mp mc steps) /\ voxels xs ys zs x0 y0 z0 (a_layer a) mp mc /\
    StronglySorted (fun s s' => not_later (fst (fst s)) (fst (fst s')) = true) steps /\ Permutation (map read_step steps) rows /\
    Forall2 (fun o r => o_time o = Some (fst (fst r)) /\ snd (fst r) = [] /\ (forall k, In k (map fst (snd r)) <-> In k (names o) /\ ~ coordinate_name k) /\
      forall k w, In (k, w) (snd r) -> exists c, In (k, c) (o_data o) /\ in_boxes xs ys zs (a_layer a) (centres_in_space C axis n) c w) outs rows.
Proof. exact file_voxelised_series. Qed.
Print Assumptions C80_voxels_series.
(** C80.  Refused: --voxelize without an origin of three numbers, before anything is
    read; then a step which is not there, elements along one axis without such an
    origin, and results without coordinates. *)
Theorem C80_refuses : forall argsort delaunay a ls,
  (a_mesh a = None -> a_voxelize a = true -> bad_origin a -> export_results argsort delaunay a ls = Err ValueError) /\
  forall outs, read_output None false None ls = Ok outs -> a_format a <> EXdmf ->
    (forall z, a_time_step a = Some z -> (z < - Z.of_nat (List.length outs) \/ Z.of_nat (List.length outs) <= z)%Z -> export_results argsort delaunay a ls = Err ValueError) /\
    forall o, meshless a outs -> asked outs (a_time_step a) o -> a_voxelize a = false ->
      (forall n C axis, located o n C -> axes C axis -> List.length axis = 1 -> bad_origin a -> export_results argsort delaunay a ls = Err ValueError) /\
      (forall k c d, o_data o = (k, c) :: d -> c <> [] -> (forall k, coordinate_name k -> ~ In k (names o)) -> export_results argsort delaunay a ls = Err ValueError).
Proof. exact file_refuses_plain. Qed.
Print Assumptions C80_refuses.
(** C80.  With Tecplot results a mesh file makes no difference. *)
Theorem C80_tecplot : forall argsort delaunay a m ls outs, read_output None false None ls = Ok outs -> Forall (fun o => o_format o = $"tecplot") outs -> a_voxelize a = false \/ ~ bad_origin a ->
  export_results argsort delaunay (Args (Some m) (a_time_step a) (a_format a) (a_voxelize a) (a_origin a) (a_layer a)) ls =
  export_results argsort delaunay (Args None (a_time_step a) (a_format a) (a_voxelize a) (a_origin a) (a_layer a)) ls.
Proof. exact mesh_ignored. Qed.
Print Assumptions C80_tecplot.

(** Four elements of a square, in some order, at two steps, the later one first. *)
Definition C80_q (z : Z) : Qc := Q2Qc (inject_Z z).
Definition C80_step (t p : Z) : output := Output Element $"csv" (Some (real t 0)) (Some [[$"AAA11"]; [$"AAA13"]; [$"AAA10"]; [$"AAA12"]])
  [($"X", [real 3 0; real 3 0; real 1 0; real 1 0]); ($"Y", [real 1 0; real 3 0; real 1 0; real 3 0]); ($"P", [real p 1; real p 3; real p 0; real p 2])].
Definition C80_of (outs : list output) : list str := match csv_write outs with Ok recs => lines (concat recs) | Err _ => [] end.
Definition C80_outs : list output := [C80_step 20 2; C80_step 10 1].
Definition C80_lines : list str := C80_of C80_outs.
Definition C80_C (a : nat) : list Qc := match a with 0 => map C80_q [3; 3; 1; 1]%Z | 1 => map C80_q [1; 3; 1; 3]%Z | _ => map C80_q [0; 0; 0; 0]%Z end.
Definition C80_delaunay (pts : list (list Qc)) : res (list (list nat)) := if List.length pts =? 4 then Ok [[0; 1; 2]; [1; 2; 3]] else Err ValueError.
Definition C80_args (f : eformat) (vox : bool) : export_args := Args None (Some (-2)%Z) f vox (Some [C80_q 0; C80_q 0; C80_q 0]) true.
Lemma C80_vary (l : list Qc) x y : In x l -> In y l -> this x <> this y -> varying l.
Proof. intros I J N. exists x, y. split; [exact I|]. split; [exact J|]. congruence. Qed.
Lemma C80_still (l : list Qc) x : Forall (eq x) l -> ~ varying l.
Proof. intros F (a & b & I & J & N). rewrite Forall_forall in F. apply N. rewrite <- (F a I). exact (F b J). Qed.
Lemma C80_axes : axes C80_C [0; 1].
Proof.
  assert (V0 : varying (C80_C 0)) by (apply (C80_vary _ (C80_q 3) (C80_q 1)); [now left|right; right; now left|vm_compute; discriminate]).
  assert (V1 : varying (C80_C 1)) by (apply (C80_vary _ (C80_q 1) (C80_q 3)); [now left|right; now left|vm_compute; discriminate]).
  assert (V2 : ~ varying (C80_C 2)) by (apply (C80_still _ (C80_q 0)); repeat (apply Forall_cons; [reflexivity|]); apply Forall_nil).
  split; [repeat constructor|]. split.
  - intros _ a. split.
    + intros [<-|[<-|[]]]; split; (lia || assumption).
    + intros (A & V). destruct a as [|[|[|a]]]; [now left|right; now left|contradiction|lia].
  - intros N. exfalso. apply N. exists 0. split; [lia|exact V0].
Qed.
Lemma C80_located t p : located (C80_step t p) 4 C80_C.
Proof.
  split; [discriminate|]. split; [discriminate|]. split; [intros k c [E|[E|[E|[]]]]; injection E as <- <-; reflexivity|]. split; [exists $"X"; split; now left|].
  intros a k N. destruct a as [|[|[|a]]]; cbn [nth_error] in N; [| | |destruct a; discriminate N]; injection N as <-; cbn [C80_step o_data].
  - change (Forall2 valued [real 3 0; real 3 0; real 1 0; real 1 0] (map C80_q [3; 3; 1; 1]%Z)). repeat (apply Forall2_cons; [vm_compute; reflexivity|]). apply Forall2_nil.
  - change (Forall2 valued [real 1 0; real 3 0; real 1 0; real 3 0] (map C80_q [1; 3; 1; 3]%Z)). repeat (apply Forall2_cons; [vm_compute; reflexivity|]). apply Forall2_nil.
  - reflexivity.
Qed.
Lemma C80_distinct (l l' : list Qc) : map this l <> map this l' -> l <> l'.
Proof. congruence. Qed.
Lemma C80_grid : full_grid (map C80_q [1; 3]%Z) (map C80_q [1; 3]%Z) [C80_q 0] (centres_in_space C80_C [0; 1] 4).
Proof.
  change (centres_in_space C80_C [0; 1] 4) with [[C80_q 3; C80_q 1; C80_q 0]; [C80_q 3; C80_q 3; C80_q 0]; [C80_q 1; C80_q 1; C80_q 0]; [C80_q 1; C80_q 3; C80_q 0]]. split.
  - repeat (apply NoDup_cons; [intros I; cbn in I; repeat (destruct I as [I | I]; [apply (f_equal (map this)) in I; vm_compute in I; discriminate I|]); destruct I|]). apply NoDup_nil.
  - intros p. split.
    + intros I. cbn in I. repeat (destruct I as [<- | I]; [do 3 eexists; split; [reflexivity|]; cbn; auto|]). destruct I.
    + intros (x & y & z & -> & X & Y & Z). cbn in X, Y, Z. destruct X as [<- | [<- | []]], Y as [<- | [<- | []]], Z as [<- | []]; cbn; auto 6.
Qed.
Lemma C80_increasing : increasing (map C80_q [1; 3]%Z) /\ increasing [C80_q 0].
Proof.
  split; intros i j x y L I J; (destruct i as [|[|i]]; cbn in I; [| |destruct i; discriminate I]); (destruct j as [|[|j]]; cbn in J; [lia| |destruct j; discriminate J]); try lia; try discriminate.
  injection I as <-. injection J as <-. reflexivity.
Qed.
Definition C80_seen (w : res written) : list (list Q) * list cellblock * list (str * list flt) * list (str * list flt) :=
  match w with Ok (Alone m) => (map (map this) (points m), cells m, point_data m, cell_data m) | _ => ([], [], [], []) end.
Definition C80_series (w : res written) : list cellblock * list (flt * list (str * list flt) * list (str * list (list flt))) :=
  match w with Ok (Steps _ cs steps) => (cs, steps) | _ => ([], []) end.
Example C80_case : read_output None false None C80_lines = Ok C80_outs /\ asked C80_outs (Some (-2)%Z) (C80_step 20 2) /\ meshless (C80_args EVtu false) C80_outs /\ Forall timed C80_outs /\
  (forall o, In o C80_outs -> located o 4 C80_C /\ NoDup (names o)) /\ axes C80_C [0; 1] /\ C80_delaunay (centres_along C80_C [0; 1] 4) = Ok [[0; 1; 2]; [1; 2; 3]] /\
  full_grid (map C80_q [1; 3]%Z) (map C80_q [1; 3]%Z) [C80_q 0] (centres_in_space C80_C [0; 1] 4) /\ increasing (map C80_q [1; 3]%Z) /\ increasing [C80_q 0] /\
  before (C80_q 0) (map C80_q [1; 3]%Z) /\ before (C80_q 0) [C80_q 0] /\ one_layer (map C80_q [1; 3]%Z) (map C80_q [1; 3]%Z) [C80_q 0] true /\
  C80_seen (export_results (sorted_ranks not_later) C80_delaunay (C80_args EVtu false) C80_lines) =
    ([[3; 1]; [3; 3]; [1; 1]; [1; 3]]%Q, [($"triangle", [[0; 1; 2]; [1; 2; 3]])], [($"P", [real 2 1; real 2 3; real 2 0; real 2 2])], [($"material", [real 1 0; real 1 0])]) /\
  snd (C80_seen (export_results (sorted_ranks not_later) C80_delaunay (C80_args EVtu true) C80_lines)) = [($"material", repeat (real 1 0) 4); ($"P", [real 2 0; real 2 1; real 2 2; real 2 3])] /\
  map fst (snd (C80_series (export_results (sorted_ranks not_later) C80_delaunay (C80_args EXdmf false) C80_lines))) =
    [(real 10 0, [($"P", [real 1 1; real 1 3; real 1 0; real 1 2])]); (real 20 0, [($"P", [real 2 1; real 2 3; real 2 0; real 2 2])])] /\
  snd (C80_series (export_results (sorted_ranks not_later) C80_delaunay (C80_args EXdmf true) C80_lines)) =
    [(real 10 0, [], [($"P", [[real 1 0; real 1 1; real 1 2; real 1 3]])]); (real 20 0, [], [($"P", [[real 2 0; real 2 1; real 2 2; real 2 3]])])].
Proof.
  split; [vm_compute; reflexivity|]. split; [exists 0; split; [reflexivity|right; reflexivity]|]. split; [left; reflexivity|]. split; [repeat (apply Forall_cons; [eexists; reflexivity|]); apply Forall_nil|].
  split; [intros o [<-|[<-|[]]]; (split; [apply C80_located|apply nodupb_ok; vm_compute; reflexivity])|]. split; [exact C80_axes|]. split; [reflexivity|]. split; [exact C80_grid|].
  split; [exact (proj1 C80_increasing)|]. split; [exact (proj2 C80_increasing)|]. split; [right; exists (C80_q 1); split; reflexivity|]. split; [left; reflexivity|]. split; [split; [reflexivity|now left]|].
  split; [vm_compute; reflexivity|]. split; [vm_compute; reflexivity|]. split; vm_compute; reflexivity.
Qed.

(** C80 is not that coordinate number b of a point is coordinate b of its element: a
    section along X and Z is written with Z in the place of Y. *)
Definition C80_flat : output := Output Element $"csv" (Some (real 1 0)) (Some [[$"AAA10"]; [$"AAA11"]; [$"AAA12"]; [$"AAA13"]])
  [($"X", [real 0 0; real 1 0; real 0 0; real 1 0]); ($"Z", [real 0 0; real 0 0; real (-5) 0; real (-5) 0]); ($"P", [real 1 0; real 2 0; real 3 0; real 4 0])].
Definition C80_D (a : nat) : list Qc := match a with 0 => map C80_q [0; 1; 0; 1]%Z | 2 => map C80_q [0; 0; -5; -5]%Z | _ => repeat (Q2Qc 0) 4 end.
Theorem C80_plane_refuted : ~ (forall argsort delaunay a ls outs o m n C i p b x, read_output None false None ls = Ok outs -> a_mesh a = None -> a_format a = EVtu -> a_voxelize a = false -> asked outs (a_time_step a) o ->
  located o n C -> export_results argsort delaunay a ls = Ok (Alone m) -> nth_error (points m) i = Some p -> nth_error p b = Some x -> nth_error (C b) i = Some x).
Proof.
  intros H. set (a := Args None None EVtu false None false).
  assert (R : read_output None false None (C80_of [C80_flat]) = Ok [C80_flat]) by (vm_compute; reflexivity).
  assert (A : asked [C80_flat] (a_time_step a) C80_flat) by reflexivity.
  assert (L : located C80_flat 4 C80_D).
  { split; [discriminate|]. split; [discriminate|]. split; [intros k c [E|[E|[E|[]]]]; injection E as <- <-; reflexivity|]. split; [exists $"X"; split; now left|].
    intros b k N. destruct b as [|[|[|b]]]; cbn [nth_error] in N; [| | |destruct b; discriminate N]; injection N as <-; cbn [C80_flat o_data].
    - change (Forall2 valued [real 0 0; real 1 0; real 0 0; real 1 0] (map C80_q [0; 1; 0; 1]%Z)). repeat (apply Forall2_cons; [vm_compute; reflexivity|]). apply Forall2_nil.
    - reflexivity.
    - change (Forall2 valued [real 0 0; real 0 0; real (-5) 0; real (-5) 0] (map C80_q [0; 0; -5; -5]%Z)). repeat (apply Forall2_cons; [vm_compute; reflexivity|]). apply Forall2_nil. }
  assert (V0 : varying (C80_D 0)) by (apply (C80_vary _ (C80_q 0) (C80_q 1)); [now left|right; now left|vm_compute; discriminate]).
  assert (V2 : varying (C80_D 2)) by (apply (C80_vary _ (C80_q 0) (C80_q (-5))); [now left|right; right; now left|vm_compute; discriminate]).
  assert (V1 : ~ varying (C80_D 1)) by (apply (C80_still _ (Q2Qc 0)); repeat (apply Forall_cons; [reflexivity|]); apply Forall_nil).
  assert (X : axes C80_D [0; 2]).
  { split; [repeat constructor|]. split.
    - intros _ b. split.
      + intros [<-|[<-|[]]]; split; (lia || assumption).
      + intros (B & V). destruct b as [|[|[|b]]]; [now left|contradiction|right; now left|lia].
    - intros N. exfalso. apply N. exists 0. split; [lia|exact V0]. }
  assert (F : a_format a <> EXdmf) by discriminate. assert (ND : NoDup (names C80_flat)) by (apply nodupb_ok; vm_compute; reflexivity).
  destruct (file_triangulated (fun _ => []) C80_delaunay a (C80_of [C80_flat]) [C80_flat] C80_flat 4 C80_D [0; 2] [[0; 1; 2]; [1; 2; 3]] R F (or_introl eq_refl) A eq_refl L ND X (le_n 2) eq_refl) as (m & E & P & _).
  assert (I : nth_error (points m) 2 = Some [C80_q 0; C80_q (-5)]) by (rewrite P; reflexivity).
  pose proof (H (fun _ => []) C80_delaunay a (C80_of [C80_flat]) [C80_flat] C80_flat m 4 C80_D 2 [C80_q 0; C80_q (-5)] 1 (C80_q (-5)) R eq_refl eq_refl eq_refl A L E I eq_refl) as Q.
  apply (f_equal (option_map this)) in Q. vm_compute in Q. discriminate Q.
Qed.
Print Assumptions C80_plane_refuted.

(** C80 fails in an XDMF file if a later step has the elements in another order: its
    values are at the points of other elements. *)
Definition C80_turned : output := Output Element $"csv" (Some (real 30 0)) (Some [[$"AAA12"]; [$"AAA10"]; [$"AAA13"]; [$"AAA11"]])
  [($"X", [real 1 0; real 1 0; real 3 0; real 3 0]); ($"Y", [real 3 0; real 1 0; real 3 0; real 1 0]); ($"P", [real 5 2; real 5 0; real 5 3; real 5 1])].
Definition C80_T (a : nat) : list Qc := match a with 0 => map C80_q [1; 1; 3; 3]%Z | 1 => map C80_q [3; 1; 3; 1]%Z | _ => map C80_q [0; 0; 0; 0]%Z end.
Lemma C80_same (l l' : list (list Qc)) : map (map this) l = map (map this) l' -> l = l'.
Proof.
  assert (A : forall l l' : list Qc, map this l = map this l' -> l = l').
  { intros u. induction u as [|x u IH]; intros [|y v] E; try discriminate E; [reflexivity|]. cbn [map] in E. assert (E1 : this x = this y) by congruence. assert (E2 : map this u = map this v) by congruence.
    f_equal; [apply Qc_is_canon; now rewrite E1|now apply IH]. }
  revert l'. induction l as [|x u IH]; intros [|y v] E; try discriminate E; [reflexivity|]. cbn [map] in E. assert (E1 : map this x = map this y) by congruence. assert (E2 : map (map this) u = map (map this) v) by congruence.
  f_equal; [now apply A|now apply IH].
Qed.
Theorem C80_order_refuted : ~ (forall argsort delaunay a ls outs pts cs steps o n C axis s k c d i j p, sorts not_later argsort -> read_output None false None ls = Ok outs -> a_mesh a = None -> a_format a = EXdmf -> a_voxelize a = false ->
  export_results argsort delaunay a ls = Ok (Steps pts cs steps) -> In o outs -> located o n C -> axes C axis -> In s steps -> o_time o = Some (fst (fst s)) ->
  In (k, c) (o_data o) -> In (k, d) (snd (fst s)) -> nth_error (centres_along C axis n) i = Some p -> nth_error pts j = Some p -> nth_error d j = nth_error c i).
Proof.
  intros H. set (a := C80_args EXdmf false). set (outs := [C80_step 20 2; C80_turned]).
  assert (R : read_output None false None (C80_of outs) = Ok outs) by (vm_compute; reflexivity).
  assert (L : located C80_turned 4 C80_T).
  { split; [discriminate|]. split; [discriminate|]. split; [intros k c [E|[E|[E|[]]]]; injection E as <- <-; reflexivity|]. split; [exists $"X"; split; now left|].
    intros b k N. destruct b as [|[|[|b]]]; cbn [nth_error] in N; [| | |destruct b; discriminate N]; injection N as <-; cbn [C80_turned o_data].
    - change (Forall2 valued [real 1 0; real 1 0; real 3 0; real 3 0] (map C80_q [1; 1; 3; 3]%Z)). repeat (apply Forall2_cons; [vm_compute; reflexivity|]). apply Forall2_nil.
    - change (Forall2 valued [real 3 0; real 1 0; real 3 0; real 1 0] (map C80_q [3; 1; 3; 1]%Z)). repeat (apply Forall2_cons; [vm_compute; reflexivity|]). apply Forall2_nil.
    - reflexivity. }
  assert (V0 : varying (C80_T 0)) by (apply (C80_vary _ (C80_q 3) (C80_q 1)); [right; right; now left|now left|vm_compute; discriminate]).
  assert (V1 : varying (C80_T 1)) by (apply (C80_vary _ (C80_q 1) (C80_q 3)); [right; now left|now left|vm_compute; discriminate]).
  assert (V2 : ~ varying (C80_T 2)) by (apply (C80_still _ (C80_q 0)); repeat (apply Forall_cons; [reflexivity|]); apply Forall_nil).
  assert (X : axes C80_T [0; 1]).
  { split; [repeat constructor|]. split.
    - intros _ b. split.
      + intros [<-|[<-|[]]]; split; (lia || assumption).
      + intros (B & V). destruct b as [|[|[|b]]]; [now left|right; now left|contradiction|lia].
    - intros N. exfalso. apply N. exists 0. split; [lia|exact V0]. }
  pose proof (sorted_ranks_sorts not_later not_later_total not_later_trans) as S.
  destruct (export_results (sorted_ranks not_later) C80_delaunay a (C80_of outs)) as [[e|m|pts cs steps]|] eqn:E; [vm_compute in E; discriminate E|vm_compute in E; discriminate E| |vm_compute in E; discriminate E].
  assert (P : nth_error pts 0 = Some [C80_q 3; C80_q 1]).
  { assert (W : pts = centres_along C80_C [0; 1] 4); [|rewrite W; reflexivity]. apply C80_same. apply (f_equal (fun r => match r with Ok (Steps p _ _) => map (map this) p | _ => [] end)) in E. rewrite <- E. vm_compute. reflexivity. }
  assert (ST : nth_error steps 1 = Some (real 30 0, [($"P", [real 5 2; real 5 0; real 5 3; real 5 1])], [])).
  { apply (f_equal (fun r => match r with Ok (Steps _ _ s) => nth_error s 1 | _ => None end)) in E. rewrite <- E. vm_compute. reflexivity. }
  pose proof (H (sorted_ranks not_later) C80_delaunay a (C80_of outs) outs pts cs steps C80_turned 4 C80_T [0; 1] (real 30 0, [($"P", [real 5 2; real 5 0; real 5 3; real 5 1])], []) $"P"
    [real 5 2; real 5 0; real 5 3; real 5 1] [real 5 2; real 5 0; real 5 3; real 5 1] 3 0 [C80_q 3; C80_q 1] S R eq_refl eq_refl eq_refl E (or_intror (or_introl eq_refl)) L X (nth_error_In _ _ ST) eq_refl
    (or_intror (or_intror (or_introl eq_refl))) (or_introl eq_refl) eq_refl P) as Q.
  vm_compute in Q. discriminate Q.
Qed.
Print Assumptions C80_order_refuted.

(** C80 fails with --voxelize and two layers: two elements, one above the other, get
    the values of each other. *)
Definition C80_pile : output := Output Element $"csv" (Some (real 1 0)) (Some [[$"AAA10"]; [$"AAA11"]]) [($"Z", [real 1 0; real 3 0]); ($"P", [real 10 0; real 30 0])].
Definition C80_P (a : nat) : list Qc := match a with 2 => map C80_q [1; 3]%Z | _ => repeat (Q2Qc 0) 2 end.
Theorem C80_layers_refuted : forall layer, ~ (forall argsort delaunay a ls outs o n C axis xs ys zs x0 y0 z0 m k c w, read_output None false None ls = Ok outs -> a_mesh a = None -> a_format a = EVtu -> a_layer a = layer -> asked outs (a_time_step a) o -> located o n C ->
  full_grid xs ys zs (centres_in_space C axis n) -> increasing xs -> increasing ys -> increasing zs -> a_origin a = Some [x0; y0; z0] -> a_voxelize a = true -> axes C axis ->
  export_results argsort delaunay a ls = Ok (Alone m) -> In (k, c) (o_data o) -> find_column k (cell_data m) = Some w -> in_boxes xs ys zs layer (centres_in_space C axis n) c w).
Proof.
  intros layer H. set (a := Args None None EVtu true (Some [C80_q 0; C80_q 0; C80_q 0]) layer).
  assert (R : read_output None false None (C80_of [C80_pile]) = Ok [C80_pile]) by (vm_compute; reflexivity).
  assert (L : located C80_pile 2 C80_P).
  { split; [discriminate|]. split; [discriminate|]. split; [intros k c [E|[E|[]]]; injection E as <- <-; reflexivity|]. split; [exists $"Z"; split; [right; right; now left|now left]|].
    intros b k N. destruct b as [|[|[|b]]]; cbn [nth_error] in N; [| | |destruct b; discriminate N]; injection N as <-; cbn [C80_pile o_data]; [reflexivity|reflexivity|].
    change (Forall2 valued [real 1 0; real 3 0] (map C80_q [1; 3]%Z)). repeat (apply Forall2_cons; [vm_compute; reflexivity|]). apply Forall2_nil. }
  assert (V2 : varying (C80_P 2)) by (apply (C80_vary _ (C80_q 1) (C80_q 3)); [now left|right; now left|vm_compute; discriminate]).
  assert (V1 : ~ varying (repeat (Q2Qc 0) 2)) by (apply (C80_still _ (Q2Qc 0)); repeat (apply Forall_cons; [reflexivity|]); apply Forall_nil).
  assert (X : axes C80_P [2]).
  { split; [repeat constructor|]. split.
    - intros _ b. split.
      + intros [<-|[]]; split; (lia || assumption).
      + intros (B & V). destruct b as [|[|[|b]]]; [contradiction|contradiction|now left|lia].
    - intros N. exfalso. apply N. exists 2. split; [lia|exact V2]. }
  assert (G : full_grid [C80_q 0] [C80_q 0] (map C80_q [1; 3]%Z) (centres_in_space C80_P [2] 2)).
  { change (centres_in_space C80_P [2] 2) with [[C80_q 0; C80_q 0; C80_q 1]; [C80_q 0; C80_q 0; C80_q 3]]. split.
    - repeat (apply NoDup_cons; [intros I; cbn in I; repeat (destruct I as [I | I]; [apply (f_equal (map this)) in I; vm_compute in I; discriminate I|]); destruct I|]). apply NoDup_nil.
    - intros p. split.
      + intros I. cbn in I. repeat (destruct I as [<- | I]; [do 3 eexists; split; [reflexivity|]; cbn; auto|]). destruct I.
      + intros (x & y & z & -> & XX & Y & Z). cbn in XX, Y, Z. destruct XX as [<- | []], Y as [<- | []], Z as [<- | [<- | []]]; cbn; auto 6. }
  set (W := export_results (fun _ => []) C80_delaunay a (C80_of [C80_pile])). destruct W as [[e|m|pts cs steps]|] eqn:E; subst W; [destruct layer; vm_compute in E; discriminate E| |destruct layer; vm_compute in E; discriminate E|destruct layer; vm_compute in E; discriminate E].
  assert (F : find_column $"P" (cell_data m) = Some [real 10 0; real 30 0]).
  { apply (f_equal (fun r => match r with Ok (Alone m) => find_column $"P" (cell_data m) | _ => None end)) in E. rewrite <- E. destruct layer; vm_compute; reflexivity. }
  destruct C80_increasing as (I1 & I0).
  destruct (H (fun _ => []) C80_delaunay a (C80_of [C80_pile]) [C80_pile] C80_pile 2 C80_P [2] [C80_q 0] [C80_q 0] (map C80_q [1; 3]%Z) (C80_q 0) (C80_q 0) (C80_q 0) m $"P" [real 10 0; real 30 0] [real 10 0; real 30 0]
    R eq_refl eq_refl eq_refl eq_refl L G I0 I0 I1 eq_refl eq_refl X E (or_intror (or_introl eq_refl)) F) as (_ & Q).
  specialize (Q 0 0 0 (C80_q 0) (C80_q 0) (C80_q 1) 0 eq_refl eq_refl eq_refl eq_refl). destruct layer; vm_compute in Q; discriminate Q.
Qed.
Print Assumptions C80_layers_refuted.
