(** Results exported in boxes. *)
From Coq Require Import String Ascii Arith ZArith QArith Qcanon Bool Lia Permutation Sorted List.
From Verif Require Import Base.Str Base.Flt Base.FltRound Model.Py Model.Numpy Model.Mesh Model.MeshOps Model.Geometry Model.Dispatch Model.Output Model.Extract Model.TimeSeries Model.Import Model.Export Model.Grid Model.ExportPlain.
From Verif Require Import Spec.MeshCells Spec.Output Spec.Import Spec.TimeSeries Spec.Export Spec.Extrude Spec.Grid Spec.ExportPlain Proofs.TimeSeriesProof Proofs.GridProof Proofs.VoxelProof Proofs.ExportProof Proofs.ImportProof Proofs.ExportPlainProof.
From Verif Require Proofs.MaterialProof.
Import ListNotations.
Local Open Scope nat_scope.

Lemma before_voronoi x0 xs : xs <> [] -> before x0 xs -> exists v, voronoi1d xs x0 = Ok v.
Proof.
  intros N B. destruct xs as [|a [|b xs]]; [contradiction|eexists; reflexivity|]. destruct B as [B|(c & E & L)]; [discriminate B|]. cbn in E. injection E as <-. cbn [voronoi1d].
  destruct (qleb a x0) eqn:Q; [apply qleb_le in Q; exfalso; exact (Qcle_not_lt _ _ Q L)|]. eexists. reflexivity.
Qed.
Lemma voronoi_edges xs x0 v : xs <> [] -> voronoi1d xs x0 = Ok v -> edges xs x0 v.
Proof.
  intros N E. destruct (voronoi_first xs x0 v E N) as (F & L). split; [exact F|]. split; [exact L|]. split.
  - destruct xs as [|a [|b xs]]; try discriminate. intros _. cbn in E. congruence.
  - intros G i c a b C A B. destruct (voronoi_spec xs x0 v E G) as (_ & _ & _ & H). destruct (H i c C) as (a' & b' & A' & B' & M). congruence.
Qed.
Section Boxes.
Variables (xs ys zs : list Qc) (pts : list (list Qc)) (x0 y0 z0 : Qc) (layer : bool).
Hypotheses (G : full_grid xs ys zs pts) (IX : increasing xs) (IY : increasing ys) (IZ : increasing zs) (NE : pts <> []).
Lemma grid_nonempty : xs <> [] /\ ys <> [] /\ zs <> [].
Proof using G NE.
  destruct G as (_ & H). destruct pts as [|p r]; [contradiction|]. destruct (proj1 (H p) (or_introl eq_refl)) as (x & y & z & _ & X & Y & Z).
  split; [intros E; rewrite E in X; destruct X|]. split; [intros E; rewrite E in Y; destruct Y|intros E; rewrite E in Z; destruct Z].
Qed.
Lemma boxes : before x0 xs -> before y0 ys -> before z0 zs -> exists m, voxelize pts [x0; y0; z0] layer $"dfalt" = Ok m /\
  voxels xs ys zs x0 y0 z0 layer (points m) (cells m) /\ cell_data m = [($"material", repeat 1%Z (List.length xs * List.length ys * List.length zs))] /\
  n_cells (cells m) = List.length xs * List.length ys * List.length zs.
Proof using G IX IY IZ NE.
  destruct grid_nonempty as (NX & NY & NZ). intros BX BY BZ.
  destruct (before_voronoi x0 xs NX BX) as (vx & VX). destruct (before_voronoi y0 ys NY BY) as (vy & VY). destruct (before_voronoi z0 zs NZ BZ) as (vz & VZ).
  rewrite (voxelize_grid xs ys zs pts x0 y0 z0 vx vy vz layer $"dfalt" G IX IY IZ NX NY NZ VX VY VZ).
  destruct (qdiff_nonempty _ _ _ VX NX) as (QX & LX). destruct (qdiff_nonempty _ _ _ VY NY) as (QY & LY). destruct (qdiff_nonempty _ _ _ VZ NZ) as (QZ & LZ).
  destruct (grid3 Qcplus Qcopp 0%Qc (qdiff vx) (qdiff vy) (qdiff vz) (Some [x0; y0; z0]) layer $"dfalt" x0 y0 z0 QX QY QZ (or_introl eq_refl)) as (m & cs & E & _ & C & L & D & _ & H).
  rewrite LX, LY, LZ in *. exists m. split; [exact E|]. split; [|split; [exact D|rewrite C; unfold n_cells; cbn; lia]].
  exists vx, vy, vz, cs. split; [now apply voronoi_edges|]. split; [now apply voronoi_edges|]. split; [now apply voronoi_edges|]. split; [exact C|]. split; [exact L|].
  intros i j k Li Lj Lk. destruct (H i j k Li Lj Lk) as (vs & NV & B).
  exists vs. do 6 eexists. split; [exact NV|]. split; [exact B|]. 
  repeat split; (eapply voronoi_level; [eassumption|assumption|lia]).
Qed.
Lemma column_boxes c w : List.length zs = 1 -> layer = true \/ List.length xs = 1 \/ List.length ys = 1 -> before x0 xs -> before y0 ys -> before z0 zs ->
  take c (export_order pts) = Ok w -> in_boxes xs ys zs layer pts c w.
Proof using G IX IY IZ NE.
  intros Z1 LA BX BY BZ T. destruct grid_nonempty as (NX & NY & NZ). destruct (boxes BX BY BZ) as (m & V & _).
  pose proof (export_order_spec xs ys zs pts G IX IY IZ) as O. split.
  - unfold take in T. apply MaterialProof.mapM_F2 in T. apply F2_len in T. apply F2_len in O. rewrite VoxelProof.triples_length in O. congruence.
  - intros i j k x y z e X Y Z P. assert (E : export_voxels pts [x0; y0; z0] layer [($"T", c)] = Ok (m, [($"T", w)])).
    { unfold export_voxels. rewrite V. cbn [bind]. cbn [filter fst]. change (negb (streqb $"T" $"X" || streqb $"T" $"Y" || streqb $"T" $"Z")) with true. cbn [mapM fst snd]. rewrite T. reflexivity. }
    destruct (export_right xs ys zs pts x0 y0 z0 layer _ m _ E G IX IY IZ NX NY Z1 LA) as (vx & vy & vz & cs & _ & _ & _ & _ & _ & _ & H).
    destruct (H i j k) as (_ & e' & x' & y' & z' & P' & X' & Y' & Z' & F); try (apply nth_error_Some; congruence).
    assert (e = e'). { destruct G as (N & _). rewrite NoDup_nth_error in N. apply N; [apply nth_error_Some; congruence|]. congruence. }
    subst e'. inversion_clear F as [|? ? (vals & I & Q) _]. cbn [fst snd] in *. destruct I as [I|[]]. assert (vals = c) by congruence. subst vals. exact Q.
Qed.
Lemma taken_ok d : Forall (fun kv => List.length (snd kv) = List.length pts) d -> exists d', taken (export_order pts) d = Ok d' /\ map fst d' = map fst d /\
  Forall2 (fun kv kw => fst kv = fst kw /\ take (snd kv) (export_order pts) = Ok (snd kw)) d d'.
Proof using G IX IY IZ.
  pose proof (export_order_spec xs ys zs pts G IX IY IZ) as O. induction 1 as [|[k c] d L F (d' & E & N & R)]; [exists []; repeat split; constructor|]. cbn [snd] in L.
  assert (T : exists w, take c (export_order pts) = Ok w).
  { assert (B : Forall (fun e => e < List.length c) (export_order pts)). { rewrite L. clear - O. induction O as [|e p l l' H O IH]; constructor; auto. apply nth_error_Some. congruence. }
    clear - B. unfold take. induction B as [|e l H B (w & IH)]; [exists []; reflexivity|]. cbn [mapM]. unfold item at 1. destruct (nth_error c e) as [x|] eqn:X; [|apply nth_error_None in X; lia]. cbn [bind]. rewrite IH. eexists. reflexivity. }
  destruct T as (w & T). exists ((k, w) :: d'). unfold taken in *. cbn [mapM fst snd]. rewrite T. cbn [bind]. rewrite E. split; [reflexivity|]. split; [cbn; now f_equal|]. constructor; auto.
Qed.
End Boxes.
Lemma add_cells_all d : forall m, Forall (fun kv => List.length (snd kv) = n_cells (cells m)) d ->
  foldM add_cells m d = Ok (Mesh (dim m) (points m) (cells m) (point_data m) (update (cell_data m) d) (field_data m)).
Proof.
  induction d as [|kv d IH]; intros m F; [now destruct m|]. inversion_clear F as [|? ? L F']. cbn [foldM]. unfold add_cells at 1. rewrite L, Nat.eqb_refl. cbn [guard bind]. rewrite IH by exact F'. reflexivity.
Qed.
Lemma space_length C axis n : List.length (centres_in_space C axis n) = n.
Proof. unfold centres_in_space. now rewrite map_length, seq_length. Qed.
Section Command.
Variables (argsort : list flt -> list nat) (delaunay : list (list Qc) -> res (list (list nat))) (a : export_args) (n : nat) (C : nat -> list Qc) (axis : list nat).
Variables (xs ys zs : list Qc) (x0 y0 z0 : Qc).
Let pts := centres_in_space C axis n.
Hypotheses (G : full_grid xs ys zs pts) (IX : increasing xs) (IY : increasing ys) (IZ : increasing zs).
Hypotheses (BX : before x0 xs) (BY : before y0 ys) (BZ : before z0 zs) (OR : a_origin a = Some [x0; y0; z0]) (VO : a_voxelize a = true \/ List.length axis = 1) (AX : axes C axis).
Lemma alone_boxes o outs : located o n C -> exists m, voxels xs ys zs x0 y0 z0 (a_layer a) (points m) (cells m) /\ point_data m = [] /\ n_cells (cells m) = List.length xs * List.length ys * List.length zs /\
  map fst (cell_data m) = [$"material"] /\
  export_alone argsort delaunay a o outs =
    match a_format a with
    | EXdmf => let* data := mapM (fun o => taken (export_order pts) (shown o)) outs in series argsort (points m) (cells m) None (Some data) outs
    | _ => let* data := taken (export_order pts) (shown o) in let* m := foldM add_cells m data in Ok (Alone m)
    end.
Proof using G IX IY IZ BX BY BZ OR VO AX.
  intros L. assert (NE : pts <> []). { intros E. apply (f_equal (@List.length _)) in E. unfold pts in E. rewrite space_length in E. destruct L as (N & _). now apply N. }
  destruct (boxes xs ys zs pts x0 y0 z0 (a_layer a) G IX IY IZ NE BX BY BZ) as (m & V & VX & D & NC).
  exists (as_numbers m). split; [exact VX|]. split; [reflexivity|]. split; [exact NC|]. split; [cbn [cell_data as_numbers]; rewrite D; reflexivity|].
  unfold export_alone. rewrite (output_points_ok o n C axis L AX). cbn [bind]. fold pts.
  assert (B : a_voxelize a || (List.length axis =? 1) = true) by (destruct VO as [-> | ->]; [reflexivity|apply orb_true_r]). rewrite B.
  assert (OO : origin_of a = Ok [x0; y0; z0]) by (unfold origin_of; rewrite OR; reflexivity). rewrite OO.
  assert (OI : (if List.length axis =? 1 then Ok [x0; y0; z0] else Ok [x0; y0; z0]) = Ok [x0; y0; z0] :> res (list Qc)) by (destruct (List.length axis =? 1); reflexivity). rewrite OI. cbn [bind]. rewrite V. cbn [bind]. reflexivity.
Qed.
Lemma origin_three : a_voxelize a = true -> exists p, origin_of a = Ok p.
Proof using OR. intros _. exists [x0; y0; z0]. unfold origin_of. rewrite OR. reflexivity. Qed.
Lemma shown_taken o : located o n C -> one_layer xs ys zs (a_layer a) -> exists d, taken (export_order pts) (shown o) = Ok d /\ map fst d = map fst (shown o) /\
  Forall2 (fun kv kw => fst kv = fst kw /\ in_boxes xs ys zs (a_layer a) pts (snd kv) (snd kw)) (shown o) d.
Proof using G IX IY IZ BX BY BZ.
  intros L (Z1 & LA). assert (NE : pts <> []). { intros E. apply (f_equal (@List.length _)) in E. unfold pts in E. rewrite space_length in E. destruct L as (N & _). now apply N. }
  assert (F : Forall (fun kv : str * list flt => List.length (snd kv) = List.length pts) (shown o)) by (unfold pts; rewrite space_length; exact (shown_lengths o n C L)).
  destruct (taken_ok xs ys zs pts G IX IY IZ (shown o) F) as (d & T & N & R). exists d. split; [exact T|]. split; [exact N|].
  clear - R G IX IY IZ BX BY BZ Z1 LA NE. induction R as [|kv kw l d (E & T) R IH]; constructor; auto. split; [exact E|]. eapply (column_boxes xs ys zs pts x0 y0 z0); eauto.
Qed.
Lemma F2_r {A B} (R : A -> B -> Prop) l r y : Forall2 R l r -> In y r -> exists x, In x l /\ R x y.
Proof. induction 1 as [|x y' l r H _ IH]; intros I; [destruct I|]. destruct I as [<-|I]; [exists x; split; [now left|exact H]|]. destruct (IH I) as (x' & I' & H'). exists x'. split; [now right|exact H']. Qed.
Lemma F2_l {A B} (R : A -> B -> Prop) l r x : Forall2 R l r -> In x l -> exists y, In y r /\ R x y.
Proof. induction 1 as [|x' y l r H _ IH]; intros I; [destruct I|]. destruct I as [<-|I]; [exists y; split; [now left|exact H]|]. destruct (IH I) as (y' & I' & H'). exists y'. split; [now right|exact H']. Qed.
Theorem voxelised outs o : a_format a <> EXdmf -> meshless a outs -> asked outs (a_time_step a) o -> located o n C -> NoDup (names o) -> one_layer xs ys zs (a_layer a) ->
  exists m, export argsort delaunay a outs = Ok (Alone m) /\ voxels xs ys zs x0 y0 z0 (a_layer a) (points m) (cells m) /\ point_data m = [] /\
    (forall k, In k (map fst (cell_data m)) -> k = $"material" \/ In k (names o) /\ ~ coordinate_name k) /\
    forall k c, In (k, c) (o_data o) -> ~ coordinate_name k -> exists w, find_column k (cell_data m) = Some w /\ in_boxes xs ys zs (a_layer a) pts c w.
Proof using G IX IY IZ BX BY BZ OR VO AX.
  intros F M AS L N Z1. rewrite (export_meshless argsort delaunay a outs o F M AS origin_three). destruct (alone_boxes o outs L) as (m & V & P & NC & MA & ->).
  destruct (shown_taken o L Z1) as (d & T & ND & R). rewrite T. cbn [bind].
  assert (FL : Forall (fun kv : str * list flt => List.length (snd kv) = n_cells (cells m)) d).
  { apply Forall_forall. intros kw I. destruct (F2_r _ _ _ _ R I) as (kv & _ & _ & (LW & _)). congruence. }
  rewrite (add_cells_all d m FL). cbn [bind]. exists (Mesh (dim m) (points m) (cells m) (point_data m) (update (cell_data m) d) (field_data m)).
  assert (NDD : NoDup (map fst d)) by (rewrite ND; now apply shown_nodup).
  split; [destruct (a_format a); try contradiction; reflexivity|]. split; [exact V|]. split; [exact P|]. split.
  - intros k I. cbn [cell_data] in I. assert (Q : find_column k (update (cell_data m) d) <> None).
    { intros Q. apply in_map_iff in I as ((k' & x) & E & I). cbn in E. subst k'. unfold find_column in Q. destruct (find (fun kx => streqb (fst kx) k) (update (cell_data m) d)) as [|] eqn:FF; [discriminate Q|].
      apply (List.find_none _ _ FF) in I. cbn in I. rewrite streqb_refl in I. discriminate I. }
    rewrite find_update in Q by exact NDD. destruct (find_column k d) as [w|] eqn:FD.
    + right. apply find_In in FD. destruct (F2_r _ _ _ _ R FD) as ([k' c] & I' & E & _). cbn in E. subst k'. apply shown_only in I' as (I' & NC'). split; [|exact NC']. unfold names. apply in_map_iff. exists (k, c). auto.
    + left. destruct (find_column k (cell_data m)) as [w|] eqn:FM; [|contradiction]. apply find_In in FM. apply (in_map fst) in FM. rewrite MA in FM. destruct FM as [E|[]]. now symmetry.
  - intros k c I NK. cbn [cell_data]. destruct (F2_l _ _ _ (k, c) R) as ([k' w] & I' & E & B); [apply shown_only; auto|]. cbn in E. subst k'. exists w. split; [|exact B].
    rewrite find_update by exact NDD. rewrite (find_in k w d NDD I'). reflexivity.
Qed.
Theorem voxelised_series o outs : sorts not_later argsort -> a_format a = EXdmf -> meshless a (o :: outs) -> Forall (fun o => located o n C) (o :: outs) -> Forall timed (o :: outs) -> one_layer xs ys zs (a_layer a) ->
  exists mp mc steps rows, export argsort delaunay a (o :: outs) = Ok (Steps mp mc steps) /\ voxels xs ys zs x0 y0 z0 (a_layer a) mp mc /\
    StronglySorted (fun s s' => not_later (fst (fst s)) (fst (fst s')) = true) steps /\ Permutation (map read_step steps) rows /\
    Forall2 (fun o r => o_time o = Some (fst (fst r)) /\ snd (fst r) = [] /\ (forall k, In k (map fst (snd r)) <-> In k (names o) /\ ~ coordinate_name k) /\
      forall k w, In (k, w) (snd r) -> exists c, In (k, c) (o_data o) /\ in_boxes xs ys zs (a_layer a) pts c w) (o :: outs) rows.
Proof using G IX IY IZ BX BY BZ OR VO AX.
  intros S F M LL TT Z1. pose proof LL as L. inversion_clear L as [|? ? L0 _]. rewrite (export_meshless_series argsort delaunay a o outs F M origin_three).
  destruct (alone_boxes o (o :: outs) L0) as (m & V & P & NC & MA & ->). rewrite F. set (all := o :: outs) in *. assert (NEA : all <> []) by discriminate. clearbody all. clear L0.
  assert (TA : exists ds, mapM (fun o => taken (export_order pts) (shown o)) all = Ok ds /\ Forall2 (fun o d => map fst d = map fst (shown o) /\
     Forall2 (fun kv kw => fst kv = fst kw /\ in_boxes xs ys zs (a_layer a) pts (snd kv) (snd kw)) (shown o) d) all ds).
  { clear - LL Z1 G IX IY IZ BX BY BZ. induction LL as [|o1 all L _ (ds & E & R)]; [exists []; split; [reflexivity|constructor]|]. destruct (shown_taken o1 L Z1) as (d & T & N & R1).
    exists (d :: ds). cbn [mapM]. rewrite T. cbn [bind]. rewrite E. split; [reflexivity|]. constructor; auto. }
  destruct TA as (ds & E & R). rewrite E. cbn [bind]. unfold series. destruct (times_ok all TT) as (ts & ET & F2). rewrite ET. cbn [bind].
  assert (LD := F2_len _ _ _ R). assert (LT := F2_len _ _ _ F2). assert (ND : ds <> []) by (intros ->; destruct all; [contradiction|discriminate LD]).
  pose proof (points_default (P := list flt) (V := flt) argsort (fun n => Fin false (Z.of_nat n) 0) (cells m) ds ts ND) as PD.
  destruct (write_steps not_later argsort (fun n => Fin false (Z.of_nat n) 0) S (cells m) (map (fun _ => @nil (str * list flt)) ds) ds ts) as (steps & W & SS & PE); [destruct ds; [contradiction|discriminate]|exact ND|now rewrite map_length|rewrite map_length, <- LT; exact LD|].
  unfold table in *. rewrite W in PD. rewrite PD. cbn [bind]. exists (points m), (cells m), steps, (triples ts (map (fun _ => []) ds) ds). split; [reflexivity|]. split; [exact V|]. split; [exact SS|]. split; [exact PE|].
  clear - R F2. revert ds R. induction F2 as [|o1 t all ts T _ IH]; intros ds R; inversion R as [|? d ? ds' (N & RR) R']; subst; [constructor|]. cbn [map triples]. constructor; [|now apply IH]. cbn [fst snd]. split; [exact T|]. split; [reflexivity|]. split.
  - intros k. rewrite N. split.
    + intros I. apply in_map_iff in I as ([k' c] & Q & I). cbn in Q. subst k'. apply shown_only in I as (I & X). split; [|exact X]. unfold names. apply in_map_iff. exists (k, c). auto.
    + intros (I & X). unfold names in I. apply in_map_iff in I as ([k' c] & Q & I). cbn in Q. subst k'. apply in_map_iff. exists (k, c). split; [reflexivity|]. apply shown_only. auto.
  - intros k w I. destruct (F2_r _ _ _ _ RR I) as ([k' c] & I' & Q & B). cbn in Q. subst k'. exists c. split; [now apply shown_only in I' as (I' & _)|exact B].
Qed.
End Command.
