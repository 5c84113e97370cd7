(** Results exported without a mesh. *)
From Coq Require Import String Ascii Arith ZArith QArith Qcanon Bool Lia Permutation Sorted List.
From Verif Require Import Base.Str Base.Flt Base.FltRound Model.Py Model.Numpy Model.Mesh Model.MeshOps Model.Geometry Model.Dispatch Model.Output Model.Extract Model.TimeSeries Model.Import Model.Export Model.Grid Model.ExportPlain.
From Verif Require Import Spec.MeshCells Spec.Output Spec.Import Spec.TimeSeries Spec.Export Spec.Grid Spec.ExportPlain Proofs.TimeSeriesProof Proofs.VoxelProof Proofs.ExportProof Proofs.ImportProof.
Import ListNotations.
Local Open Scope nat_scope.

(** ** The step, the points *)
Lemma asked_ok outs time_step o : asked outs time_step o -> step_asked outs time_step = Ok o.
Proof.
  unfold asked, step_asked. destruct time_step as [z|]; intros ST.
  - destruct ST as (i & I & Z). assert (LT : i < List.length outs) by (apply nth_error_Some; congruence). unfold position.
    assert (G : ((- Z.of_nat (List.length outs) <=? z)%Z && (z <? Z.of_nat (List.length outs))%Z)%bool = true) by (apply andb_true_intro; split; [apply Z.leb_le|apply Z.ltb_lt]; lia).
    rewrite G. cbn [guard bind]. replace (Z.to_nat (if (z <? 0)%Z then Z.of_nat (List.length outs) + z else z)) with i; [now rewrite I|]. destruct (Z.ltb_spec z 0); lia.
  - assert (X : last_output outs = Some o); [|now rewrite X]. induction outs as [|x outs IH]; [discriminate ST|]. destruct outs as [|y outs]; [exact ST|]. apply IH. cbn [List.length Nat.sub] in *. rewrite Nat.sub_0_r in *. exact ST.
Qed.
Lemma assoc_find {B} k (d : list (str * B)) : assoc k d = match find_column k d with Some c => Ok c | None => Err KeyError end.
Proof.
  unfold find_column. induction d as [|[k' x] d IH]; [reflexivity|]. cbn [assoc find fst]. destruct (streqb k' k) eqn:E.
  - apply streqb_eq in E. subst k'. now rewrite streqb_refl.
  - destruct (streqb k k') eqn:E'; [apply streqb_eq in E'; subst k'; rewrite streqb_refl in E; discriminate E|]. exact IH.
Qed.
Lemma exact_ok x q : valued x q -> exact x = Ok q.
Proof. destruct x as [s m e|s|]; cbn [valued exact]; try contradiction. intros H. f_equal. apply Qc_is_canon. rewrite H. apply Qred_correct. Qed.
Lemma exact_all c l : Forall2 valued c l -> mapM exact c = Ok l.
Proof. induction 1 as [|x q c l V _ IH]; [reflexivity|]. cbn [mapM]. rewrite (exact_ok _ _ V). cbn [bind]. now rewrite IH. Qed.
Lemma F2_len {A B} (R : A -> B -> Prop) l r : Forall2 R l r -> List.length l = List.length r.
Proof. induction 1; cbn; congruence. Qed.
Definition given_axis (o : output) (C : nat -> list Qc) (a : nat) (k : str) : option (list Qc) := match find_column k (o_data o) with Some _ => Some (C a) | None => None end.
Lemma located_array o n C a k : located o n C -> nth_error [$"X"; $"Y"; $"Z"] a = Some k -> coordinate_array o k = Ok (given_axis o C a k).
Proof.
  intros (_ & _ & _ & _ & L) E. specialize (L a k E). unfold coordinate_array, given_axis. rewrite assoc_find. destruct (find_column k (o_data o)); [|reflexivity]. now rewrite (exact_all _ _ L).
Qed.
Lemma find_In {B} k (d : list (str * B)) c : find_column k d = Some c -> In (k, c) d.
Proof.
  unfold find_column. destruct (find _ d) as [[k' x]|] eqn:F; [|discriminate]. intros E. cbn in E. apply find_some in F as (I & S). apply streqb_eq in S. cbn in S. subst k'. congruence.
Qed.
Lemma located_length o n C a k : located o n C -> nth_error [$"X"; $"Y"; $"Z"] a = Some k -> List.length (C a) = n.
Proof.
  intros (_ & _ & U & _ & L) E. specialize (L a k E). destruct (find_column k (o_data o)) as [c|] eqn:F; [|rewrite L; apply repeat_length].
  apply find_In in F. apply U in F. apply F2_len in L. congruence.
Qed.
Lemma given_coordinate o n C a k : located o n C -> nth_error [$"X"; $"Y"; $"Z"] a = Some k -> coordinate n (given_axis o C a k) = C a.
Proof. intros (_ & _ & _ & _ & L) E. specialize (L a k E). unfold given_axis. destruct (find_column k (o_data o)); [reflexivity|]. now rewrite L. Qed.
Lemma sorted_same (l l' : list nat) : StronglySorted lt l -> StronglySorted lt l' -> (forall x, In x l <-> In x l') -> l = l'.
Proof.
  intros S. revert l'. induction S as [|a l S IH F]; intros l' S' H.
  - destruct l' as [|b l']; [reflexivity|]. exfalso. apply (H b). now left.
  - destruct S' as [|b l' S' F']; [exfalso; apply (H a); now left|]. rewrite Forall_forall in F, F'.
    assert (a = b). { destruct (proj1 (H a) (or_introl eq_refl)) as [E|I]; [now symmetry|]. destruct (proj2 (H b) (or_introl eq_refl)) as [E|I']; [exact E|]. apply F' in I. apply F in I'. lia. }
    subst b. f_equal. apply IH; [exact S'|]. intros x. split; intros I.
    + destruct (proj1 (H x) (or_intror I)) as [E|J]; [subst x; apply F in I; lia|exact J].
    + destruct (proj2 (H x) (or_intror I)) as [E|J]; [subst x; apply F' in I; lia|exact J].
Qed.
Lemma varying_dec (l : list Qc) : varying l \/ ~ varying l.
Proof. destruct l as [|x l]; [right; intros (x & y & [] & _)|]. destruct (negb (List.length (unique qleb (x :: l)) =? 1)) eqn:E; [left; now apply varies_iff|right; intros V; apply varies_iff in V; [congruence|discriminate]]. Qed.
Lemma axes_unique (C : nat -> list Qc) l l' : axes C l -> axes C l' -> l = l'.
Proof.
  intros (S & A & B) (S' & A' & B'). assert (D : (exists a, a < 3 /\ varying (C a)) \/ ~ (exists a, a < 3 /\ varying (C a))).
  { destruct (varying_dec (C 0)), (varying_dec (C 1)), (varying_dec (C 2)); try (left; first [exists 0; split; [lia|assumption] | exists 1; split; [lia|assumption] | exists 2; split; [lia|assumption]]).
    right. intros (a & L & V). destruct a as [|[|[|a]]]; try lia; contradiction. }
  destruct D as [D|D]; [|now rewrite B, B']. apply sorted_same; auto. intros x. rewrite (A D), (A' D). reflexivity.
Qed.
Lemma nth_ext_error {A} (l l' : list A) : List.length l = List.length l' -> (forall i x, nth_error l i = Some x -> nth_error l' i = Some x) -> l = l'.
Proof.
  revert l'. induction l as [|x l IH]; intros [|y l'] L H; try discriminate L; [reflexivity|]. f_equal.
  - specialize (H 0 x eq_refl). cbn in H. congruence.
  - apply IH; [cbn in L; lia|]. intros i z E. exact (H (S i) z E).
Qed.
Lemma nth_map_seq {A} (f : nat -> A) n i : i < n -> nth_error (map f (seq 0 n)) i = Some (f i).
Proof. intros L. apply map_nth_error. rewrite nth_error_nth' with (d := 0) by (rewrite seq_length; exact L). rewrite seq_nth by exact L. reflexivity. Qed.
Lemma existsb_In a axis : existsb (Nat.eqb a) axis = true <-> In a axis.
Proof. rewrite existsb_exists. split; [intros (x & I & E); apply Nat.eqb_eq in E; now subst|intros I; exists a; split; [exact I|apply Nat.eqb_refl]]. Qed.
Theorem output_points_ok o n C axis : located o n C -> axes C axis -> output_points o = Ok (centres_in_space C axis n, axis).
Proof.
  intros L AX. pose proof L as (N0 & NE & U & (k & CN & IK) & _). unfold output_points.
  assert (H : match o_data o with [] => Err StopIteration | (_, c) :: _ => Ok (List.length c) end = Ok n).
  { destruct (o_data o) as [|[k0 c0] d]; [contradiction|]. f_equal. apply (U k0). now left. }
  rewrite H. cbn [bind]. rewrite (located_array o n C 0 _ L eq_refl), (located_array o n C 1 _ L eq_refl), (located_array o n C 2 _ L eq_refl). cbn [bind].
  set (X := given_axis o C 0 $"X"). set (Y := given_axis o C 1 $"Y"). set (Z := given_axis o C 2 $"Z").
  assert (FL : Forall (fun o => match o with Some l => List.length l = n | None => True end) [X; Y; Z]).
  { unfold X, Y, Z, given_axis. repeat apply Forall_cons; [| | |apply Forall_nil];
      match goal with |- context [find_column ?k ?d] => destruct (find_column k d); [|exact I] end; [apply (located_length o n C 0 $"X")|apply (located_length o n C 1 $"Y")|apply (located_length o n C 2 $"Z")]; auto. }
  assert (GD : negb (n =? 0) && forallb (fun c => match c with Some l => List.length l =? n | None => true end) [X; Y; Z] = true).
  { apply andb_true_intro. split; [destruct (Nat.eqb_spec n 0); [contradiction|reflexivity]|]. apply forallb_forall. intros c I. rewrite Forall_forall in FL. apply FL in I. destruct c; [now apply Nat.eqb_eq|reflexivity]. }
  rewrite GD. cbn [guard bind].
  assert (G : X <> None \/ Y <> None \/ Z <> None).
  { assert (FK : exists c, find_column k (o_data o) = Some c).
    { unfold names in IK. apply in_map_iff in IK as ([k' c] & E & I). cbn in E. subst k'. unfold find_column. destruct (find (fun kx => streqb (fst kx) k) (o_data o)) as [[k1 c1]|] eqn:F; [eexists; reflexivity|].
      exfalso. apply (List.find_none _ _ F) in I. cbn in I. rewrite streqb_refl in I. discriminate I. }
    destruct FK as (c & FK). unfold X, Y, Z, given_axis. destruct CN as [<-|[<-|[<-|[]]]]; rewrite FK; [left|right; left|right; right]; discriminate. }
  destruct (get_points_spec n X Y Z N0 FL G) as (pts & ax & E & LP & S & A & B & P). rewrite E.
  assert (CA : forall a, a < 3 -> coordinate n (nth a [X; Y; Z] None) = C a).
  { intros [|[|[|a]]] LT; [| | |lia]; cbn [nth]; now apply given_coordinate. }
  assert (AX' : axes C ax).
  { split; [exact S|]. split.
    - intros (a & La & V). intros b. rewrite A; [|exists a; rewrite CA by exact La; auto]. split; intros (Lb & Vb); split; auto; [rewrite CA in Vb by exact Lb|rewrite CA by exact Lb]; exact Vb.
    - intros NV. apply B. intros (a & La & V). apply NV. exists a. rewrite CA in V by exact La. auto. }
  assert (ax = axis) by (eapply axes_unique; eauto). subst ax. do 2 f_equal.
  apply nth_ext_error; [unfold centres_in_space; now rewrite map_length, seq_length|].
  intros i p NP. assert (LI : i < n) by (rewrite <- LP; apply nth_error_Some; congruence). unfold centres_in_space. rewrite nth_map_seq by exact LI. f_equal.
  destruct (P i p NP) as (L3 & PA). symmetry. apply nth_ext_error; [exact L3|]. intros a x NA.
  assert (La : a < 3) by (rewrite <- L3; apply nth_error_Some; congruence). destruct (PA a La) as (P1 & P2). rewrite CA in P1 by exact La.
  assert (LC : forall a, a < 3 -> List.length (C a) = n) by (intros [|[|[|b]]] Lb; [| | |lia]; eapply located_length; eauto; reflexivity).
  assert (G3 : nth_error (map (fun a => if existsb (Nat.eqb a) axis then nth i (C a) (Q2Qc 0) else Q2Qc 0) [0; 1; 2]) a = Some (if existsb (Nat.eqb a) axis then nth i (C a) (Q2Qc 0) else Q2Qc 0)).
  { change [0; 1; 2] with (seq 0 3). now apply nth_map_seq. }
  rewrite G3. f_equal. destruct (existsb (Nat.eqb a) axis) eqn:EX.
  - apply existsb_In in EX. apply P1 in EX. rewrite NA in EX. symmetry in EX. now apply nth_error_nth.
  - assert (NI : ~ In a axis) by (intros I; apply existsb_In in I; congruence). apply P2 in NI. congruence.
Qed.
Lemma axes_below C axis : axes C axis -> forall a, In a axis -> a < 3.
Proof.
  intros (S & A & B) a I. assert (D : (exists a, a < 3 /\ varying (C a)) \/ ~ (exists a, a < 3 /\ varying (C a))).
  { destruct (varying_dec (C 0)), (varying_dec (C 1)), (varying_dec (C 2)); try (left; first [exists 0; split; [lia|assumption] | exists 1; split; [lia|assumption] | exists 2; split; [lia|assumption]]).
    right. intros (b & L & V). destruct b as [|[|[|b]]]; try lia; contradiction. }
  destruct D as [D|D]; [apply (A D), I|]. rewrite (B D) in I. destruct I as [<-|[]]. lia.
Qed.
Lemma along_ok C axis n : (forall a, In a axis -> a < 3) -> along axis (centres_in_space C axis n) = Ok (centres_along C axis n).
Proof.
  intros B. unfold along, centres_in_space, centres_along. induction (seq 0 n) as [|i l IH]; [reflexivity|]. cbn [map mapM]. 
  assert (T : take [if existsb (Nat.eqb 0) axis then nth i (C 0) (Q2Qc 0) else Q2Qc 0; if existsb (Nat.eqb 1) axis then nth i (C 1) (Q2Qc 0) else Q2Qc 0; if existsb (Nat.eqb 2) axis then nth i (C 2) (Q2Qc 0) else Q2Qc 0] axis
    = Ok (map (fun a => nth i (C a) (Q2Qc 0)) axis)).
  { assert (G : forall sub, (forall a, In a sub -> In a axis) -> mapM (item [if existsb (Nat.eqb 0) axis then nth i (C 0) (Q2Qc 0) else Q2Qc 0; if existsb (Nat.eqb 1) axis then nth i (C 1) (Q2Qc 0) else Q2Qc 0; if existsb (Nat.eqb 2) axis then nth i (C 2) (Q2Qc 0) else Q2Qc 0]) sub
      = Ok (map (fun a => nth i (C a) (Q2Qc 0)) sub)); [|now apply G].
    induction sub as [|a sub IHs]; intros H; [reflexivity|]. cbn [mapM map]. rewrite (IHs (fun b I => H b (or_intror I))). assert (IA := H a (or_introl eq_refl)). pose proof (proj2 (existsb_In a axis) IA) as EX.
    apply B in IA. unfold item. destruct a as [|[|[|a]]]; [| | |lia]; cbn [nth_error bind]; now rewrite EX. }
  cbn [map] in T, IH. rewrite T. cbn [bind]. rewrite IH. reflexivity.
Qed.

(** ** Triangles and tetrahedra *)
Lemma put_new {B} k (x : B) d : ~ In k (map fst d) -> put k x d = d ++ [(k, x)].
Proof.
  induction d as [|[k' y] d IH]; intros N; [reflexivity|]. cbn [put fst]. destruct (streqb k k') eqn:E; [apply streqb_eq in E; subst; exfalso; apply N; now left|].
  cbn [app]. f_equal. apply IH. intros I. apply N. now right.
Qed.
Lemma update_app {B} (e d : list (str * B)) : NoDup (map fst (d ++ e)) -> update d e = d ++ e.
Proof.
  unfold update. revert d. induction e as [|[k x] e IH]; intros d N; [symmetry; apply app_nil_r|]. cbn [fold_left fst snd].
  rewrite map_app in N. cbn [map fst] in N. rewrite put_new.
  - rewrite IH; [now rewrite <- app_assoc|]. rewrite <- app_assoc. cbn [app]. rewrite map_app. exact N.
  - apply NoDup_remove_2 in N. intros I. apply N. apply in_or_app. now left.
Qed.
Lemma shown_only o : results_only o (shown o).
Proof.
  intros k c. unfold shown. rewrite filter_In. cbn [fst]. rewrite negb_true_iff, <- not_true_iff_false, is_xyz_spec. reflexivity.
Qed.
Lemma shown_nodup o : NoDup (names o) -> NoDup (map fst (shown o)).
Proof.
  unfold names, shown. induction (o_data o) as [|[k c] d IH]; intros N; [constructor|]. cbn [map fst] in N. inversion_clear N as [|? ? A B]. cbn [filter fst]. destruct (negb (is_xyz k)); [|auto].
  cbn [map fst]. constructor; [|auto]. intros I. apply A. apply in_map_iff in I as (kv & <- & I). apply filter_In in I as [I _]. now apply in_map.
Qed.
Lemma shown_lengths o n C : located o n C -> Forall (fun kv => List.length (snd kv) = n) (shown o).
Proof. intros (_ & _ & U & _). apply Forall_forall. intros [k c] I. apply filter_In in I as [I _]. cbn. eauto. Qed.
Lemma add_points_all d : forall m, Forall (fun kv => List.length (snd kv) = List.length (points m)) d ->
  foldM add_points m d = Ok (Mesh (dim m) (points m) (cells m) (update (point_data m) d) (cell_data m) (field_data m)).
Proof.
  induction d as [|kv d IH]; intros m F; [now destruct m|]. inversion_clear F as [|? ? L F']. cbn [foldM]. unfold add_points at 1. rewrite L, Nat.eqb_refl. cbn [guard bind]. rewrite IH by exact F'. reflexivity.
Qed.
Lemma centres_length C axis n : List.length (centres_along C axis n) = n.
Proof. unfold centres_along. now rewrite map_length, seq_length. Qed.
Lemma chosen_step a outs o : a_format a <> EXdmf -> asked outs (a_time_step a) o -> match a_format a with EXdmf => step_asked outs None | _ => step_asked outs (a_time_step a) end = Ok o.
Proof. intros F A. apply asked_ok in A. destruct (a_format a); congruence. Qed.
Lemma asked_In outs t o : asked outs t o -> In o outs.
Proof. unfold asked. destruct t; [intros (i & I & _)|intros I]; now apply nth_error_In in I. Qed.
(** With triangles, or with an origin of three numbers, the command makes its own cells. *)
Lemma export_meshless argsort delaunay a outs o : a_format a <> EXdmf -> meshless a outs -> asked outs (a_time_step a) o -> (a_voxelize a = true -> exists p, origin_of a = Ok p) ->
  export argsort delaunay a outs = export_alone argsort delaunay a o outs.
Proof.
  intros F M A V. unfold export. assert (G : (if a_voxelize a then let* _ := origin_of a in Ok tt else Ok tt) = Ok tt). { destruct (a_voxelize a); [|reflexivity]. destruct V as (p & ->); reflexivity. }
  rewrite (chosen_step a outs o F A). destruct M as [M|M].
  - rewrite M, G. cbn [bind]. destruct (a_format a); try contradiction; reflexivity.
  - destruct (a_mesh a) as [[m ll]|]; [|rewrite G; cbn [bind]; destruct (a_format a); try contradiction; reflexivity]. cbn [bind]. rewrite Forall_forall in M. rewrite (M o (asked_In _ _ _ A)).
    rewrite streqb_refl. destruct (a_format a); try contradiction; reflexivity.
Qed.
Lemma last_In outs o : last_output outs = Some o -> In o outs.
Proof. induction outs as [|x [|y outs] IH]; [discriminate| |]; intros E; [injection E as ->; now left|]. right. now apply IH. Qed.
Lemma export_meshless_series argsort delaunay a o outs : a_format a = EXdmf -> meshless a (o :: outs) -> (a_voxelize a = true -> exists p, origin_of a = Ok p) ->
  export argsort delaunay a (o :: outs) = export_alone argsort delaunay a o (o :: outs).
Proof.
  intros F M V. unfold export. assert (G : (if a_voxelize a then let* _ := origin_of a in Ok tt else Ok tt) = Ok tt). { destruct (a_voxelize a); [|reflexivity]. destruct V as (p & ->); reflexivity. }
  rewrite F. unfold step_asked. destruct (last_some (o :: outs) ltac:(discriminate)) as (l & E & I). rewrite E. cbn [bind]. destruct M as [M|M].
  - rewrite M, G. cbn [bind]. reflexivity.
  - destruct (a_mesh a) as [[m ll]|]; [|rewrite G; reflexivity]. cbn [bind]. rewrite Forall_forall in M. rewrite (M l I), streqb_refl. reflexivity.
Qed.
Lemma axes_at_most C axis : axes C axis -> List.length axis <= 3.
Proof.
  intros A. pose proof (axes_below C axis A) as B. destruct A as (S & _ & _). assert (N : NoDup axis).
  { clear B. induction S as [|x l S IH F]; constructor; auto. intros I. rewrite Forall_forall in F. apply F in I. lia. }
  change 3 with (List.length (seq 0 3)). apply NoDup_incl_length; [exact N|]. intros x I. apply in_seq. apply B in I. lia.
Qed.
Lemma alone_triangles argsort delaunay a o outs n C axis simplices : located o n C -> axes C axis -> a_voxelize a = false -> 1 < List.length axis -> delaunay (centres_along C axis n) = Ok simplices ->
  export_alone argsort delaunay a o outs =
    let m := Mesh (List.length axis) (centres_along C axis n) [(simplex axis, simplices)] [] [($"material", repeat (flt_of_Z 1) (List.length simplices))] [($"dfalt", (1, 3)%Z)] in
    match a_format a with
    | EXdmf => series argsort (points m) (cells m) (Some (map shown outs)) None outs
    | _ => let* m := foldM add_points m (shown o) in Ok (Alone m)
    end.
Proof.
  intros L A V G D. unfold export_alone. rewrite (output_points_ok o n C axis L A). cbn [bind]. rewrite V. destruct (Nat.eqb_spec (List.length axis) 1) as [E|_]; [lia|]. cbn [orb].
  rewrite (along_ok C axis n (axes_below C axis A)). cbn [bind]. unfold triangulate. pose proof (axes_at_most C axis A) as U.
  assert (W : (List.length axis =? 2) || (List.length axis =? 3) = true) by (destruct (List.length axis) as [|[|[|[|k]]]]; try lia; reflexivity). rewrite W. cbn [guard bind]. rewrite D. cbn [bind].
  unfold simplex. assert (N : n_cells [(if List.length axis =? 2 then $"triangle" else $"tetra", simplices)] = List.length simplices) by (unfold n_cells; cbn; lia). rewrite N. reflexivity.
Qed.
Theorem triangulated argsort delaunay a outs o n C axis simplices : a_format a <> EXdmf -> meshless a outs -> asked outs (a_time_step a) o -> a_voxelize a = false ->
  located o n C -> NoDup (names o) -> axes C axis -> 1 < List.length axis -> delaunay (centres_along C axis n) = Ok simplices ->
  exists m, export argsort delaunay a outs = Ok (Alone m) /\ points m = centres_along C axis n /\ cells m = [(simplex axis, simplices)] /\
    results_only o (point_data m) /\ map fst (cell_data m) = [$"material"].
Proof.
  intros F M AS V L N A G D. rewrite (export_meshless argsort delaunay a outs o F M AS) by congruence. rewrite (alone_triangles argsort delaunay a o outs n C axis simplices L A V G D). cbv zeta.
  set (m := Mesh _ _ _ _ _ _). assert (E : foldM add_points m (shown o) = Ok (Mesh (dim m) (points m) (cells m) (shown o) (cell_data m) (field_data m))).
  { rewrite add_points_all; [|cbn [points m]; rewrite centres_length; exact (shown_lengths o n C L)]. do 2 f_equal. cbn [point_data m]. rewrite update_app; [reflexivity|]. now apply shown_nodup. }
  rewrite E. exists (Mesh (dim m) (points m) (cells m) (shown o) (cell_data m) (field_data m)). split; [destruct (a_format a); try contradiction; reflexivity|]. split; [reflexivity|]. split; [reflexivity|]. split; [apply shown_only|reflexivity].
Qed.
Lemma times_ok outs : Forall timed outs -> exists ts, mapM (fun o => match o_time o with Some t => Ok t | None => Err Unmodelled end) outs = Ok ts /\ Forall2 (fun o t => o_time o = Some t) outs ts.
Proof.
  induction 1 as [|o outs (t & T) _ (ts & E & F)]; [exists []; split; [reflexivity|constructor]|]. exists (t :: ts). cbn [mapM]. rewrite T. cbn [bind]. rewrite E. split; [reflexivity|]. constructor; auto.
Qed.
Lemma triples_points {P V} (ts : list flt) : forall (pd : list P) , List.length pd = List.length ts -> triples ts pd (map (fun _ => @nil V) pd) = map (fun tp => (fst tp, snd tp, [])) (combine ts pd).
Proof. induction ts as [|t ts IH]; intros [|p pd] L; try discriminate L; [reflexivity|]. cbn [triples map combine fst snd]. rewrite IH; [reflexivity|]. cbn in L. lia. Qed.
Theorem triangulated_series argsort delaunay a o outs n C axis simplices : sorts not_later argsort -> a_format a = EXdmf -> meshless a (o :: outs) -> a_voxelize a = false ->
  Forall (fun o => located o n C) (o :: outs) -> Forall timed (o :: outs) -> axes C axis -> 1 < List.length axis -> delaunay (centres_along C axis n) = Ok simplices ->
  exists steps rows, export argsort delaunay a (o :: outs) = Ok (Steps (centres_along C axis n) [(simplex axis, simplices)] steps) /\
    StronglySorted (fun s s' => not_later (fst (fst s)) (fst (fst s')) = true) steps /\
    Permutation (map fst steps) rows /\ Forall2 (fun o r => o_time o = Some (fst r) /\ results_only o (snd r)) (o :: outs) rows /\ Forall (fun s => snd s = []) steps.
Proof.
  intros S F M V LL TT A G D. pose proof LL as L. inversion_clear L as [|? ? L0 _]. rewrite (export_meshless_series argsort delaunay a o outs F M) by congruence.
  rewrite (alone_triangles argsort delaunay a o (o :: outs) n C axis simplices L0 A V G D). cbv zeta. rewrite F. cbn [points cells]. set (all := o :: outs) in *. unfold series.
  destruct (times_ok all TT) as (ts & E & F2). rewrite E. cbn [bind]. assert (LT : List.length ts = List.length all) by (symmetry; eapply F2_len; eauto).
  assert (NP : map shown all <> []) by discriminate.
  pose proof (write_defaults_points (V := flt) argsort (fun n => Fin false (Z.of_nat n) 0) [(simplex axis, simplices)] (map shown all) (Some ts) NP) as WD.
  destruct (write_steps not_later argsort (fun n => Fin false (Z.of_nat n) 0) S [(simplex axis, simplices)] (map shown all) (map (fun _ => @nil (str * list flt)) (map shown all)) ts) as (steps & W & SS & PE); [exact NP|discriminate|now rewrite !map_length|now rewrite map_length|].
  unfold table in *. rewrite W in WD. rewrite WD. cbn [bind]. exists steps, (combine ts (map shown all)). split; [reflexivity|]. split; [exact SS|].
  rewrite triples_points in PE by (rewrite map_length; now symmetry). split; [|split].
  - apply (Permutation_map fst) in PE. rewrite !map_map in PE.
    assert (X : map (fun x : flt * list (str * list flt) => (fst x, snd x)) (combine ts (map shown all)) = combine ts (map shown all)) by (rewrite <- (map_id (combine ts (map shown all))) at 2; apply map_ext; now intros []).
    rewrite <- X. exact PE.
  - clear -F2. induction F2 as [|o1 t l ts1 T _ IH]; [constructor|]. cbn [map combine]. constructor; [|exact IH]. split; [exact T|apply shown_only].
  - apply Forall_forall. intros s I. assert (J : In (read_step s) (map (fun tp : flt * list (str * list flt) => (fst tp, snd tp, [])) (combine ts (map shown all)))) by (eapply Permutation_in; [exact PE|now apply in_map]).
    apply in_map_iff in J as (tp & Q & _). apply (f_equal snd) in Q. cbn in Q. destruct (snd s); [reflexivity|discriminate Q].
Qed.
