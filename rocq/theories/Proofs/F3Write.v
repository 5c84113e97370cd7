(** What the writer of FLAC3D grids takes from a mesh. *)
From Coq Require Import String Ascii Arith ZArith Bool Lia List.
From Verif Require Import Base.Str Base.Digits Base.Flt Base.FltText Model.Py Model.Numpy Model.Mesh Model.F3grid Spec.MeshCells Spec.F3grid
  Proofs.F3Order Proofs.F3Build Proofs.F3Finish Proofs.F3Binary Proofs.F3Text.
From Verif Require Proofs.NumpyProof.
Import ListNotations.
Local Open Scope nat_scope.

Definition zrel (pts : list (list flt)) (a b : str * list nat) : Prop :=
  exists n, shaped (fst a) Solid (fst b) n /\ @translate_zone doubles pts (fst b) (snd a) = Ok (snd b).
Definition frel (a b : str * list nat) : Prop := exists n, shaped (fst a) Surface (fst b) n /\ translate_face (fst b) (snd a) = Ok (snd b).
Lemma zone_not_face t t' : assoc t zone_types = Ok t' -> exists e, assoc t face_types = Err e.
Proof.
  intros H. apply assoc_In in H. assert (F : Forall (fun e => match assoc (fst e) face_types with Ok _ => false | Err _ => true end = true) zone_types) by (repeat constructor).
  rewrite Forall_forall in F. specialize (F _ H). cbn [fst] in F. destruct (assoc t face_types); [discriminate|eauto].
Qed.
Lemma solid_zone (a : str * list nat) t n : shaped (fst a) Solid t n -> assoc (fst a) zone_types = Ok t.
Proof. intros H. now destruct (shaped_solid _ _ _ H) as (s & _ & _ & _ & A). Qed.
Lemma surface_face (a : str * list nat) t n : shaped (fst a) Surface t n -> assoc (fst a) face_types = Ok t.
Proof. intros H. now destruct (shaped_surface _ _ _ H) as (A & _). Qed.
Lemma solid_not_surface a : is_solid a -> ~ is_surface a.
Proof. intros (t & n & H) (t' & n' & H'). apply solid_zone in H. apply surface_face in H'. destruct (zone_not_face _ _ H). congruence. Qed.
Lemma rows_F2 {A B} (f : A -> res B) (R : str * A -> str * B -> Prop) t t' rows rows' :
  (forall x y, f x = Ok y -> R (t, x) (t', y)) -> mapM f rows = Ok rows' -> Forall2 R (map (pair t) rows) (map (pair t') rows').
Proof.
  intros H. revert rows'. induction rows as [|x rows IH]; intros rows' M; cbn [mapM] in M.
  - assert (rows' = []) as -> by congruence. constructor.
  - destruct (f x) as [y|] eqn:E; cbn [bind] in M; [|discriminate]. destruct (mapM f rows) as [ys|] eqn:E'; cbn [bind] in M; [|discriminate].
    assert (rows' = y :: ys) as -> by congruence. cbn [map]. constructor; auto.
Qed.
Lemma so_block_solid t (rows : list (list nat)) l zs fs : (forall r, is_solid (t, r)) -> sorted_out l zs fs -> sorted_out (map (pair t) rows ++ l) (map (pair t) rows ++ zs) fs.
Proof. intros H S. induction rows as [|r rows IH]; auto. cbn [map app]. constructor; auto. Qed.
Lemma so_block_surface t (rows : list (list nat)) l zs fs : (forall r, is_surface (t, r)) -> sorted_out l zs fs -> sorted_out (map (pair t) rows ++ l) zs (map (pair t) rows ++ fs).
Proof. intros H S. induction rows as [|r rows IH]; auto. cbn [map app]. constructor; auto. Qed.
Lemma so_block_other t (rows : list (list nat)) l zs fs : (forall r, ~ is_solid (t, r)) -> (forall r, ~ is_surface (t, r)) -> sorted_out l zs fs -> sorted_out (map (pair t) rows ++ l) zs fs.
Proof. intros H H' S. induction rows as [|r rows IH]; auto. cbn [map app]. constructor; auto. Qed.
Lemma sort_out pts cells : forall zb fb, @translate_zones doubles pts cells = Ok zb -> translate_faces cells = Ok fb ->
  exists zs fs, sorted_out (flat cells) zs fs /\ Forall2 (zrel pts) zs (flat zb) /\ Forall2 frel fs (flat fb).
Proof.
  induction cells as [|[t rows] cells IH]; intros zb fb Z F; cbn [translate_zones translate_faces] in Z, F.
  - assert (zb = []) as -> by congruence. assert (fb = []) as -> by congruence. exists [], []. repeat constructor.
  - unfold flat at 1. cbn [flat_map fst snd]. fold (flat cells). destruct (assoc t zone_types) as [key|] eqn:AZ.
    + destruct (zone_not_face _ _ AZ) as [e AF]. rewrite AF in F.
      destruct (mapM (translate_zone pts key) rows) as [data|] eqn:M; cbn [bind] in Z; [|discriminate].
      destruct (translate_zones pts cells) as [zb'|] eqn:TZ; cbn [bind] in Z; [|discriminate]. assert (zb = (key, data) :: zb') as -> by congruence.
      destruct (IH _ _ eq_refl F) as (zs & fs & S & RZ & RF). destruct (zone_known _ _ AZ) as [n SH].
      exists (map (pair t) rows ++ zs), fs. split; [|split; auto].
      * apply so_block_solid; auto. intros r. now exists key, n.
      * unfold flat. cbn [flat_map fst snd]. apply Forall2_app; auto. apply (rows_F2 _ _ _ _ _ _) with (2 := M). intros x y E. exists n. auto.
    + destruct (assoc t face_types) as [key|] eqn:AF.
      * destruct (mapM (translate_face key) rows) as [data|] eqn:M; cbn [bind] in F; [|discriminate].
        destruct (translate_faces cells) as [fb'|] eqn:TF; cbn [bind] in F; [|discriminate]. assert (fb = (key, data) :: fb') as -> by congruence.
        destruct (IH _ _ Z eq_refl) as (zs & fs & S & RZ & RF). destruct (face_known _ _ AF) as [n SH].
        exists zs, (map (pair t) rows ++ fs). split; [|split; auto].
        -- apply so_block_surface; auto. intros r. now exists key, n.
        -- unfold flat. cbn [flat_map fst snd]. apply Forall2_app; auto. apply (rows_F2 _ _ _ _ _ _) with (2 := M). intros x y E. exists n. auto.
      * destruct (IH _ _ Z F) as (zs & fs & S & RZ & RF). exists zs, fs. split; [|split; auto]. apply so_block_other; auto.
        -- intros r (t' & n & H). apply solid_zone in H. cbn [fst] in H. congruence.
        -- intros r (t' & n & H). apply surface_face in H. cbn [fst] in H. congruence.
Qed.
Lemma known_iff {B} (d : list (str * B)) t : known d t = match assoc t d with Ok _ => true | Err _ => false end.
Proof. reflexivity. Qed.
Lemma mapM_length {A B} (f : A -> res B) l l' : mapM f l = Ok l' -> List.length l' = List.length l.
Proof.
  revert l'. induction l as [|x l IH]; intros l' M; cbn [mapM] in M; [assert (l' = []) as -> by congruence; reflexivity|].
  destruct (f x) as [y|]; cbn [bind] in M; [|discriminate]. destruct (mapM f l) as [ys|]; cbn [bind] in M; [|discriminate]. assert (l' = y :: ys) as -> by congruence. cbn [List.length]. f_equal. auto.
Qed.
Lemma first_face {C : coords} (pts : list (list C)) cells : forall zb, translate_zones pts cells = Ok zb -> first_id Face cells = List.length (flat zb).
Proof.
  cbn [first_id]. induction cells as [|[t rows] cells IH]; intros zb Z; cbn [translate_zones] in Z.
  - assert (zb = []) as -> by congruence. reflexivity.
  - cbn [filter fst]. rewrite known_iff. destruct (assoc t zone_types) as [key|].
    + destruct (mapM (translate_zone pts key) rows) as [data|] eqn:M; cbn [bind] in Z; [|discriminate].
      destruct (translate_zones pts cells) as [zb'|] eqn:TZ; cbn [bind] in Z; [|discriminate]. assert (zb = (key, data) :: zb') as -> by congruence.
      apply mapM_length in M. unfold flat, n_cells. cbn [flat_map fst snd map list_sum fold_right]. rewrite app_length, map_length. rewrite M. f_equal.
      fold (flat zb'). rewrite <- (IH _ eq_refl). reflexivity.
    + now apply IH.
Qed.
Lemma combine_fst_snd {A B} (l : list (A * B)) : combine (map fst l) (map snd l) = l.
Proof. induction l as [|[a b] l IH]; cbn; congruence. Qed.
Lemma solid_size t t' n : shaped t Solid t' n -> type_of Zone n = Ok t' /\ n <> 7.
Proof. intros H. destruct (shaped_solid _ _ _ H) as (s & I & -> & -> & _). cbn [In solid_types] in I. each I; subst s; (split; [reflexivity|vm_compute; discriminate]). Qed.
Lemma surface_size t t' n : shaped t Surface t' n -> type_of Face n = Ok t' /\ n <> 7.
Proof. intros H. destruct (shaped_surface _ _ _ H) as (_ & _ & _ & [[-> ->]|[-> ->]]); (split; [reflexivity|discriminate]). Qed.
Lemma zones_good pts n zs zb : valid n zs -> Forall2 (zrel pts) zs zb ->
  good_rows Zone n (map fst zb) (map snd zb) /\ Forall (fun row => List.length row <> 7) (map snd zb) /\
  Forall (fun a => exists b, read_zone (fst a) (snd a) = Ok b) zb.
Proof.
  intros V F. induction F as [|a b zs zb (k & SH & T) F IH]; [repeat constructor|]. apply Forall_cons_iff in V as [Va V]. destruct (IH V) as (A & B & D).
  destruct (@shaped_same doubles pts _ _ _ _ _ SH T) as (bk & RB & L & IN & _). destruct (solid_size _ _ _ SH) as [TY N7]. cbn [map]. split; [|split]; constructor; eauto.
  - rewrite L. split; auto. rewrite Forall_forall in *. auto.
  - now rewrite L.
Qed.
Lemma faces_good n fs fb : valid n fs -> Forall2 frel fs fb ->
  good_rows Face n (map fst fb) (map snd fb) /\ Forall (fun row => List.length row <> 7) (map snd fb) /\
  Forall (fun a => exists b, read_zone (fst a) (snd a) = Ok b) fb.
Proof.
  intros V F. induction F as [|a b fs fb (k & SH & T) F IH]; [repeat constructor|]. apply Forall_cons_iff in V as [Va V]. destruct (IH V) as (A & B & D).
  destruct (shaped_face _ _ _ _ _ SH T) as (EQ & RB & L). destruct (surface_size _ _ _ SH) as [TY N7]. cbn [map]. split; [|split]; constructor; eauto.
  - rewrite L. split; auto. rewrite EQ. rewrite Forall_forall in *. intros v I. apply Va. rewrite <- (firstn_skipn k). apply in_or_app. now left.
  - now rewrite L.
Qed.
Lemma comes pts zs zb fs fb cells' : Forall2 (zrel pts) zs zb -> Forall2 frel fs fb -> Forall2 back (zb ++ fb) cells' -> Forall2 comes_back (zs ++ fs) cells'.
Proof.
  intros Z F B. assert (R : Forall2 (fun a b => forall c, back b c -> comes_back a c) (zs ++ fs) (zb ++ fb)).
  { apply Forall2_app.
    - clear - Z. induction Z as [|a b zs zb (k & SH & T) Z IH]; constructor; auto. intros c [E RC]. destruct (@shaped_same doubles pts _ _ _ _ _ SH T) as (bk & RB & L & IN & OR).
      exists Solid, k. rewrite <- E. assert (snd c = bk) as -> by congruence. split; auto. destruct OR; auto.
    - clear - F. induction F as [|a b zs zb (k & SH & T) F IH]; constructor; auto. intros c [E RC]. destruct (shaped_face _ _ _ _ _ SH T) as (EQ & RB & L).
      exists Surface, k. rewrite <- E. split; auto. left. congruence. }
  revert cells' B. induction R as [|a b l l' H R IH]; intros cells' B; inversion B; subst; constructor; auto.
Qed.
Lemma sections_of (binary : bool) f pts cells mat fd s : (if binary then binary_section else text_section) f pts cells mat fd = Ok s ->
  exists b g, translated f pts cells = Ok b /\ groups_of f cells mat fd = Ok g.
Proof.
  destruct binary; [unfold binary_section|unfold text_section]; (destruct (translated f pts cells) as [b|]; cbn [bind]; [|discriminate]).
  - destruct (groups_of f cells mat fd) as [g|]; cbn [bind]; [|discriminate]. eauto.
  - destruct (mapM _ _); cbn [bind]; [|discriminate]. destruct (groups_of f cells mat fd) as [g|]; cbn [bind]; [|discriminate]. eauto.
Qed.
Lemma write_parts binary version now m file : write binary version now m = Ok file ->
  exists zb fb zg fg, translated Zone (g_points m) (g_cells m) = Ok zb /\ translated Face (g_points m) (g_cells m) = Ok fb /\
    groups_of Zone (g_cells m) (g_material m) (g_field m) = Ok zg /\ groups_of Face (g_cells m) (g_material m) (g_field m) = Ok fg.
Proof.
  unfold write. intros W. destruct (guard _ ValueError); cbn [bind] in W; [|discriminate]. cbv zeta in W.
  destruct (if binary then concatM [u32 1375135718; u32 3] else _); cbn [bind] in W; [|discriminate].
  destruct (if binary then concatM (of_nat (List.length (g_points m)) :: map binary_point (numbered (g_points m))) else _); cbn [bind] in W; [|discriminate].
  destruct ((if binary then binary_section else text_section) Zone _ _ _ _) as [zones|] eqn:EZ; cbn [bind] in W; [|discriminate].
  destruct ((if binary then binary_section else text_section) Face _ _ _ _) as [faces|] eqn:EF; cbn [bind] in W; [|discriminate].
  apply sections_of in EZ as (zb & zg & A & B). apply sections_of in EF as (fb & fg & D & E). exists zb, fb, zg, fg. auto.
Qed.
Lemma sorted_valid n l zs fs : sorted_out l zs fs -> valid n l -> valid n zs /\ valid n fs.
Proof.
  intros S V. induction S; [split; constructor| | |]; apply Forall_cons_iff in V as [Va V]; destruct (IHS V); split; auto; constructor; auto.
Qed.
Lemma nonl_of s : without_newline s -> nonl s = true.
Proof. intros N. unfold nonl. apply forallb_forall. intros c I. apply negb_true_iff, Ascii.eqb_neq. intros ->. contradiction. Qed.
(** The two formats *)
Lemma read_feed (binary : bool) version now m file zb fb zg fg st :
  write binary version now m = Ok file -> Forall in_space (g_points m) -> valid (List.length (g_points m)) (flat (g_cells m)) ->
  translated Zone (g_points m) (g_cells m) = Ok zb -> translated Face (g_points m) (g_cells m) = Ok fb ->
  groups_of Zone (g_cells m) (g_material m) (g_field m) = Ok zg -> groups_of Face (g_cells m) (g_material m) (g_field m) = Ok fg ->
  (binary = false -> without_newline version /\ without_newline now /\ Forall (fun g => good_name (fst g)) zg /\ Forall (fun g => good_name (fst g)) fg /\ List.length fg <= 1) ->
  feed (if binary then $"Default" else []) (g_points m) (map snd (flat zb)) zg (map snd (flat fb)) fg = Ok st -> read file = finish st.
Proof.
  intros W P V TZ TF GZ GF TX FD. destruct (sort_out _ _ _ _ TZ TF) as (zs & fs & S & RZ & RF). destruct (sorted_valid _ _ _ _ S V) as [VZ VF].
  destruct (zones_good _ _ _ _ VZ RZ) as (_ & NZ & _). destruct (faces_good _ _ _ VF RF) as (_ & NF & _). pose proof (@first_face doubles _ _ _ TZ) as FI.
  destruct binary.
  - eapply binary_feed; eauto. revert P. apply Forall_impl. intros p [_ H]. exact H.
  - destruct (TX eq_refl) as (A & B & D & E & F). eapply text_feed; eauto using nonl_of.
Qed.
(** C48 *)
Theorem round_trip (binary : bool) version now m file : write binary version now m = Ok file -> g_material m = None ->
  Forall in_space (g_points m) -> valid (List.length (g_points m)) (flat (g_cells m)) ->
  (binary = false -> without_newline version /\ without_newline now) ->
  exists c zs fs, read file = Ok c /\ c_points c = g_points m /\ sorted_out (flat (g_cells m)) zs fs /\
    Forall2 comes_back (zs ++ fs) (flat (c_cells c)) /\ merged (c_cells c) /\ c_groups c = None /\ c_field c = [].
Proof.
  intros W MN P V TX. destruct (write_parts _ _ _ _ _ W) as (zb & fb & zg & fg & TZ & TF & GZ & GF).
  destruct (sort_out _ _ _ _ TZ TF) as (zs & fs & S & RZ & RF). destruct (sorted_valid _ _ _ _ S V) as [VZ VF].
  destruct (zones_good _ _ _ _ VZ RZ) as (AZ & _ & BZ). destruct (faces_good _ _ _ VF RF) as (AF & _ & BF).
  assert (zg = []) as -> by (rewrite MN in GZ; cbn in GZ; congruence). assert (fg = []) as -> by (rewrite MN in GF; cbn in GF; congruence).
  destruct (finish_ok (if binary then $"Default" else []) (g_points m) _ _ [] _ _ [] (fun _ => 0) (fun _ => 0) AZ AF (NoDup_nil _) (Forall_nil _) (Forall_nil _)) as (c & E & CP & FB & MG & CF & CG).
  - rewrite !combine_fst_snd. apply Forall_app. auto.
  - congruence.
  - congruence.
  - cbn. congruence.
  - rewrite !combine_fst_snd in FB. exists c, zs, fs. destruct (feed _ _ _ _ _ _) as [st|] eqn:FD; cbn [bind] in E; [|discriminate].
    rewrite (read_feed binary version now m file zb fb [] [] st W P V TZ TF GZ GF); auto.
    + repeat split; auto. eapply comes; eauto.
    + intros H. destruct (TX H) as [A B]. repeat split; auto.
Qed.
