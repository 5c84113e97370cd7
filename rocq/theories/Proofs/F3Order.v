(** The node orders of FLAC3D and the orientation of zones. *)
From Coq Require Import String Ascii Arith ZArith QArith Qcanon Bool Lia Lqa Permutation List.
From Verif Require Import Base.Str Base.Flt Model.Py Model.Numpy Model.Mesh Model.F3grid Spec.MeshCells Spec.F3grid.
From Verif Require Proofs.NumpyProof Proofs.MaterialProof Proofs.ReorderProof.
Import ListNotations.
Local Open Scope nat_scope.

(** The solids one by one. *)
Definition solid_types : list string := ["tetra"; "pyramid"; "wedge"; "hexahedron"]%string.
Definition size_of (t : string) : nat :=
  if String.eqb t "tetra" then 4 else if String.eqb t "pyramid" then 5 else if String.eqb t "wedge" then 6 else 8.

Ltac each H := repeat (destruct H as [H|H]; [|try (exfalso; exact H)]); try (exfalso; exact H).
Lemma shaped_solid t t' n : shaped t Solid t' n -> exists s, In s solid_types /\ t' = lit s /\ n = size_of s /\ assoc t zone_types = Ok t'.
Proof.
  intros (name & all & s & I & J & -> & ->). unfold shapes in I. cbn [In] in I.
  each I; try discriminate I; injection I as <- <- <-; cbn [In] in J; each J; subst s;
    match goal with |- exists s, In s _ /\ lit ?x = _ /\ _ => exists x end;
    (split; [cbn; tauto | split; [reflexivity | split; reflexivity]]).
Qed.
Lemma shaped_surface t t' n : shaped t Surface t' n ->
  assoc t face_types = Ok t' /\ assoc t' to_flac = Ok (seq 0 n) /\ assoc t' to_meshio = Ok (seq 0 n) /\
  (t' = $"triangle" /\ n = 3 \/ t' = $"quad" /\ n = 4).
Proof.
  intros (name & all & s & I & J & -> & ->). unfold shapes in I. cbn [In] in I.
  each I; try discriminate I; injection I as <- <- <-; cbn [In] in J; each J; subst s;
    (split; [reflexivity | split; [reflexivity | split; [reflexivity | tauto]]]).
Qed.
Lemma assoc_In {B} t (d : list (str * B)) x : assoc t d = Ok x -> In (t, x) d.
Proof.
  induction d as [|[k y] d IH]; cbn [assoc]; [discriminate|]. destruct (streqb t k) eqn:E.
  - apply streqb_eq in E as ->. intros H. left. congruence.
  - intros H. right. auto.
Qed.
Definition shape_table : list (str * (body * str * nat)) :=
  flat_map (fun e => let '(b, name, n, all) := e in map (fun s => (lit s, (b, lit name, n))) all) shapes.
Lemma shape_table_spec t b t' n : In (t, (b, t', n)) shape_table -> shaped t b t' n.
Proof.
  unfold shape_table. intros H. apply in_flat_map in H as ([[[b0 name] n0] all] & I & J).
  apply in_map_iff in J as (s & E & J). exists name, all, s. split.
  - assert (b0 = b /\ n0 = n) as [<- <-] by (split; congruence). exact I.
  - split; auto. split; congruence.
Qed.
Lemma zone_known t t' : assoc t zone_types = Ok t' -> exists n, shaped t Solid t' n.
Proof.
  intros H. apply assoc_In in H.
  assert (F : Forall (fun e => existsb (fun r => streqb (fst e) (fst r) && streqb (snd e) (snd (fst (snd r))) &&
     match fst (fst (snd r)) with Solid => true | Surface => false end) shape_table = true) zone_types) by (repeat constructor; vm_compute; reflexivity).
  rewrite Forall_forall in F. specialize (F _ H). apply existsb_exists in F as ([t0 [[b t1] n]] & I & J). cbn [fst snd] in J.
  apply andb_true_iff in J as [J B]. apply andb_true_iff in J as [J1 J2]. apply streqb_eq in J1. apply streqb_eq in J2. subst t0 t1.
  destruct b; [|discriminate]. exists n. now apply shape_table_spec.
Qed.
Lemma face_known t t' : assoc t face_types = Ok t' -> exists n, shaped t Surface t' n.
Proof.
  intros H. apply assoc_In in H.
  assert (F : Forall (fun e => existsb (fun r => streqb (fst e) (fst r) && streqb (snd e) (snd (fst (snd r))) &&
     match fst (fst (snd r)) with Solid => false | Surface => true end) shape_table = true) face_types) by (repeat constructor; vm_compute; reflexivity).
  rewrite Forall_forall in F. specialize (F _ H). apply existsb_exists in F as ([t0 [[b t1] n]] & I & J). cbn [fst snd] in J.
  apply andb_true_iff in J as [J B]. apply andb_true_iff in J as [J1 J2]. apply streqb_eq in J1. apply streqb_eq in J2. subst t0 t1.
  destruct b; [discriminate|]. exists n. now apply shape_table_spec.
Qed.

(** Rows of given length *)
Lemma long_cell {A} n (c : list A) : n <= List.length c -> exists d r, c = d ++ r /\ List.length d = n /\ firstn n c = d.
Proof.
  intros H. exists (firstn n c), (skipn n c). repeat split; [now rewrite firstn_skipn | apply firstn_length_le; lia].
Qed.
Ltac spread c L := match type of L with
  | List.length c = S _ => let x := fresh "v" in destruct c as [|x c]; [discriminate L|]; cbn [List.length] in L; apply Nat.succ_inj in L; spread c L
  | List.length c = O => destruct c; [|discriminate L]
  end.
Lemma take_length {A} (a : list A) is xs : take a is = Ok xs -> List.length xs = List.length is.
Proof.
  revert xs. induction is as [|i is IH]; intros xs H; unfold take in *; cbn [mapM] in H; [injection H as <-; reflexivity|].
  destruct (item a i); cbn [bind] in H; [|discriminate]. destruct (mapM (item a) is) eqn:E; cbn [bind] in H; [|discriminate].
  injection H as <-. cbn [List.length]. f_equal. now apply IH.
Qed.

(** What writing does to one cell: one of two permutations of its corners. *)
Lemma zone_two {C : coords} (points : list (list C)) s c row : In s solid_types -> translate_zone points (lit s) c = Ok row ->
  size_of s <= List.length c /\
  exists o o2, assoc (lit s) to_flac = Ok o /\ assoc (lit s) to_flac_2 = Ok o2 /\
   exists corners ps det, take c (firstn 4 o) = Ok corners /\ take points corners = Ok ps /\ determinant ps = Ok det /\
    take c (if positive C det then o else o2) = Ok row.
Proof.
  intros I H. unfold translate_zone in H.
  destruct (assoc (lit s) to_flac) as [o|] eqn:Eo; cbn [bind] in H; [|discriminate].
  destruct (take c (firstn 4 o)) as [corners|] eqn:Ec; cbn [bind] in H; [|discriminate].
  destruct (take points corners) as [ps|] eqn:Ep; cbn [bind] in H; [|discriminate].
  destruct (determinant ps) as [det|] eqn:Ed; cbn [bind] in H; [|discriminate].
  destruct (assoc (lit s) to_flac_2) as [o2|] eqn:E2; cbn [bind] in H; [|discriminate].
  split; [|exists o, o2; repeat split; auto; exists corners, ps, det; auto].
  assert (T : forall o i, take c o = Ok row -> In i o -> i < List.length c).
  { clear. intros o i H J. unfold take in H. revert row H. induction o as [|j o IH]; intros row H; [contradiction|].
    cbn [mapM] in H. unfold item in H at 1. destruct (nth_error c j) eqn:E; cbn [bind] in H; [|discriminate].
    destruct (mapM (item c) o) eqn:M; cbn [bind] in H; [|discriminate]. destruct J as [->|J]; [|eapply IH; eauto].
    apply nth_error_Some. congruence. }
  cbn [In solid_types] in I. each I; subst s; cbv in Eo, E2; injection Eo as <-; injection E2 as <-; unfold size_of; cbn [String.eqb Ascii.eqb Bool.eqb];
    (destruct (positive C det); [eapply (T _ _ H) | eapply (T _ _ H)]); cbn; tauto.
Qed.

Lemma turned_check {A} (t : str) (c c' : list A) :
  Forall (fun f => exists g, In g (outward t) /\ exists k, k <= 4 /\ 
    let x := map (nth_error c') g in skipn k x ++ firstn k x = rev (map (nth_error c) f)) (outward t) -> turned t c c'.
Proof.
  intros F f I. rewrite Forall_forall in F. destruct (F f I) as (g & J & k & _ & E). exists g. split; auto.
  exists (firstn k (map (nth_error c') g)), (skipn k (map (nth_error c') g)). split; [now rewrite firstn_skipn|now symmetry].
Qed.
Ltac try_rotations := first
  [ exists 0; split; [lia|reflexivity] | exists 1; split; [lia|reflexivity]
  | exists 2; split; [lia|reflexivity] | exists 3; split; [lia|reflexivity] ].
Ltac try_faces := match goal with
  |- exists g, In g ?l /\ @?P g => pick_face l
  end
with pick_face l := match l with
  | ?g :: ?r => first [ exists g; split; [vm_compute; tauto | try_rotations] | pick_face r ]
  end.
Ltac turn := apply turned_check; match goal with |- Forall _ ?l => let l' := eval vm_compute in l in change l with l' end; 
  repeat (apply Forall_cons; [try_faces|]); apply Forall_nil.

Definition mirror (s : string) : list nat :=
  if String.eqb s "tetra" then [0; 2; 1; 3] else if String.eqb s "pyramid" then [0; 3; 2; 1; 4]
  else if String.eqb s "wedge" then [0; 2; 1; 3; 5; 4] else [0; 3; 2; 1; 4; 7; 6; 5].
(** Reading back the two possible rows. *)
Lemma zone_back s c o o2 : In s solid_types -> size_of s <= List.length c -> assoc (lit s) to_flac = Ok o -> assoc (lit s) to_flac_2 = Ok o2 ->
  exists row row2 back2, take c o = Ok row /\ take c o2 = Ok row2 /\
    read_zone (lit s) row = Ok (firstn (size_of s) c) /\ read_zone (lit s) row2 = Ok back2 /\
    opposite (lit s) (firstn (size_of s) c) back2 /\ List.length row = size_of s /\ List.length row2 = size_of s /\
    (forall i, In i row -> In i c) /\ (forall i, In i row2 -> In i c).
Proof.
  intros I L Eo E2. destruct (long_cell _ _ L) as (d & r & -> & Ld & ->). clear L.
  cbn [In solid_types] in I. each I; subst s; cbv in Eo, E2; injection Eo as <-; injection E2 as <-;
    unfold size_of in *; cbn [String.eqb Ascii.eqb Bool.eqb] in *; spread d Ld;
    (do 3 eexists; split; [reflexivity|]; split; [reflexivity|]; split; [reflexivity|]; split; [reflexivity|]).
  all: (split; [split; [|split; turn]|split; [reflexivity|split; [reflexivity|split; intros i; cbn; tauto]]]).
  all: cbn [app]; apply perm_skip.
  - apply perm_swap.
  - change [v0; v1; v2; v3] with ([v0; v1; v2] ++ [v3]). change [v2; v1; v0; v3] with ([v2; v1; v0] ++ [v3]).
    apply Permutation_app_tail. change [v2; v1; v0] with (rev [v0; v1; v2]). apply Permutation_rev.
  - apply perm_trans with [v1; v0; v2; v3; v4]; [apply perm_swap|]. do 3 apply perm_skip. apply perm_swap.
  - change [v0; v1; v2; v3; v4; v5; v6] with ([v0; v1; v2] ++ [v3] ++ [v4; v5; v6]).
    change [v2; v1; v0; v3; v6; v5; v4] with ([v2; v1; v0] ++ [v3] ++ [v6; v5; v4]).
    apply Permutation_app; [|apply Permutation_app_head].
    + change [v2; v1; v0] with (rev [v0; v1; v2]). apply Permutation_rev.
    + change [v6; v5; v4] with (rev [v4; v5; v6]). apply Permutation_rev.
Qed.

(** ** Handedness in exact arithmetic *)
Local Open Scope Qc_scope.
Lemma volume_product p0 p1 p2 p3 : volume p0 p1 p2 p3 = @triple_product rationals (minus p1 p0) (minus p2 p0) (minus p3 p0).
Proof.
  destruct p0 as [[x0 y0] z0], p1 as [[x1 y1] z1], p2 as [[x2 y2] z2], p3 as [[x3 y3] z3]. reflexivity.
Qed.
Lemma volume_swap12 p0 p1 p2 p3 : volume p0 p2 p1 p3 = - volume p0 p1 p2 p3.
Proof.
  destruct p0 as [[x0 y0] z0], p1 as [[x1 y1] z1], p2 as [[x2 y2] z2], p3 as [[x3 y3] z3]. unfold volume, dot, cross, minus. ring.
Qed.
Lemma volume_swap23 p0 p1 p2 p3 : volume p0 p1 p3 p2 = - volume p0 p1 p2 p3.
Proof.
  destruct p0 as [[x0 y0] z0], p1 as [[x1 y1] z1], p2 as [[x2 y2] z2], p3 as [[x3 y3] z3]. unfold volume, dot, cross, minus. ring.
Qed.
Lemma volume_swap13 p0 p1 p2 p3 : volume p0 p3 p2 p1 = - volume p0 p1 p2 p3.
Proof.
  destruct p0 as [[x0 y0] z0], p1 as [[x1 y1] z1], p2 as [[x2 y2] z2], p3 as [[x3 y3] z3]. unfold volume, dot, cross, minus. ring.
Qed.
Lemma positive_spec (x : Qc) : positive rationals x = true <-> 0 < x.
Proof.
  change (positive rationals x) with (match Qccompare 0 x with Lt => true | _ => false end).
  rewrite Qclt_alt. destruct (Qccompare 0 x); split; congruence.
Qed.
Lemma neg_positive (x : Qc) : x <> 0 -> positive rationals x = false -> 0 < - x.
Proof.
  intros N H. destruct (Qc_dec x 0) as [[L|G]|E]; [| |contradiction].
  - apply Qclt_minus_iff in L. now rewrite Qcplus_0_l in L.
  - apply (proj2 (positive_spec x)) in G. congruence.
Qed.
Local Open Scope nat_scope.
Lemma located_take (points : list (list Qc)) is ps : located points is ps -> 
  take points is = Ok (map (fun p => let '(x, y, z) := p in [x; y; z]) ps).
Proof.
  intros F. unfold take. induction F as [|i [[x y] z] is ps N F IH]; auto. cbn [mapM map]. unfold item at 1. rewrite N. cbn [bind]. now rewrite IH.
Qed.
Lemma located_fun (points : list (list Qc)) is ps ps' : located points is ps -> located points is ps' -> ps = ps'.
Proof.
  intros F. revert ps'. induction F as [|i [[x y] z] is ps N F IH]; intros ps' G; inversion G as [|i' [[x' y'] z'] is' qs M G']; subst; auto.
  f_equal; [|now apply IH]. rewrite N in M. injection M as <- <- <-. reflexivity.
Qed.
Lemma determinant_located p0 p1 p2 p3 :
  @determinant rationals (map (fun p => let '(x, y, z) := p in [x; y; z]) [p0; p1; p2; p3]) = Ok (volume p0 p1 p2 p3).
Proof.
  rewrite volume_product. destruct p0 as [[x0 y0] z0], p1 as [[x1 y1] z1], p2 as [[x2 y2] z2], p3 as [[x3 y3] z3]. reflexivity.
Qed.

Lemma take_firstn {A} (a : list A) is k xs : take a is = Ok xs -> take a (firstn k is) = Ok (firstn k xs).
Proof.
  revert k xs. induction is as [|i is IH]; intros k xs H; unfold take in *; cbn [mapM] in H.
  - injection H as <-. now rewrite !firstn_nil.
  - destruct (item a i) as [x|] eqn:E; cbn [bind] in H; [|discriminate]. destruct (mapM (item a) is) as [l|] eqn:M; cbn [bind] in H; [|discriminate].
    injection H as <-. destruct k; cbn [firstn mapM]; [reflexivity|]. rewrite E. cbn [bind]. now rewrite (IH k l eq_refl).
Qed.
Lemma located_det (points : list (list Qc)) is a b c d ps det : located points is [a; b; c; d] ->
  @take (list (num rationals)) points is = Ok ps -> @determinant rationals ps = Ok det -> det = volume a b c d.
Proof.
  intros L T D. apply located_take in L. change (num rationals) with Qc in *. rewrite L in T.
  assert (ps = map (fun p => let '(x, y, z) := p in [x; y; z]) [a; b; c; d]) by congruence. subst ps.
  rewrite determinant_located in D. congruence.
Qed.
(** The first four nodes of a zone form a right-handed frame. *)
Theorem right_handed (points : list (list Qc)) s c row p0 p1 p2 p3 : In s solid_types ->
  @translate_zone rationals points (lit s) c = Ok row -> located points (firstn 4 row) [p0; p1; p2; p3] ->
  volume p0 p1 p2 p3 <> 0%Qc -> (0 < volume p0 p1 p2 p3)%Qc.
Proof.
  intros I H L N. destruct (@zone_two rationals points s c row I H) as (Lc & o & o2 & Eo & E2 & corners & ps & det & T4 & TP & D & R).
  destruct (positive rationals det) eqn:E.
  - apply (take_firstn _ _ 4) in R. assert (corners = firstn 4 row) by congruence. subst corners.
    rewrite <- (located_det _ _ _ _ _ _ _ _ L TP D). now apply positive_spec.
  - destruct (long_cell _ _ Lc) as (d & r & -> & Ld & _). clear Lc.
    assert (Q : exists q1 q2 q3, volume p0 p1 p2 p3 = (- volume p0 q1 q2 q3)%Qc /\ located points corners [p0; q1; q2; q3]).
    { clear TP D. cbn [In solid_types] in I. each I; subst s; cbv in Eo, E2; injection Eo as <-; injection E2 as <-;
        unfold size_of in Ld; cbn [String.eqb Ascii.eqb Bool.eqb] in Ld; spread d Ld; cbn in R, T4; injection R as <-; injection T4 as <-;
        cbn [firstn] in L;
        inversion L as [|? ? ? ? X0 L1]; subst; inversion L1 as [|? ? ? ? X1 L2]; subst; inversion L2 as [|? ? ? ? X2 L3]; subst;
        inversion L3 as [|? ? ? ? X3 L4]; subst;
        first [ exists p2, p1, p3; split; [apply volume_swap12|]; repeat (apply Forall2_cons; [assumption|]); apply Forall2_nil
              | exists p3, p2, p1; split; [apply volume_swap13|]; repeat (apply Forall2_cons; [assumption|]); apply Forall2_nil ]. }
    destruct Q as (q1 & q2 & q3 & EV & LQ). rewrite EV in *. pose proof (located_det _ _ _ _ _ _ _ _ LQ TP D) as ED. subst det.
    apply neg_positive; auto. intros Z. apply N. rewrite Z. reflexivity.
Qed.
(** Cells whose corner frame is right-handed keep their orientation. *)
Lemma volume_cycle p0 p1 p2 p3 : volume p0 p2 p3 p1 = volume p0 p1 p2 p3.
Proof. destruct p0 as [[x0 y0] z0], p1 as [[x1 y1] z1], p2 as [[x2 y2] z2], p3 as [[x3 y3] z3]. unfold volume, dot, cross, minus. ring. Qed.
Theorem kept (points : list (list Qc)) s c row back p0 p1 p2 p3 is : In s solid_types ->
  @translate_zone rationals points (lit s) c = Ok row -> read_zone (lit s) row = Ok back ->
  take c (frame (lit s)) = Ok is -> located points is [p0; p1; p2; p3] ->
  ((0 < volume p0 p1 p2 p3)%Qc -> back = firstn (size_of s) c) /\ ((volume p0 p1 p2 p3 < 0)%Qc -> opposite (lit s) (firstn (size_of s) c) back).
Proof.
  intros I H B TF L. destruct (@zone_two rationals points s c row I H) as (Lc & o & o2 & Eo & E2 & corners & ps & det & T4 & TP & D & R).
  destruct (zone_back s c o o2 I Lc Eo E2) as (row1 & row2 & back2 & R1 & R2 & B1 & B2 & OP & _).
  assert (DV : det = volume p0 p1 p2 p3).
  { clear R H. cbn [In solid_types] in I. each I; subst s; cbv in Eo; injection Eo as <-.
    1,2,4: assert (corners = is) by (change (take c [0; 1; 2; 3] = Ok is) in TF || change (take c [0; 1; 3; 4] = Ok is) in TF; cbn [firstn] in T4; congruence); subst is; exact (located_det _ _ _ _ _ _ _ _ L TP D).
    change (take c [0; 2; 1; 3] = Ok is) in TF. rewrite <- volume_cycle. apply (fun X => located_det points corners p0 p2 p3 p1 ps det X TP D).
    destruct (long_cell _ _ Lc) as (d & r & -> & Ld & _). unfold size_of in Ld. cbn [String.eqb Ascii.eqb Bool.eqb] in Ld. spread d Ld.
    cbn in TF, T4. injection TF as <-. injection T4 as <-.
    inversion L as [|? ? ? ? X0 L1]; subst; inversion L1 as [|? ? ? ? X1 L2]; subst; inversion L2 as [|? ? ? ? X2 L3]; subst; inversion L3 as [|? ? ? ? X3 L4]; subst.
    repeat (apply Forall2_cons; [assumption|]); apply Forall2_nil. }
  assert (NP : forall x : Qc, (x < 0)%Qc -> positive rationals x = false).
  { intros x Hx. destruct (positive rationals x) eqn:E; auto. apply positive_spec in E. exfalso.
    exact (Qclt_not_eq _ _ (Qclt_trans _ _ _ Hx E) eq_refl). }
  split; intros V; subst det.
  - apply positive_spec in V. rewrite V in R. assert (row = row1) by congruence. subst row. congruence.
  - rewrite (NP _ V) in R. assert (row = row2) by congruence. subst row. assert (back = back2) by congruence. subst back. exact OP.
Qed.
(** Any arithmetic: the corners come back, or the mirrored cell. *)
Theorem same_or_turned {C : coords} (points : list (list C)) s c row : In s solid_types -> translate_zone points (lit s) c = Ok row ->
  exists back, read_zone (lit s) row = Ok back /\ List.length row = size_of s /\ (forall i, In i row -> In i c) /\
    (back = firstn (size_of s) c \/ opposite (lit s) (firstn (size_of s) c) back).
Proof.
  intros I H. destruct (zone_two points s c row I H) as (Lc & o & o2 & Eo & E2 & corners & ps & det & T4 & TP & D & R).
  destruct (zone_back s c o o2 I Lc Eo E2) as (row1 & row2 & back2 & R1 & R2 & B1 & B2 & OP & L1 & L2 & I1 & I2).
  destruct (positive C det).
  - assert (row = row1) by congruence. subst. exists (firstn (size_of s) c). auto.
  - assert (row = row2) by congruence. subst. exists back2. auto.
Qed.

(** ** In terms of shapes *)
Lemma shaped_same {C : coords} (points : list (list C)) t t' n c row : shaped t Solid t' n -> translate_zone points t' c = Ok row ->
  exists back, read_zone t' row = Ok back /\ List.length row = n /\ (forall i, In i row -> In i c) /\ (back = firstn n c \/ opposite t' (firstn n c) back).
Proof. intros H T. destruct (shaped_solid _ _ _ H) as (s & I & -> & -> & _). now apply (same_or_turned points). Qed.
Lemma shaped_handed (points : list (list Qc)) t t' n c row p0 p1 p2 p3 : shaped t Solid t' n ->
  @translate_zone rationals points t' c = Ok row -> located points (firstn 4 row) [p0; p1; p2; p3] ->
  volume p0 p1 p2 p3 <> 0%Qc -> (0 < volume p0 p1 p2 p3)%Qc.
Proof. intros H T. destruct (shaped_solid _ _ _ H) as (s & I & -> & -> & _). now apply (right_handed points s c). Qed.
Lemma shaped_kept (points : list (list Qc)) t t' n c row back p0 p1 p2 p3 is : shaped t Solid t' n ->
  @translate_zone rationals points t' c = Ok row -> read_zone t' row = Ok back ->
  take c (frame t') = Ok is -> located points is [p0; p1; p2; p3] ->
  ((0 < volume p0 p1 p2 p3)%Qc -> back = firstn n c) /\ ((volume p0 p1 p2 p3 < 0)%Qc -> opposite t' (firstn n c) back).
Proof. intros H T. destruct (shaped_solid _ _ _ H) as (s & I & -> & -> & _). now apply (kept points). Qed.
Lemma take_seq_self {A} (c : list A) n row : take c (seq 0 n) = Ok row -> row = firstn n c.
Proof.
  intros H. apply NumpyProof.take_ok in H. assert (L : List.length row = n) by (apply MaterialProof.Forall2_length in H; rewrite seq_length in H; auto).
  subst n. apply ReorderProof.nth_error_ext. intros i. destruct (Nat.lt_ge_cases i (List.length row)) as [Li|Li].
  - destruct (nth_error row i) as [x|] eqn:E; [|apply nth_error_None in E; lia].
    assert (G : nth_error c i = Some x).
    { clear Li. assert (X : forall a, Forall2 (fun i x => nth_error c i = Some x) (seq a (List.length row)) row -> forall i, nth_error row i = Some x -> nth_error c (a + i) = Some x).
      { clear. induction row as [|y row IH]; intros a F i E; [destruct i; discriminate|]. inversion F; subst. destruct i as [|i].
        - cbn in E. rewrite Nat.add_0_r. congruence.
        - rewrite <- Nat.add_succ_comm. now apply IH. }
      now apply (X 0). }
    rewrite <- G. rewrite <- (firstn_skipn (List.length row) c) at 1. apply nth_error_app1. rewrite firstn_length.
    assert (i < List.length c) by (apply nth_error_Some; congruence). lia.
  - assert (H1 : nth_error row i = None) by (apply nth_error_None; lia). rewrite H1. symmetry. apply nth_error_None. rewrite firstn_length. lia.
Qed.
Lemma take_seq_all {A} (c : list A) : take c (seq 0 (List.length c)) = Ok c.
Proof.
  apply NumpyProof.take_ok. assert (X : forall a b : list A, Forall2 (fun i x => nth_error (a ++ b) i = Some x) (seq (List.length a) (List.length b)) b).
  { intros a b. revert a. induction b as [|x b IH]; intros a; constructor.
    - rewrite nth_error_app2 by lia. now rewrite Nat.sub_diag.
    - specialize (IH (a ++ [x])). rewrite <- app_assoc in IH. rewrite app_length in IH. cbn [List.length app] in IH. rewrite Nat.add_1_r in IH. exact IH. }
  exact (X [] c).
Qed.
Lemma shaped_face t t' n c row : shaped t Surface t' n -> translate_face t' c = Ok row ->
  row = firstn n c /\ read_zone t' row = Ok row /\ List.length row = n.
Proof.
  intros H. destruct (shaped_surface _ _ _ H) as (_ & F & M & _). unfold translate_face, read_zone. rewrite F, M. cbn [bind]. intros T.
  pose proof (take_length _ _ _ T) as L. rewrite seq_length in L. split; [now apply take_seq_self|]. split; auto. rewrite <- L at 1. apply take_seq_all.
Qed.
