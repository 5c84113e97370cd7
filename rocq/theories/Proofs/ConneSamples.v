(** Two cubes side by side, one cube, a warped quad. *)
From Coq Require Import String Ascii Arith ZArith QArith Qcanon Reals Qreals Lra Bool Lia Permutation List.
From Verif Require Import Base.Str Model.Py Model.Numpy Model.Mesh Model.MeshOps Model.Geometry Model.MeshFile Model.Import Model.Conne.
From Verif Require Import Spec.MeshCells Spec.Geometry Spec.Import Spec.Conne.
From Verif Require Import Proofs.ConnectProof Proofs.GeometryProof Proofs.ImportProof Proofs.FacesProof Proofs.ConneProof Proofs.GapProof Proofs.QualityProof.
Import ListNotations.
Local Open Scope nat_scope.

Definition int_point (p : Z * Z * Z) : list Qc := let '(x, y, z) := p in [Q2Qc (inject_Z x); Q2Qc (inject_Z y); Q2Qc (inject_Z z)].
Definition int_xyz (p : Z * Z * Z) : xyz := let '(x, y, z) := p in (IZR x, IZR y, IZR z).
Definition cube_ints : list (Z * Z * Z) :=
  [(0, 0, 0); (1, 0, 0); (2, 0, 0); (0, 1, 0); (1, 1, 0); (2, 1, 0); (0, 0, 1); (1, 0, 1); (2, 0, 1); (0, 1, 1); (1, 1, 1); (2, 1, 1)]%Z.
Definition two_cubes : mesh Qc Qc := Mesh 3 (map int_point cube_ints) [($"hexahedron", [[0; 1; 4; 3; 6; 7; 10; 9]; [1; 2; 5; 4; 7; 8; 11; 10]])] [] [] [].
Definition one_cube : mesh Qc Qc := Mesh 3 (map int_point cube_ints) [($"hexahedron", [[0; 1; 4; 3; 6; 7; 10; 9]])] [] [] [].

Lemma real_Qc q : Q2R (this (Q2Qc q)) = Q2R q.
Proof. apply Qeq_eqR. cbn. apply Qred_correct. Qed.
Lemma real_int z : Q2R (this (Q2Qc (inject_Z z))) = IZR z.
Proof. rewrite real_Qc. unfold Q2R, inject_Z. cbn. field. Qed.
Lemma corner_int zs f ps : corners (map int_point zs) f ps -> forall z0, map (nth_error zs) f = map Some z0 -> ps = map int_xyz z0.
Proof.
  intros C. induction C as [|n p f ps (x & y & z & N & ->) C IH]; intros [|q z0] H; try discriminate; [reflexivity|]. cbn [map] in *. injection H as H1 H2. f_equal; [|auto].
  rewrite nth_error_map, H1 in N. destruct q as [[qx qy] qz]. cbn in N. injection N as <- <- <-. unfold real3, int_xyz. change Qred with Qred. f_equal; [f_equal|]; apply real_int.
Qed.
Lemma corner_ints zs f z0 : map (nth_error zs) f = map Some z0 -> corners (map int_point zs) f (map int_xyz z0).
Proof.
  revert z0. induction f as [|n f IH]; intros [|q z0] H; try discriminate; [constructor|]. cbn [map] in *. injection H as H1 H2. constructor; [|now apply IH]. destruct q as [[qx qy] qz]. exists (Q2Qc (inject_Z qx)), (Q2Qc (inject_Z qy)), (Q2Qc (inject_Z qz)).
  split; [rewrite nth_error_map, H1; reflexivity|]. unfold real3, int_xyz. f_equal; [f_equal|]; symmetry; apply real_int.
Qed.
(** Faces that are not flat, checked with integers. *)
Local Open Scope Z_scope.
Definition bentZ (a b c : Z * Z * Z) : Z :=
  let '(a1, a2, a3) := a in let '(b1, b2, b3) := b in let '(c1, c2, c3) := c in
  let '(u1, u2, u3) := (b1 - a1, b2 - a2, b3 - a3) in let '(v1, v2, v3) := (c1 - a1, c2 - a2, c3 - a3) in
  (u1 * u1 + u2 * u2 + u3 * u3) * (v1 * v1 + v2 * v2 + v3 * v3) - (u1 * v1 + u2 * v2 + u3 * v3) * (u1 * v1 + u2 * v2 + u3 * v3).
Lemma bent_int a b c : 0 < bentZ a b c -> bent (int_xyz a) (int_xyz b) (int_xyz c).
Proof.
  destruct a as [[a1 a2] a3], b as [[b1 b2] b3], c as [[c1 c2] c3]. cbn [bentZ int_xyz]. intros H. apply IZR_lt in H. unfold bent, triangle_area. cbn [minus3 dot3]. apply Rdiv_lt_0_compat; [|lra]. apply sqrt_lt_R0.
  rewrite !minus_IZR, !mult_IZR, !plus_IZR, !mult_IZR, !minus_IZR in H. exact H.
Qed.
Definition bent_check (zs : list (Z * Z * Z)) (f : list nat) : bool :=
  match f with i :: j :: k :: _ => match nth_error zs i, nth_error zs j, nth_error zs k with Some a, Some b, Some c => 0 <? bentZ a b c | _, _, _ => false end | _ => false end.
Lemma faces_bent zs F : forallb (forallb (bent_check zs)) F = true -> forall p f ps, face F p = Some f -> corners (map int_point zs) f ps -> bent_face ps.
Proof.
  intros H p f ps FF C. unfold face in FF. destruct (nth_error F (fst p)) as [fs|] eqn:N; [|discriminate]. rewrite forallb_forall in H. pose proof (H fs (nth_error_In _ _ N)) as H1. rewrite forallb_forall in H1. pose proof (H1 f (nth_error_In _ _ FF)) as H2.
  unfold bent_check in H2. destruct f as [|i [|j [|k r]]]; try discriminate. destruct (nth_error zs i) as [a|] eqn:A; [|discriminate]. destruct (nth_error zs j) as [b|] eqn:B; [|discriminate]. destruct (nth_error zs k) as [c|] eqn:Cc; [|discriminate].
  apply Z.ltb_lt in H2. inversion C as [|? pa ? ps1 Xa C1]; subst. inversion C1 as [|? pb ? ps2 Xb C2]; subst. inversion C2 as [|? pc ? ps3 Xc C3]; subst. cbn [bent_face].
  assert (Y : corners (map int_point zs) [i; j; k] [pa; pb; pc]) by (repeat constructor; assumption). apply corner_int with (z0 := [a; b; c]) in Y; [|cbn [map]; congruence]. injection Y as -> -> ->. now apply bent_int.
Qed.
Local Open Scope nat_scope.
Definition cube_faces : list (list (list nat)) := Eval vm_compute in match faces (cells two_cubes) with Ok F => F | Err _ => [] end.
Lemma cube_faces_ok : faces (cells two_cubes) = Ok cube_faces.
Proof. vm_compute. reflexivity. Qed.
Lemma int_points_three zs p : In p (map int_point zs) -> List.length p = 3.
Proof. intros I. apply in_map_iff in I as ([[x y] z] & <- & _). reflexivity. Qed.
Lemma cubes_sound : sound 3 (points two_cubes) (cells two_cubes).
Proof.
  split; [intros p; apply int_points_three|]. intros tc I. cbn in I. destruct I as [<-|[<-|[]]]; (split; [discriminate|]); intros n J; cbn [snd] in J; repeat (destruct J as [<-|J]; [cbn; lia|]); destruct J.
Qed.
Lemma cubes_solid : solid (cells two_cubes).
Proof. repeat constructor. exists 8. split; [reflexivity|]. repeat constructor. Qed.
Lemma cubes_faces : solid (cells two_cubes) /\ sound 3 (points two_cubes) (cells two_cubes) /\ n_cells (cells two_cubes) <> 0 /\
  (forall F p f ps, faces (cells two_cubes) = Ok F -> face F p = Some f -> corners (points two_cubes) f ps -> bent_face ps) /\
  polygon_area [(0, 0, 0); (0, 1, 0); (1, 1, 0); (1, 0, 0)]%R 1 /\
  exists ps, corners (points two_cubes) [0; 1; 4; 3; 6; 7; 10; 9] ps /\ regular $"hexahedron" ps /\ convex_quad [(0, 0, 0); (0, 1, 0); (1, 1, 0); (1, 0, 0)]%R.
Proof.
  split; [exact cubes_solid|]. split; [exact cubes_sound|]. split; [discriminate|]. split.
  { intros F p f ps EF. rewrite cube_faces_ok in EF. injection EF as <-. apply faces_bent. vm_compute. reflexivity. }
  split.
  { assert (E : (triangle_area (0, 0, 0) (0, 1, 0) (1, 1, 0) + triangle_area (0, 0, 0) (1, 1, 0) (1, 0, 0) = 1)%R).
    { unfold triangle_area. cbn [minus3 dot3]. match goal with |- (sqrt ?x / 2 + sqrt ?y / 2 = 1)%R => replace x with 1%R by ring; replace y with 1%R by ring end. rewrite sqrt_1. lra. }
    pose proof (area_quad (0, 0, 0) (0, 1, 0) (1, 1, 0) (1, 0, 0))%R as A. rewrite E in A. exact A. }
  eexists. split; [apply corner_ints with (z0 := [(0, 0, 0); (1, 0, 0); (1, 1, 0); (0, 1, 0); (0, 0, 1); (1, 0, 1); (1, 1, 1); (0, 1, 1)]%Z); reflexivity|]. split.
  - exists (0, 0, 0)%R, (1, 0, 0)%R, (0, 1, 0)%R, (0, 0, 1)%R. split; [cbn; lra|]. unfold usual. cbn [streqb]. replace (streqb $"hexahedron" $"tetra") with false by reflexivity. cbn. repeat (f_equal; [apply arrow_ext; lra|]). f_equal. apply arrow_ext; lra.
  - exists (0, 0, 0)%R, (0, 1, 0)%R, (1, 1, 0)%R, (1, 0, 0)%R, (1 / 2, 1 / 2, 0)%R. split; [reflexivity|]. split; exists (1 / 2)%R; (split; [lra|]); cbn; apply arrow_ext; lra.
Qed.
Lemma warped_quad : ~ (forall ps qs x y, same_quad ps qs -> polygon_area ps x -> polygon_area qs y -> x = y).
Proof.
  intros H. pose (a := (0, 0, 0)%R : xyz). pose (b := (1, 0, 0)%R : xyz). pose (c := (1, 1, 2)%R : xyz). pose (d := (0, 1, 0)%R : xyz).
  assert (S : same_quad [a; b; c; d] [b; c; d; a]) by (exists a, b, c, d; split; [reflexivity|cbn; tauto]). pose proof (H _ _ _ _ S (area_quad a b c d) (area_quad b c d a)) as E. unfold triangle_area, a, b, c, d in E. cbn [minus3 dot3] in E.
  match type of E with (sqrt ?x / 2 + sqrt ?y / 2 = sqrt ?z / 2 + sqrt ?w / 2)%R => replace x with 5%R in E by ring; replace y with 5%R in E by ring; replace z with 9%R in E by ring; replace w with 1%R in E by ring end.
  rewrite sqrt_1 in E. replace 9%R with (3 * 3)%R in E by ring. rewrite sqrt_square in E by lra. assert (Q : (sqrt 5 * sqrt 5 = 5)%R) by (apply sqrt_sqrt; lra). assert (sqrt 5 = 2%R) by lra. nra.
Qed.

(** Their interface. *)
Definition cube_conn : list (list Z) := Eval vm_compute in match connections 3 (cells two_cubes) with Ok c => c | Err _ => [] end.
Lemma cube_conn_ok : connections 3 (cells two_cubes) = Ok cube_conn.
Proof. vm_compute. reflexivity. Qed.
Lemma cube_interface p p' : interface cube_faces p p' -> (p = (0, 3) /\ fst p' = 1) \/ (p = (1, 5) /\ fst p' = 0).
Proof.
  intros IF. destruct (connections_spec _ _ _ cube_conn_ok) as (F & EF & _ & H & _). rewrite cube_faces_ok in EF. injection EF as <-. pose proof (H _ _ IF) as E. destruct p as [i k]. unfold entry, cube_conn in E. cbn [fst snd] in E.
  destruct i as [|[|i]]; [| |now destruct i]; cbn [nth_error] in E; do 6 (destruct k as [|k]; [cbn [nth_error] in E; injection E as E; (lia || (left; split; [reflexivity|lia]) || (right; split; [reflexivity|lia]))|]); now destruct k.
Qed.
Lemma cube_centers : exists cs, centers two_cubes = Ok cs /\ map (map this) cs = [[Qmake 1 2; Qmake 1 2; Qmake 1 2]; [Qmake 3 2; Qmake 1 2; Qmake 1 2]].
Proof.
  destruct (centers_total two_cubes) as (cs & E); [discriminate|exact cubes_sound|]. exists cs. split; [exact E|].
  assert (X : match centers two_cubes with Ok c => map (map this) c | Err _ => [] end = [[Qmake 1 2; Qmake 1 2; Qmake 1 2]; [Qmake 3 2; Qmake 1 2; Qmake 1 2]]) by (vm_compute; reflexivity). rewrite E in X. exact X.
Qed.
Lemma half_R : Q2R (Qmake 1 2) = (1 / 2)%R.
Proof. unfold Q2R. cbn. lra. Qed.
Lemma three_half_R : Q2R (Qmake 3 2) = (3 / 2)%R.
Proof. unfold Q2R. cbn. lra. Qed.
Lemma cube_centre i c : centre3 (points two_cubes) (cells two_cubes) i c -> (i = 0 -> c = (1 / 2, 1 / 2, 1 / 2)%R) /\ (i = 1 -> c = (3 / 2, 1 / 2, 1 / 2)%R).
Proof.
  intros C. destruct cube_centers as (cs & E & M). assert (B : i < n_cells (cells two_cubes)). { destruct C as (tc & _ & _ & _ & T & _). rewrite <- typed_length. apply nth_error_Some. congruence. }
  destruct (centre3_item two_cubes cs i eq_refl E B) as (l & p & I & P & C'). rewrite (centre3_unique _ _ _ _ _ C C'). apply item_some in I.
  destruct cs as [|l0 [|l1 [|]]]; try discriminate M. cbn [map] in M. injection M as M0 M1. destruct l0 as [|x0 [|y0 [|z0 [|]]]]; try discriminate M0. destruct l1 as [|x1 [|y1 [|z1 [|]]]]; try discriminate M1. cbn [map] in M0, M1. injection M0 as X0 Y0 Z0. injection M1 as X1 Y1 Z1.
  split; intros ->; cbn in I; injection I as <-; unfold place3 in P; injection P as <-.
  - rewrite X0, Y0, Z0, !half_R. reflexivity.
  - rewrite X1, Y1, Z1, !half_R, three_half_R. reflexivity.
Qed.
Lemma cube_situated p p' a b c r c1 c2 : situated (points two_cubes) (cells two_cubes) cube_faces p p' (a :: b :: c :: r) c1 c2 ->
  (p = (0, 3) /\ a = (1, 0, 0)%R /\ b = (1, 1, 0)%R /\ c = (1, 1, 1)%R /\ r = [(1, 0, 1)%R] /\ c1 = (1 / 2, 1 / 2, 1 / 2)%R /\ c2 = (3 / 2, 1 / 2, 1 / 2)%R) \/
  (p = (1, 5) /\ a = (1, 0, 0)%R /\ b = (1, 0, 1)%R /\ c = (1, 1, 1)%R /\ r = [(1, 1, 0)%R] /\ c1 = (3 / 2, 1 / 2, 1 / 2)%R /\ c2 = (1 / 2, 1 / 2, 1 / 2)%R).
Proof.
  intros (IF & (f & FF & C) & K1 & K2). destruct (cube_interface _ _ IF) as [(-> & E)|(-> & E)]; cbn in FF; injection FF as <-; rewrite E in K2; cbn [fst] in K1; apply cube_centre in K1, K2; destruct K1 as (K1 & K1'), K2 as (K2 & K2').
  - left. split; [reflexivity|]. apply corner_int with (z0 := [(1, 0, 0); (1, 1, 0); (1, 1, 1); (1, 0, 1)]%Z) in C; [|reflexivity]. injection C as -> -> -> ->. rewrite (K1 eq_refl), (K2' eq_refl). auto 10.
  - right. split; [reflexivity|]. apply corner_int with (z0 := [(1, 0, 0); (1, 0, 1); (1, 1, 1); (1, 1, 0)]%Z) in C; [|reflexivity]. injection C as -> -> -> ->. rewrite (K1' eq_refl), (K2 eq_refl). auto 10.
Qed.
Lemma cube_crosses b c : (b = (1, 1, 0) /\ c = (1, 1, 1) \/ b = (1, 0, 1) /\ c = (1, 1, 1))%R -> forall c1 c2, (c1 = (1 / 2, 1 / 2, 1 / 2) /\ c2 = (3 / 2, 1 / 2, 1 / 2) \/ c1 = (3 / 2, 1 / 2, 1 / 2) /\ c2 = (1 / 2, 1 / 2, 1 / 2))%R ->
  crosses c1 c2 (1, 0, 0)%R b c (1, 1 / 2, 1 / 2)%R.
Proof.
  intros BC c1 c2 CC. split; [|split].
  - exists (1 / 2)%R. destruct CC as [(-> & ->)|(-> & ->)]; cbn; apply arrow_ext; lra.
  - exists 0%R, (1 / 2)%R. destruct BC as [(-> & ->)|(-> & ->)]; cbn; apply arrow_ext; lra.
  - intros q (t & ->) (s & u & E). destruct BC as [(-> & ->)|(-> & ->)], CC as [(-> & ->)|(-> & ->)]; cbn in *; injection E as E1 E2 E3; apply arrow_ext; lra.
Qed.
Lemma cubes_measurable kind F : faces (cells two_cubes) = Ok F -> measurable kind (points two_cubes) (cells two_cubes) F.
Proof.
  intros EF. rewrite cube_faces_ok in EF. injection EF as <-. split; [apply faces_bent; vm_compute; reflexivity|]. intros p p' a b c r c1 c2 S. apply cube_situated in S as [(_ & -> & -> & -> & -> & -> & ->)|(_ & -> & -> & -> & -> & -> & ->)].
  - split; [intros E; injection E as E; lra|]. intros _. eexists. apply cube_crosses; auto.
  - split; [intros E; injection E as E; lra|]. intros _. eexists. apply cube_crosses; auto.
Qed.
Lemma half_norm x : (x * x = 1 / 4)%R -> sqrt (x * x + 0 * 0 + 0 * 0) = (1 / 2)%R.
Proof. intros E. replace (x * x + 0 * 0 + 0 * 0)%R with (1 / 2 * (1 / 2))%R by lra. apply sqrt_square. lra. Qed.
Lemma cube_dist1 : dist3 (1 / 2, 1 / 2, 1 / 2)%R (1, 1 / 2, 1 / 2)%R = (1 / 2)%R.
Proof. unfold dist3. cbn. replace (1 / 2 - 1 / 2)%R with 0%R by ring. apply half_norm. lra. Qed.
Lemma cube_dist2 : dist3 (3 / 2, 1 / 2, 1 / 2)%R (1, 1 / 2, 1 / 2)%R = (1 / 2)%R.
Proof. unfold dist3. cbn. replace (1 / 2 - 1 / 2)%R with 0%R by ring. apply half_norm. lra. Qed.
Lemma first_le x y z d : (Rabs x = d -> d <= sqrt (x * x + y * y + z * z))%R.
Proof. intros <-. rewrite <- sqrt_Rsqr_abs. apply sqrt_le_1_alt. unfold Rsqr. nra. Qed.
Lemma cube_plane_distance c1 d : (c1 = (1 / 2, 1 / 2, 1 / 2) \/ c1 = (3 / 2, 1 / 2, 1 / 2))%R -> plane_distance c1 (1, 0, 0)%R (1, 1, 0)%R (1, 1, 1)%R d -> d = (1 / 2)%R.
Proof.
  intros CC ((q & (s & t & ->) & D) & LE). assert (P : on_plane (1, 0, 0)%R (1, 1, 0)%R (1, 1, 1)%R (1, 1 / 2, 1 / 2)%R) by (exists 0%R, (1 / 2)%R; cbn; apply arrow_ext; lra). pose proof (LE _ P) as L. apply Rle_antisym.
  - destruct CC as [-> | ->]; rewrite ?cube_dist1, ?cube_dist2 in L; exact L.
  - rewrite <- D. unfold dist3. cbn [minus3 plus3 scale3 norm3]. destruct CC as [-> | ->]; apply first_le.
    + match goal with |- Rabs ?x = _ => replace x with (- (1 / 2))%R by lra end. rewrite Rabs_Ropp. apply Rabs_right. lra.
    + match goal with |- Rabs ?x = _ => replace x with (1 / 2)%R by lra end. apply Rabs_right. lra.
Qed.
Lemma cubes_gaps : dim two_cubes = 3 /\ (forall kind F, faces (cells two_cubes) = Ok F -> measurable kind (points two_cubes) (cells two_cubes) F) /\
  (forall kind bounds gs, gaps kind bounds two_cubes = Ok gs -> exists g, gs = [((0, 3, 1), g)] /\ g_isot g = 1%Z /\ g_area g = 1%R /\ g_angle g = 0%R /\
    g_d1 g = (if bounds 0%nat then 1 / 1000000000 else 1 / 2)%R /\ g_d2 g = (if bounds 1%nat then 1 / 1000000000 else 1 / 2)%R).
Proof.
  split; [reflexivity|]. split; [exact cubes_measurable|]. intros kind bounds gs E. pose proof (gaps_keys _ _ _ _ _ E cube_conn_ok eq_refl) as K. assert (L : links cube_conn = [(0, 3, 1)]) by (vm_compute; reflexivity). rewrite L in K.
  destruct gs as [|[l g] [|]]; try discriminate K. cbn in K. injection K as ->. exists g. split; [reflexivity|]. destruct (gaps_spec _ _ _ _ E) as (F & EF & _ & _ & _ & H). rewrite cube_faces_ok in EF. injection EF as <-.
  destruct (H 0 3 1 g (or_introl eq_refl)) as (k & a & b & c & r & c1 & c2 & S & NC & _ & PA & AN & _ & IS & M). apply cube_situated in S as [(_ & -> & -> & -> & -> & -> & ->)|(X & _)]; [|discriminate X].
  assert (DD : dist3 (1 / 2, 1 / 2, 1 / 2)%R (3 / 2, 1 / 2, 1 / 2)%R = 1%R). { unfold dist3. cbn. match goal with |- sqrt ?x = 1%R => replace x with 1%R by lra end. apply sqrt_1. }
  split; [|split; [|split]].
  - destruct IS as [IS|[IS _]]; [|exact IS]. unfold along in IS. cbn in IS. destruct IS as [(-> & _)|[(_ & X & _)|(_ & X & _)]]; [reflexivity|exfalso; lra|exfalso; lra].
  - inversion PA as [|? ? ? ? EQ]. unfold triangle_area. cbn [minus3 dot3]. match goal with |- (sqrt ?x / 2 + sqrt ?y / 2 = 1)%R => replace x with 1%R by ring; replace y with 1%R by ring end. rewrite sqrt_1. lra.
  - rewrite DD in AN. cbn [height snd] in AN. lra.
  - destruct kind.
    + destruct M as (q & (_ & _ & U) & D1 & D2). assert (Q : q = (1, 1 / 2, 1 / 2)%R). { symmetry. destruct (cube_crosses (1, 1, 0)%R (1, 1, 1)%R (or_introl (conj eq_refl eq_refl)) _ _ (or_introl (conj eq_refl eq_refl))) as (X1 & X2 & _). now apply U. } subst q. rewrite cube_dist1 in D1. rewrite cube_dist2 in D2. auto.
    + destruct M as (M1 & M2). split; [destruct (bounds 0); [exact M1|exact (cube_plane_distance _ _ (or_introl eq_refl) M1)]|destruct (bounds 1); [exact M2|exact (cube_plane_distance _ _ (or_intror eq_refl) M2)]].
Qed.

(** Quality. *)
Lemma cubes_neighbours F i : faces (cells two_cubes) = Ok F -> i < n_cells (cells two_cubes) -> exists p p', interface F p p' /\ fst p = i.
Proof.
  intros EF B. rewrite cube_faces_ok in EF. injection EF as <-. pose proof (proj1 (links_interface cube_conn cube_faces _ cube_conn_ok cube_faces_ok 0 3 1)) as H. destruct H as (_ & g & IF); [vm_compute; auto|].
  destruct i as [|[|i]]; [exists (0, 3), (1, g); auto|exists (1, g), (0, 3); split; [now apply interface_sym|reflexivity]|cbn in B; lia].
Qed.
Lemma cubes_quality : (forall F i, faces (cells two_cubes) = Ok F -> i < n_cells (cells two_cubes) -> exists p p', interface F p p' /\ fst p = i) /\
  (forall qs, qualities two_cubes = Ok qs -> qs = [1; 1]%R).
Proof.
  split; [exact cubes_neighbours|]. intros qs E. destruct (qualities_spec _ _ E) as (_ & _ & _ & L & _). destruct (qualities_perfect _ _ E) as (F & EF & _ & H). rewrite cube_faces_ok in EF. injection EF as <-.
  assert (S : forall p p', interface cube_faces p p' -> square (points two_cubes) (cells two_cubes) cube_faces p p').
  { intros p p' IF i j k r a b c c1 c2 FF C K1 K2. destruct (cube_interface _ _ IF) as [(-> & X)|(-> & X)]; cbn in FF; injection FF as <- <- <- <-; rewrite X in K2; cbn [fst] in K1; apply cube_centre in K1, K2; destruct K1 as (K1 & K1'), K2 as (K2 & K2').
    - apply corner_int with (z0 := [(1, 0, 0); (1, 1, 0); (1, 1, 1)]%Z) in C; [|reflexivity]. injection C as -> -> ->. rewrite (K1 eq_refl), (K2' eq_refl). cbn. lra.
    - apply corner_int with (z0 := [(1, 0, 0); (1, 0, 1); (1, 1, 1)]%Z) in C; [|reflexivity]. injection C as -> -> ->. rewrite (K1' eq_refl), (K2 eq_refl). cbn. lra. }
  destruct qs as [|q0 [|q1 [|]]]; try discriminate L. f_equal; [|f_equal].
  - apply (H 0 q0 eq_refl). auto.
  - apply (H 1 q1 eq_refl). auto.
Qed.
Lemma single_quality : ~ (forall (m : mesh Qc Qc), dim m = 3 -> solid (cells m) -> sound 3 (points m) (cells m) -> n_cells (cells m) <> 0 ->
  (forall F, faces (cells m) = Ok F -> measurable Orthogonal (points m) (cells m) F) -> exists qs, qualities m = Ok qs).
Proof.
  intros H. pose (F := match faces (cells one_cube) with Ok F => F | Err _ => [] end). assert (EF : faces (cells one_cube) = Ok F) by (vm_compute; reflexivity).
  assert (NI : forall p p', ~ interface F p p').
  { intros p p' IF. assert (CO : connections 3 (cells one_cube) = Ok [[-1; -1; -1; -1; -1; -1]]%Z) by (vm_compute; reflexivity). destruct (connections_spec _ _ _ CO) as (F' & EF' & _ & X & _). assert (F' = F) by congruence. subst F'. pose proof (X _ _ IF) as E. destruct p as [i k]. unfold entry in E. cbn [fst snd] in E.
    destruct i as [|i]; [|now destruct i]. cbn [nth_error] in E. do 6 (destruct k as [|k]; [cbn [nth_error] in E; injection E as E; lia|]). now destruct k. }
  destruct (H one_cube) as (qs & E).
  - reflexivity.
  - repeat constructor. exists 8. split; [reflexivity|]. repeat constructor.
  - split; [intros p; apply int_points_three|]. intros tc I. cbn in I. destruct I as [<-|[]]. split; [discriminate|]. intros n J. cbn [snd] in J. repeat (destruct J as [<-|J]; [cbn; lia|]). destruct J.
  - discriminate.
  - intros F' EF'. assert (F' = F) by congruence. subst F'. split; [apply faces_bent; vm_compute; reflexivity|]. intros p p' a b c r c1 c2 (IF & _). exfalso. exact (NI _ _ IF).
  - refine (qualities_alone one_cube F 0 EF _ _ qs E); [cbn; lia|]. intros p p' IF. exfalso. exact (NI _ _ IF).
Qed.
