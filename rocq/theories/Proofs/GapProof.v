(** Faces and interfaces of a mesh, measured. *)
From Coq Require Import String Ascii Arith ZArith QArith Qcanon Reals Qreals Lra Bool Lia Permutation List.
From Verif Require Import Base.Str Model.Py Model.Numpy Model.Mesh Model.MeshOps Model.Geometry Model.MeshFile Model.Import Model.Conne.
From Verif Require Import Spec.MeshCells Spec.Geometry Spec.Import Spec.Conne.
From Verif Require Import Proofs.ReorderProof Proofs.ConnectProof Proofs.FaceProof Proofs.GeometryProof Proofs.MeshFileProof Proofs.ImportProof Proofs.FacesProof Proofs.ConneProof.
Import ListNotations.
Local Open Scope nat_scope.

(** ** Corners *)
Lemma F2_nth_r {A B} (P : A -> B -> Prop) l r k y : Forall2 P l r -> nth_error r k = Some y -> exists x, nth_error l k = Some x /\ P x y.
Proof. intros F. revert k. induction F as [|x0 y0 l r H F IH]; intros [|k] E; try discriminate; [injection E as <-; exists x0; auto|exact (IH k E)]. Qed.
Lemma mapM_nth_r {A B} (f : A -> res B) l r k y : mapM f l = Ok r -> nth_error r k = Some y -> exists x, nth_error l k = Some x /\ f x = Ok y.
Proof.
  revert r k. induction l as [|x0 l IH]; intros r k E N; cbn [mapM] in E; [injection E as <-; now destruct k|]. destruct (f x0) as [y0|] eqn:F; [|discriminate]. cbn [bind] in E.
  destruct (mapM f l) as [r'|]; [|discriminate]. cbn [bind] in E. injection E as <-. destruct k as [|k]; [injection N as <-; exists x0; auto|exact (IH r' k eq_refl N)].
Qed.
Lemma item_some {A} (l : list A) i x : Numpy.item l i = Ok x <-> nth_error l i = Some x.
Proof. unfold Numpy.item. destruct (nth_error l i); split; congruence. Qed.
Lemma corner_some points f k p : corner points f k = Ok p <-> exists n x y z, nth_error f k = Some n /\ nth_error points n = Some [x; y; z] /\ p = real3 x y z.
Proof.
  unfold corner. split.
  - destruct (Numpy.item f k) as [n|] eqn:N; [|discriminate]. cbn [bind]. destruct (Numpy.item points n) as [q|] eqn:Q; [|discriminate]. cbn [bind]. apply item_some in N, Q. unfold place3.
    destruct q as [|x [|y [|z [|]]]]; try discriminate. intros E. injection E as <-. exists n, x, y, z. auto.
  - intros (n & x & y & z & N & Q & ->). apply item_some in N, Q. rewrite N. cbn [bind]. rewrite Q. reflexivity.
Qed.
Lemma corners_nth points f ps k p : corners points f ps -> nth_error ps k = Some p -> corner points f k = Ok p.
Proof. intros C N. destruct (F2_nth_r _ _ _ _ _ C N) as (n & NF & x & y & z & H & ->). apply corner_some. exists n, x, y, z. auto. Qed.
Lemma corners_length points f ps : corners points f ps -> List.length ps = List.length f.
Proof. intros C. symmetry. clear -C; induction C; cbn; congruence. Qed.
Lemma corners_unique points f ps qs : corners points f ps -> corners points f qs -> ps = qs.
Proof.
  intros C. revert qs. induction C as [|n p f ps (x & y & z & H & ->) C IH]; intros qs D; inversion D as [|? q ? qs' (x' & y' & z' & H' & ->) D']; subst; [reflexivity|].
  f_equal; [|auto]. rewrite H in H'. injection H' as -> -> ->. reflexivity.
Qed.
Lemma corners_total points f : (forall p, In p points -> List.length p = 3) -> (forall n, In n f -> n < List.length points) -> exists ps, corners points f ps.
Proof.
  intros D B. induction f as [|n f IH]; [exists []; constructor|]. destruct IH as (ps & C); [intros; apply B; now right|]. pose proof (B n (or_introl eq_refl)) as L. apply nth_error_Some in L.
  destruct (nth_error points n) as [p|] eqn:E; [|congruence]. pose proof (D p (nth_error_In _ _ E)) as LP. destruct p as [|x [|y [|z [|]]]]; try discriminate. exists (real3 x y z :: ps). constructor; [exists x, y, z; auto|exact C].
Qed.
Lemma triangle_normal_value points f a b c i j k : corner points f i = Ok a -> corner points f j = Ok b -> corner points f k = Ok c ->
  triangle_normal points i j k f = Ok (cross3 (minus3 b a) (minus3 c a)).
Proof. intros A B C. unfold triangle_normal. rewrite A, B, C. reflexivity. Qed.
Lemma triangle_normal_inv points f i j k n : triangle_normal points i j k f = Ok n -> exists a b c, corner points f i = Ok a /\ corner points f j = Ok b /\ corner points f k = Ok c /\ n = cross3 (minus3 b a) (minus3 c a).
Proof.
  unfold triangle_normal. destruct (corner points f i) as [a|]; [|discriminate]. destruct (corner points f j) as [b|]; [|discriminate]. destruct (corner points f k) as [c|]; [|discriminate]. cbn [bind].
  intros E. injection E as <-. exists a, b, c. auto.
Qed.
Lemma half x y : (x = y / 2 -> (y + 0) * / 2 = x)%R.
Proof. lra. Qed.
Lemma face_area_ok points f ps : corners points f ps -> List.length f = 3 \/ List.length f = 4 -> exists x, face_area points f = Ok x /\ polygon_area ps x.
Proof.
  intros C L. pose proof (corners_length _ _ _ C) as LP. unfold face_area. destruct L as [L|L]; rewrite L in LP.
  - destruct ps as [|a [|b [|c [|]]]]; try discriminate. rewrite (triangle_normal_value points f a b c 0 1 2) by (eapply corners_nth; eauto; reflexivity). cbn [bind]. rewrite L. cbn [Nat.eqb bind].
    eexists. split; [reflexivity|]. replace ((arrow_norm (cross3 (minus3 b a) (minus3 c a)) + 0) * / 2)%R with (triangle_area a b c); [constructor|]. rewrite area_cross, arrow_norm3. lra.
  - destruct ps as [|a [|b [|c [|d [|]]]]]; try discriminate. rewrite (triangle_normal_value points f a b c 0 1 2) by (eapply corners_nth; eauto; reflexivity). cbn [bind]. rewrite L. cbn [Nat.eqb].
    rewrite (triangle_normal_value points f a c d 0 2 3) by (eapply corners_nth; eauto; reflexivity). cbn [bind]. eexists. split; [reflexivity|].
    replace ((arrow_norm (cross3 (minus3 b a) (minus3 c a)) + arrow_norm (cross3 (minus3 c a) (minus3 d a))) * / 2)%R with (triangle_area a b c + triangle_area a c d)%R; [constructor|]. rewrite !area_cross, !arrow_norm3. lra.
Qed.
Lemma corners_from points f : (forall k, k < List.length f -> exists p, corner points f k = Ok p) -> exists ps, corners points f ps.
Proof.
  induction f as [|n f IH]; intros H; [exists []; constructor|]. destruct (H 0) as (p & P); [cbn; lia|]. destruct IH as (ps & C).
  { intros k K. destruct (H (S k)) as (q & Q); [cbn; lia|]. exists q. exact Q. }
  apply corner_some in P as (n' & x & y & z & N & Q & ->). injection N as <-. exists (real3 x y z :: ps). constructor; [exists x, y, z; auto|exact C].
Qed.
Lemma face_area_inv points f x : List.length f = 3 \/ List.length f = 4 -> face_area points f = Ok x -> exists ps, corners points f ps /\ polygon_area ps x.
Proof.
  intros L E. assert (C : exists ps, corners points f ps).
  { apply corners_from. unfold face_area in E. destruct (triangle_normal points 0 1 2 f) as [n1|] eqn:N1; [|discriminate]. cbn [bind] in E. apply triangle_normal_inv in N1 as (a & b & c & A & B & C & _).
    destruct L as [L|L]; rewrite L in *; cbn [Nat.eqb] in E.
    - intros [|[|[|k]]] K; eauto. lia.
    - destruct (triangle_normal points 0 2 3 f) as [n2|] eqn:N2; [|discriminate]. apply triangle_normal_inv in N2 as (a' & c' & d & _ & _ & D & _). intros [|[|[|[|k]]]] K; eauto. lia. }
  destruct C as (ps & C). exists ps. split; [exact C|]. destruct (face_area_ok _ _ _ C L) as (y & Y & P). congruence.
Qed.

(** ** The arrays of a mesh *)
Lemma like_rows {A B} (F : list (list A)) (rows : list (list B)) : List.length rows = List.length F ->
  (forall i fs, nth_error F i = Some fs -> exists row, nth_error rows i = Some row /\ List.length row = List.length fs) -> like F rows.
Proof.
  unfold like. revert rows. induction F as [|fs F IH]; intros [|row rows] L H; try discriminate; [reflexivity|]. cbn [map]. f_equal.
  - destruct (H 0 fs eq_refl) as (r & E & X). injection E as ->. exact X.
  - apply IH; [now injection L|]. intros i fs' N. exact (H (S i) fs' N).
Qed.
Lemma face_kind cells F p f : faces cells = Ok F -> face F p = Some f -> List.length f = 3 \/ List.length f = 4.
Proof.
  intros EF H. pose proof (faces_small _ _ EF) as S. rewrite Forall_forall in S. unfold face in H. destruct (nth_error F (fst p)) as [fs|] eqn:N; [|discriminate].
  destruct (S fs (nth_error_In _ _ N)) as (_ & G). rewrite Forall_forall in G. exact (G f (nth_error_In _ _ H)).
Qed.
Theorem areas_spec {V} (m : mesh Qc V) areas : face_areas m = Ok areas -> exists F, faces (cells m) = Ok F /\ surfaces (cells m) F /\ like F areas /\
  forall p f, face F p = Some f -> exists ps x, corners (points m) f ps /\ value_of areas p = Some x /\ polygon_area ps x.
Proof.
  intros E. assert (X : exists F, faces (cells m) = Ok F). { unfold face_areas in E. destruct (faces (cells m)) as [F|]; [eauto|discriminate]. }
  destruct X as (F & EF). exists F. destruct (face_areas_ok _ _ _ EF E) as (L & R & H). split; [exact EF|]. split; [now apply faces_surfaces|]. split; [apply like_rows; [|exact R]; rewrite L; symmetry; now apply faces_length|].
  intros [i k] f FF. destruct (H i k f FF) as (x & X1 & X2). destruct (face_area_inv _ _ _ (face_kind _ _ _ _ EF FF) X2) as (ps & C & P). exists ps, x. auto.
Qed.
Theorem normals_spec {V} (m : mesh Qc V) normals : face_normals m = Ok normals -> exists F, faces (cells m) = Ok F /\ surfaces (cells m) F /\ like F normals /\
  forall p f, face F p = Some f -> exists i j k r a b c n, f = i :: j :: k :: r /\ corners (points m) [i; j; k] [a; b; c] /\ value_of normals p = Some n /\ unit_normal a b c n.
Proof.
  intros E. assert (X : exists F, faces (cells m) = Ok F). { unfold face_normals in E. destruct (faces (cells m)) as [F|]; [eauto|discriminate]. }
  destruct X as (F & EF). exists F. destruct (face_normals_ok _ _ _ EF E) as (L & R & H). split; [exact EF|]. split; [now apply faces_surfaces|]. split; [apply like_rows; [|exact R]; rewrite L; symmetry; now apply faces_length|].
  intros [i k] f FF. destruct (H i k f FF) as (u & n & X1 & X2 & X3). apply triangle_normal_inv in X2 as (a & b & c & A & B & C & ->). apply normalized_ok in X3 as (N & ->).
  apply corner_some in A as (i0 & x0 & y0 & z0 & A1 & A2 & A3). apply corner_some in B as (i1 & x1 & y1 & z1 & B1 & B2 & B3). apply corner_some in C as (i2 & x2 & y2 & z2 & C1 & C2 & C3).
  destruct f as [|j0 [|j1 [|j2 r]]]; try discriminate. injection A1 as ->. injection B1 as ->. injection C1 as ->.
  exists i0, i1, i2, r, a, b, c. eexists. split; [reflexivity|]. split; [repeat constructor; do 3 eexists; eauto|]. split; [exact X1|]. now apply unit_normal_cross.
Qed.
(** They exist. *)
Lemma face_nodes cells F p f : faces cells = Ok F -> face F p = Some f -> exists tc, nth_error (typed_cells cells) (fst p) = Some tc /\ forall n, In n f -> In n (snd tc).
Proof.
  intros EF H. unfold face in H. destruct (nth_error F (fst p)) as [fs|] eqn:N; [|discriminate]. unfold faces in EF. destruct (mapM_nth_r _ _ _ _ _ EF N) as (tc & T & CF).
  exists tc. split. { rewrite <- T. f_equal. unfold typed_cells, all_cells. apply flat_map_concat_map. }
  unfold cell_faces in CF. destruct (face_table (fst tc)) as [t|]; [|discriminate]. destruct (mapM_nth_r _ _ _ _ _ CF H) as (l & _ & TK). intros n I. destruct (take_In _ _ _ _ TK I) as (i & _ & NI). eapply nth_error_In; eauto.
Qed.
Lemma face_corners cells points F p f : faces cells = Ok F -> sound 3 points cells -> face F p = Some f -> exists ps, corners points f ps.
Proof.
  intros EF (D & B) H. destruct (face_nodes _ _ _ _ EF H) as (tc & T & I). apply corners_total; [exact D|]. intros n J. destruct (B tc (nth_error_In _ _ T)) as (_ & BN). apply BN. auto.
Qed.
Lemma by_kind_face F o : In o (by_kind F) -> face F (fst o) = Some (snd o).
Proof.
  intros I. apply occurrences_In. unfold by_kind, of_kind in I. apply in_app_or in I as [I|I]; apply filter_In in I as (I & _); now destruct o.
Qed.
Lemma faces_total cells : solid cells -> exists F, faces cells = Ok F.
Proof. intros S. destruct (connections_total cells S) as (out & E). unfold connections in E. cbn [Nat.eqb guard bind] in E. destruct (faces cells) as [F|]; [eauto|discriminate]. Qed.
Lemma by_kind_some cells F : faces cells = Ok F -> n_cells cells <> 0 -> by_kind F <> [].
Proof.
  intros EF N E. pose proof (faces_length _ _ EF) as L. destruct F as [|fs F']; [cbn in L; congruence|]. pose proof (faces_first _ _ EF) as T. apply Forall_inv in T.
  pose proof (kind_of_cell (fs :: F') 0 fs eq_refl T) as K. rewrite E in K. cbn in K. subst fs.
  unfold faces in EF. destruct (all_cells cells) as [|tc l]; cbn [mapM] in EF; [discriminate|]. destruct (cell_faces (fst tc) (snd tc)) as [fs|] eqn:C; [|discriminate]. cbn [bind] in EF. destruct (mapM _ l) as [y|]; [|discriminate]. cbn [bind] in EF. injection EF as -> _.
  unfold cell_faces in C. destruct (face_table (fst tc)) as [t|] eqn:FT; [|discriminate]. apply mapM_length in C. unfold face_table in FT. repeat match type of FT with (if ?b then _ else _) = _ => destruct b end; try discriminate; injection FT as <-; discriminate C.
Qed.
Lemma some_faces {A} (F : list A) : F <> [] -> guard (negb (List.length F =? 0)) ValueError = Ok tt.
Proof. destruct F; [congruence|reflexivity]. Qed.
Theorem areas_total {V} (m : mesh Qc V) : solid (cells m) -> sound 3 (points m) (cells m) -> n_cells (cells m) <> 0 -> exists areas, face_areas m = Ok areas.
Proof.
  intros S SO N. destruct (faces_total _ S) as (F & EF). unfold face_areas. rewrite EF. cbn [bind]. rewrite (some_faces _ (by_kind_some _ _ EF N)). cbn [bind].
  destruct (mapM_total (fun o : nat * nat * list nat => let* a := face_area (points m) (snd o) in Ok (fst (fst o), a)) (by_kind F)) as (ns & E).
  { intros o I. apply by_kind_face in I. destruct (face_corners _ _ _ _ _ EF SO I) as (ps & C). destruct (face_area_ok _ _ _ C (face_kind _ _ _ _ EF I)) as (x & -> & _). cbn [bind]. eauto. }
  rewrite E. cbn [bind]. destruct (per_cell _ _ _ _ _ EF eq_refl E) as (rows & R & _). eauto.
Qed.
Theorem normals_total {V} (m : mesh Qc V) : solid (cells m) -> sound 3 (points m) (cells m) -> n_cells (cells m) <> 0 ->
  (forall F p f ps, faces (cells m) = Ok F -> face F p = Some f -> corners (points m) f ps -> bent_face ps) -> exists normals, face_normals m = Ok normals.
Proof.
  intros S SO N BE. destruct (faces_total _ S) as (F & EF). unfold face_normals. rewrite EF. cbn [bind]. rewrite (some_faces _ (by_kind_some _ _ EF N)). cbn [bind].
  destruct (mapM_total (fun o : nat * nat * list nat => let* a := (let* n := triangle_normal (points m) 0 1 2 (snd o) in normalized n) in Ok (fst (fst o), a)) (by_kind F)) as (ns & E).
  { intros o I. apply by_kind_face in I. destruct (face_corners _ _ _ _ _ EF SO I) as (ps & C). pose proof (BE _ _ _ _ EF I C) as B. destruct ps as [|a [|b [|c r]]]; try contradiction.
    rewrite (triangle_normal_value _ _ a b c) by (eapply corners_nth; eauto; reflexivity). cbn [bind]. apply bent_cross in B. rewrite (normalized_total _ B). cbn [bind]. eauto. }
  destruct (per_cell (fun f => let* n := triangle_normal (points m) 0 1 2 f in normalized n) _ _ _ _ EF eq_refl E) as (rows & R & _).
  assert (E' : mapM (fun o : nat * nat * list nat => let* n := triangle_normal (points m) 0 1 2 (snd o) in let* u := normalized n in Ok (fst (fst o), u)) (by_kind F) = Ok ns).
  { rewrite <- E. clear. induction (by_kind F) as [|o l IH]; [reflexivity|]. cbn [mapM]. rewrite IH. destruct (triangle_normal (points m) 0 1 2 (snd o)); reflexivity. }
  rewrite E'. cbn [bind]. eauto.
Qed.

(** Two sides of a face have the same area. *)
Lemma corners_perm points f g ps : Permutation f g -> corners points f ps -> exists qs, corners points g qs /\ Permutation ps qs.
Proof.
  intros P. revert ps. induction P as [|n f g P IH|a b f|f g h P1 IH1 P2 IH2]; intros ps C.
  - exists ps. split; [exact C|reflexivity].
  - inversion C; subst. match goal with H : Forall2 _ f _ |- _ => destruct (IH _ H) as (qs & Q & R) end. eexists. split; [constructor; eauto|]. now constructor.
  - inversion C as [|? x ? ps' Hx C' ]; subst. inversion C' as [|? y ? ps'' Hy C'']; subst. exists (y :: x :: ps''). split; [repeat constructor; assumption|]. apply perm_swap.
  - destruct (IH1 _ C) as (qs & Q & R). destruct (IH2 _ Q) as (rs & Q' & R'). exists rs. split; [exact Q'|]. now transitivity qs.
Qed.
Lemma corners_quad points f g ps : same_quad f g -> corners points f ps -> exists qs, corners points g qs /\ same_quad ps qs.
Proof.
  intros (a & b & c & d & -> & I) C. inversion C as [|? pa ? ps1 Ha C1]; subst. inversion C1 as [|? pb ? ps2 Hb C2]; subst. inversion C2 as [|? pc ? ps3 Hc C3]; subst. inversion C3 as [|? pd ? ps4 Hd C4]; subst. inversion C4; subst. clear C C1 C2 C3 C4.
  destruct I as [<-|[<-|[<-|[<-|[<-|[<-|[<-|[<-|[]]]]]]]]]; eexists; (split; [unfold corners; repeat (apply Forall2_cons; [eassumption|]); apply Forall2_nil|]); exists pa, pb, pc, pd; (split; [reflexivity|cbn; tauto]).
Qed.
Theorem areas_sides {V} (m : mesh Qc V) areas F p q f g : face_areas m = Ok areas -> faces (cells m) = Ok F -> face F p = Some f -> face F q = Some g ->
  (List.length f = 3 /\ Permutation f g) \/ (same_quad f g /\ exists ps, corners (points m) f ps /\ convex_quad ps) -> value_of areas p = value_of areas q /\ value_of areas p <> None.
Proof.
  intros E EF FP FQ K. destruct (areas_spec _ _ E) as (F' & EF' & _ & _ & H). assert (F' = F) by congruence. subst F'.
  destruct (H p f FP) as (ps & x & C & VP & A). destruct (H q g FQ) as (qs & y & D & VQ & B). rewrite VP, VQ. split; [|discriminate]. f_equal. destruct K as [(L & P)|(SQ & ps' & C' & CV)].
  - destruct (corners_perm _ _ _ _ P C) as (qs' & D' & R). rewrite (corners_unique _ _ _ _ D' D) in R. eapply triangle_perm; eauto. rewrite (corners_length _ _ _ C). exact L.
  - rewrite (corners_unique _ _ _ _ C' C) in CV. destruct (corners_quad _ _ _ _ SQ C) as (qs' & D' & R). rewrite (corners_unique _ _ _ _ D' D) in R. eapply quad_area; eauto.
Qed.

(** ** Outward *)
Lemma det_scale k a b c n : unit_normal a b c n -> det3 (minus3 b a) (minus3 c a) k = (norm3 (cross3 (minus3 b a) (minus3 c a)) * dot3 n k)%R.
Proof.
  intros U. pose proof (unit_normal_bent _ _ _ _ U) as N. pose proof (norm_gt _ N) as P. rewrite (unit_normal_unique _ _ _ _ N U) at 1. rewrite det_dot, dot_scale, <- Rmult_assoc, Rinv_r by lra. ring.
Qed.
Definition face_out (ps : list xyz) (f : list nat) : Prop := forall i j k r a b c, f = i :: j :: k :: r -> nth_error ps i = Some a -> nth_error ps j = Some b -> nth_error ps k = Some c ->
  (forall p, In p ps -> det3 (minus3 b a) (minus3 c a) (minus3 p a) <= 0)%R /\ exists p, In p ps /\ (det3 (minus3 b a) (minus3 c a) (minus3 p a) < 0)%R.
Lemma det_image o u v w p q r s : det3 (minus3 (image o u v w q) (image o u v w p)) (minus3 (image o u v w r) (image o u v w p)) (minus3 (image o u v w s) (image o u v w p)) =
  (det3 u v w * det3 (minus3 q p) (minus3 r p) (minus3 s p))%R.
Proof. vec. ring. Qed.
Lemma face_out_image o u v w ps f : (0 < det3 u v w)%R -> face_out ps f -> face_out (map (image o u v w) ps) f.
Proof.
  intros P H i j k r a b c -> A B C. rewrite nth_error_map in A, B, C. destruct (nth_error ps i) as [a0|] eqn:A0; [|discriminate]. destruct (nth_error ps j) as [b0|] eqn:B0; [|discriminate]. destruct (nth_error ps k) as [c0|] eqn:C0; [|discriminate].
  injection A as <-. injection B as <-. injection C as <-. destruct (H i j k r a0 b0 c0 eq_refl A0 B0 C0) as (H1 & p & I & H2). split.
  - intros q Q. apply in_map_iff in Q as (q0 & <- & Q). rewrite det_image. pose proof (H1 q0 Q). nra.
  - exists (image o u v w p). split; [now apply in_map|]. rewrite det_image. nra.
Qed.
Lemma usual_out type t f : face_table type = Some t -> In f t -> face_out (usual type) f.
Proof.
  intros T I i j k r a b c -> A B C. unfold face_table in T. unfold usual in *.
  destruct (streqb type $"tetra"); [injection T as <-|destruct (streqb type $"pyramid"); [injection T as <-|destruct (streqb type $"wedge"); [injection T as <-|destruct (streqb type $"hexahedron"); [injection T as <-|discriminate]]]];
  repeat (destruct I as [E|I]; [injection E as <- <- <- <-; cbn in A, B, C; injection A as <-; injection B as <-; injection C as <-; (split; [intros p J; repeat (destruct J as [<-|J]; [cbn; lra|]); destruct J|]) |]); try destruct I.
  all: cbn [In].
  all: first [ (eexists; split; [now left|cbn; lra]) | (eexists; split; [right; now left|cbn; lra]) | (eexists; split; [do 2 right; now left|cbn; lra]) | (eexists; split; [do 3 right; now left|cbn; lra]) | (eexists; split; [do 4 right; now left|cbn; lra]) ].
Qed.
Lemma mapM_take_nodes {A} (cell : list A) t fs k f : mapM (take cell) t = Ok fs -> nth_error fs k = Some f -> exists l, In l t /\ take cell l = Ok f.
Proof. intros E N. destruct (mapM_nth_r _ _ _ _ _ E N) as (l & L & T). exists l. split; [eapply nth_error_In; eauto|exact T]. Qed.
Theorem normals_outward {V} (m : mesh Qc V) normals F i k f type cell ps : face_normals m = Ok normals -> faces (cells m) = Ok F -> face F (i, k) = Some f ->
  nth_error (typed_cells (cells m)) i = Some (type, cell) -> corners (points m) cell ps -> regular type ps ->
  exists n a, value_of normals (i, k) = Some n /\ (exists h t, f = h :: t /\ corners (points m) [h] [a]) /\
    (forall p, In p ps -> dot3 n (minus3 p a) <= 0)%R /\ exists p, In p ps /\ (dot3 n (minus3 p a) < 0)%R.
Proof.
  intros E EF FF T C (o & u & v & w & D & ->). destruct (normals_spec _ _ E) as (F' & EF' & _ & _ & H). assert (F' = F) by congruence. subst F'.
  destruct (H _ _ FF) as (n0 & n1 & n2 & r & a & b & c & n & Ef & CC & VN & U). subst f. exists n, a. split; [exact VN|]. split. { exists n0, (n1 :: n2 :: r). split; [reflexivity|]. inversion CC; subst. repeat constructor; assumption. }
  unfold face in FF. cbn [fst snd] in FF. destruct (nth_error F i) as [fs|] eqn:NF; [|discriminate]. unfold faces in EF. destruct (mapM_nth_r _ _ _ _ _ EF NF) as (tc & TC & CF).
  assert (tc = (type, cell)). { unfold typed_cells in T. rewrite flat_map_concat_map in T. unfold all_cells in TC. congruence. } subst tc. cbn [fst snd] in CF. unfold cell_faces in CF. destruct (face_table type) as [t|] eqn:FT; [|discriminate].
  destruct (mapM_take_nodes _ _ _ _ _ CF FF) as (l & L & TK). apply NumpyProof.take_ok in TK. inversion TK as [|i0 ? l0 ? N0 TK0]; subst. inversion TK0 as [|i1 ? l1 ? N1 TK1]; subst. inversion TK1 as [|i2 ? l2 ? N2 TK2]; subst.
  pose proof (face_out_image o u v w _ _ D (usual_out _ _ _ FT L)) as FO. set (ps := map (image o u v w) (usual type)) in *.
  assert (AT : forall i x p, nth_error cell i = Some x -> corner (points m) [x] 0 = Ok p -> nth_error ps i = Some p).
  { intros i' x p N P. apply corner_some in P as (x' & X & Y & Z & EX & PX & ->). injection EX as <-. clear -N C PX. revert i' N. induction C as [|y q cell ps (X' & Y' & Z' & PX' & ->) C IH]; intros [|i'] N; try discriminate.
    - injection N as <-. rewrite PX in PX'. injection PX' as -> -> ->. reflexivity.
    - now apply IH. }
  inversion CC as [|? ? ? ? HA CC1]; subst. inversion CC1 as [|? ? ? ? HB CC2]; subst. inversion CC2 as [|? ? ? ? HC CC3]; subst.
  assert (CA : forall x p, (exists X Y Z, nth_error (points m) x = Some [X; Y; Z] /\ p = real3 X Y Z) -> corner (points m) [x] 0 = Ok p). { intros x p (X & Y & Z & P1 & P2). apply corner_some. exists x, X, Y, Z. auto. }
  destruct (FO i0 i1 i2 l2 a b c eq_refl (AT _ _ _ N0 (CA _ _ HA)) (AT _ _ _ N1 (CA _ _ HB)) (AT _ _ _ N2 (CA _ _ HC))) as (O1 & p & I & O2).
  pose proof (norm_gt _ (unit_normal_bent _ _ _ _ U)) as P. split.
  - intros q Q. pose proof (O1 q Q) as X. rewrite (det_scale _ _ _ _ _ U) in X. nra.
  - exists p. split; [exact I|]. rewrite (det_scale _ _ _ _ _ U) in O2. nra.
Qed.
