(** The interfaces of a mesh and the quality of its cells. *)
From Coq Require Import String Ascii Arith ZArith QArith Qcanon Reals Qreals Lra Bool Lia Permutation List.
From Verif Require Import Base.Str Model.Py Model.Numpy Model.Mesh Model.MeshOps Model.Geometry Model.MeshFile Model.Import Model.Conne.
From Verif Require Import Spec.MeshCells Spec.Geometry Spec.Import Spec.Conne.
From Verif Require Import Proofs.ReorderProof Proofs.ConnectProof Proofs.FaceProof Proofs.GeometryProof Proofs.MeshFileProof Proofs.ImportProof Proofs.FacesProof Proofs.ConneProof Proofs.GapProof.
Import ListNotations.
Local Open Scope nat_scope.

Lemma centre3_at {V} (m : mesh Qc V) cs i p : dim m = 3 -> centers m = Ok cs ->
  (let* c := Numpy.item cs i in place3 c) = Ok p -> centre3 (points m) (cells m) i p.
Proof.
  intros D E P. destruct (Numpy.item cs i) as [c|] eqn:I; [|discriminate]. cbn [bind] in P. apply item_some in I. unfold place3 in P. destruct c as [|x [|y [|z [|]]]]; try discriminate. injection P as <-.
  pose proof (centers_spec m cs E) as F. rewrite D in F. destruct (F2_nth_r _ _ _ _ _ F I) as (tc & T & C). exists tc, x, y, z. auto.
Qed.
Lemma centre3_item {V} (m : mesh Qc V) cs i : dim m = 3 -> centers m = Ok cs -> i < n_cells (cells m) -> exists c p, Numpy.item cs i = Ok c /\ place3 c = Ok p /\ centre3 (points m) (cells m) i p.
Proof.
  intros D E I. pose proof (centers_spec m cs E) as F. rewrite D in F. rewrite <- typed_length in I. apply nth_error_Some in I. destruct (nth_error (typed_cells (cells m)) i) as [tc|] eqn:T; [|congruence].
  assert (X : exists c, nth_error cs i = Some c /\ centre_of 3 (points m) (snd tc) c).
  { clear -F T. revert i T. induction F as [|tc' c' l l' H F IH]; intros [|i] T; try discriminate; [injection T as ->; exists c'; auto|exact (IH i T)]. }
  destruct X as (c & N & C). destruct c as [|x [|y [|z [|]]]]; try (destruct C as (L & _); discriminate L). exists [x; y; z], (real3 x y z). split; [now apply item_some|]. split; [reflexivity|]. exists tc, x, y, z. auto.
Qed.
Lemma centre3_unique points bs i p q : centre3 points bs i p -> centre3 points bs i q -> p = q.
Proof.
  intros (tc & x & y & z & T & C & ->) (tc' & x' & y' & z' & T' & C' & ->). assert (tc' = tc) by congruence. subst tc'. pose proof (centre_unique _ _ _ _ _ C C') as E. injection E as -> -> ->. reflexivity.
Qed.
Lemma isot_along c1 c2 : let k := isot (minus3 c2 c1) in along c1 c2 k \/ (k = 1%Z /\ forall j, ~ along c1 c2 j).
Proof.
  unfold along, isot. destruct (minus3 c2 c1) as [[x y] z]. destruct (Req_EM_T x 0) as [X|X], (Req_EM_T y 0) as [Y|Y], (Req_EM_T z 0) as [Z|Z]; try tauto; right; (split; [reflexivity|intros j H; tauto]).
Qed.
Lemma angle_height c1 c2 x : quotient (arrow_dot (minus3 c2 c1) gravity) (arrow_norm (minus3 c2 c1)) = Ok x ->
  c1 <> c2 /\ (x * dist3 c1 c2 = height c1 - height c2)%R /\ (-1 <= x <= 1)%R.
Proof.
  intros Q. apply quotient_ok in Q as (N & ->). rewrite arrow_norm3 in *. unfold dist3. rewrite (norm_flip c1 c2). set (l := norm3 (minus3 c2 c1)) in *.
  assert (P : (0 < l)%R). { destruct (norm_pos (minus3 c2 c1)) as [H|H]; [exact H|]. exfalso. apply N. symmetry. exact H. }
  split; [|split].
  - intros ->. apply N. unfold l. replace (minus3 c2 c2) with zero3 by (clear; vec; apply arrow_ext; ring). cbn. rewrite Rmult_0_l, !Rplus_0_l. apply sqrt_0.
  - unfold Rdiv. rewrite Rmult_assoc, Rinv_l by (apply Rgt_not_eq; exact P). clear. vec. ring.
  - pose proof (cauchy (minus3 c2 c1) gravity) as C. assert (G : norm3 gravity = 1%R). { cbn. replace (0 * 0 + 0 * 0 + -1 * -1)%R with 1%R by ring. apply sqrt_1. }
    rewrite G, Rmult_1_r in C. fold l in C. change (arrow_dot (minus3 c2 c1) gravity) with (dot3 (minus3 c2 c1) gravity). set (d := dot3 (minus3 c2 c1) gravity) in *.
    apply Rabs_le_inv in C || (unfold Rabs in C; destruct (Rcase_abs d)).
    all: split; [apply Rmult_le_reg_r with l; [exact P|]; unfold Rdiv; rewrite Rmult_assoc, Rinv_l by (apply Rgt_not_eq; exact P); lra|apply Rmult_le_reg_r with l; [exact P|]; unfold Rdiv; rewrite Rmult_assoc, Rinv_l by (apply Rgt_not_eq; exact P); lra].
Qed.

Lemma dist_line kind c1 c2 a b c n q : kind = ByLine -> unit_normal a b c n -> intersection c1 (minus3 c2 c1) a n = Ok q -> crosses c1 c2 a b c q.
Proof. intros _. apply intersection_ok. Qed.

Lemma links_interface conn F bs : connections 3 bs = Ok conn -> faces bs = Ok F -> forall i f j, In (i, f, j) (links conn) <-> i <= j /\ exists g, interface F (i, f) (j, g).
Proof.
  intros CO EF i f j. rewrite links_In. destruct (connections_spec _ _ _ CO) as (F' & EF' & [S1 S2] & H1 & H2). assert (F' = F) by congruence. subst F'. split.
  - intros [X L]. split; [exact L|]. eapply connections_only; eauto.
  - intros [L (g & I)]. split; [|exact L]. exact (H1 _ _ I).
Qed.
Theorem gaps_spec {V} kind bounds (m : mesh Qc V) gs : gaps kind bounds m = Ok gs -> exists F, faces (cells m) = Ok F /\ surfaces (cells m) F /\ NoDup (map fst gs) /\
  (forall i f j, In (i, f, j) (map fst gs) <-> i <= j /\ exists g, interface F (i, f) (j, g)) /\
  forall i f j g, In ((i, f, j), g) gs -> exists k a b c r c1 c2, situated (points m) (cells m) F (i, f) (j, k) (a :: b :: c :: r) c1 c2 /\ c1 <> c2 /\ bent a b c /\
    polygon_area (a :: b :: c :: r) (g_area g) /\ (g_angle g * dist3 c1 c2 = height c1 - height c2)%R /\ (-1 <= g_angle g <= 1)%R /\
    (along c1 c2 (g_isot g) \/ (g_isot g = 1%Z /\ forall k, ~ along c1 c2 k)) /\ measured kind bounds i j c1 c2 a b c g.
Proof.
  intros E. unfold gaps in E. destruct (centers m) as [cs|] eqn:CS; [|discriminate]. cbn [bind] in E. destruct (connections (dim m) (cells m)) as [conn|] eqn:CO; [|discriminate]. cbn [bind] in E.
  assert (D : dim m = 3). { unfold connections in CO. destruct (Nat.eqb_spec (dim m) 3) as [D|D]; [exact D|discriminate]. } rewrite D in CO.
  destruct (faces (cells m)) as [F|] eqn:EF; [|discriminate]. cbn [bind] in E. destruct (face_normals m) as [normals|] eqn:NO; [|discriminate]. cbn [bind] in E. destruct (face_areas m) as [areas|] eqn:AR; [|discriminate]. cbn [bind] in E.
  assert (K : map fst gs = links conn). { clear -E. revert gs E. induction (links conn) as [|l ls IH]; intros gs E; cbn [mapM] in E; [injection E as <-; reflexivity|]. destruct (measure _ _ _ _ _ _ _ l) as [g|]; [|discriminate]. cbn [bind] in E. destruct (mapM _ ls) as [y|]; [|discriminate]. cbn [bind] in E. injection E as <-. cbn [map fst]. f_equal. now apply IH. }
  exists F. split; [reflexivity|]. split; [now apply faces_surfaces|]. rewrite K. split; [apply links_nodup|]. split.
  { exact (links_interface conn F (cells m) CO EF). }
  intros i f j g I. assert (LK : In (i, f, j) (links conn)) by (rewrite <- K; change (i, f, j) with (fst (i, f, j, g)); now apply in_map). apply (links_interface conn F (cells m) CO EF) in LK as (_ & k & IF). destruct (mapM_In _ _ _ _ E I) as (l & _ & M). destruct (measure kind bounds (points m) cs F normals areas l) as [g'|] eqn:ME; [|discriminate]. cbn [bind] in M. injection M as -> ->.
  unfold measure in ME.
  destruct (Numpy.item cs i) as [p1|] eqn:P1; [|discriminate]. cbn [bind] in ME. destruct (place3 p1) as [c1|] eqn:C1; [|discriminate]. cbn [bind] in ME.
  destruct (Numpy.item cs j) as [p2|] eqn:P2; [|discriminate]. cbn [bind] in ME. destruct (place3 p2) as [c2|] eqn:C2; [|discriminate]. cbn [bind] in ME.
  destruct (Numpy.item F i) as [row|] eqn:RO; [|discriminate]. cbn [bind] in ME. destruct (Numpy.item row f) as [nodes|] eqn:FA; [|discriminate]. cbn [bind] in ME.
  destruct (corner (points m) nodes 0) as [pt|] eqn:PT; [|discriminate]. cbn [bind] in ME.
  destruct (Numpy.item normals i) as [ns|] eqn:NS; [|discriminate]. cbn [bind] in ME. destruct (Numpy.item ns f) as [n|] eqn:NN; [|discriminate]. cbn [bind] in ME.
  destruct (Numpy.item areas i) as [ars|] eqn:AS; [|discriminate]. cbn [bind] in ME. destruct (Numpy.item ars f) as [ar|] eqn:AA; [|discriminate]. cbn [bind] in ME.
  apply item_some in RO, FA, NS, NN, AS, AA. assert (FF : face F (i, f) = Some nodes) by (unfold face; cbn [fst snd]; rewrite RO; exact FA).
  destruct (areas_spec _ _ AR) as (F' & EF' & _ & _ & HA). assert (F' = F) by congruence. subst F'. destruct (HA _ _ FF) as (ps & x & CP & VA & PA). unfold value_of in VA. cbn [fst snd] in VA. rewrite AS, AA in VA. injection VA as <-.
  destruct (normals_spec _ _ NO) as (F' & EF'' & _ & _ & HN). assert (F' = F) by congruence. subst F'. destruct (HN _ _ FF) as (n0 & n1 & n2 & r & a & b & c & n' & EN & CN & VN & U). unfold value_of in VN. cbn [fst snd] in VN. rewrite NS, NN in VN. injection VN as <-.
  subst nodes. inversion CP as [|? a' ? ps1 Xa CP1]; subst. inversion CP1 as [|? b' ? ps2 Xb CP2]; subst. inversion CP2 as [|? c' ? rs Xc CP3]; subst.
  assert (Y : corners (points m) [n0; n1; n2] [a'; b'; c']) by (repeat constructor; assumption). pose proof (corners_unique _ _ _ _ Y CN) as EQ. injection EQ as -> -> ->. clear Y.
  assert (PTA : pt = a). { pose proof (corners_nth _ _ _ 0 a CP eq_refl) as X. congruence. } subst pt.
  exists k, a, b, c, rs, c1, c2. split.
  { split; [exact IF|]. split; [eexists; split; [exact FF|exact CP]|]. split; [apply (centre3_at m cs i c1 D CS); rewrite P1; exact C1|apply (centre3_at m cs j c2 D CS); rewrite P2; exact C2]. }
  change (arrow_sub c2 c1) with (minus3 c2 c1) in ME. destruct (quotient (arrow_dot (minus3 c2 c1) gravity) (arrow_norm (minus3 c2 c1))) as [ang|] eqn:Q; [|discriminate]. cbn [bind] in ME. destruct (angle_height _ _ _ Q) as (NC & H1 & H2).
  split; [exact NC|]. split; [apply bent_cross, (unit_normal_bent _ _ _ _ U)|]. destruct kind.
  - destruct (intersection c1 (minus3 c2 c1) a n) as [q|] eqn:IN; [|discriminate]. cbn [bind] in ME. injection ME as <-. cbn [g_area g_angle g_isot]. split; [exact PA|]. split; [exact H1|]. split; [exact H2|]. split; [apply isot_along|].
    exists q. split; [eapply intersection_ok; eauto|]. cbn [g_d1 g_d2]. change (arrow_sub c1 q) with (minus3 c1 q). change (arrow_sub c2 q) with (minus3 c2 q). rewrite !arrow_norm3. split; reflexivity.
  - injection ME as <-. cbn [g_area g_angle g_isot]. split; [exact PA|]. split; [exact H1|]. split; [exact H2|]. split; [apply isot_along|]. cbn [measured g_d1 g_d2].
    split; [destruct (bounds i)|destruct (bounds j)]; try reflexivity; apply plane_least; exact U.
Qed.

(** They can be measured. *)
Lemma solid_some cells : n_cells cells <> 0 -> cells <> [].
Proof. intros N ->. now apply N. Qed.
Lemma interface_faces F p q : interface F p q -> exists f g, face F p = Some f /\ face F q = Some g.
Proof. intros (_ & (f & g & H1 & H2 & _) & _). eauto. Qed.
Lemma face_cell cells F p f : faces cells = Ok F -> face F p = Some f -> fst p < n_cells cells.
Proof. intros EF H. rewrite <- (faces_length _ _ EF). unfold face in H. destruct (nth_error F (fst p)) eqn:N; [|discriminate]. apply nth_error_Some. congruence. Qed.
Theorem gaps_total {V} kind bounds (m : mesh Qc V) : dim m = 3 -> solid (cells m) -> sound 3 (points m) (cells m) -> n_cells (cells m) <> 0 -> (forall F, faces (cells m) = Ok F -> measurable kind (points m) (cells m) F) -> exists gs, gaps kind bounds m = Ok gs.
Proof.
  intros D S SO N ME. destruct (faces_total _ S) as (F & EF). destruct (ME F EF) as (BE & MI). unfold gaps.
  destruct (centers_total m (solid_some _ N)) as (cs & CS); [now rewrite D|]. rewrite CS. cbn [bind]. destruct (connections_total _ S) as (conn & CO). rewrite D, CO. cbn [bind]. rewrite EF. cbn [bind].
  destruct (normals_total m S SO N) as (normals & NO). { intros F' p f ps EF'. assert (F' = F) by congruence. subst F'. apply BE. }
  rewrite NO. cbn [bind]. destruct (areas_total m S SO N) as (areas & AR). rewrite AR. cbn [bind].
  apply mapM_total. intros [[i f] j] L. apply links_In in L as (L & LE). destruct (connections_only _ _ _ _ _ _ _ CO EF L) as (g & IF). destruct (interface_faces _ _ _ IF) as (nodes & nodes' & FF & FG).
  pose proof (face_cell _ _ _ _ EF FF) as BI. pose proof (face_cell _ _ _ _ EF FG) as BJ. cbn [fst] in BI, BJ. unfold measure.
  destruct (centre3_item m cs i D CS BI) as (p1 & c1 & -> & P1 & C1). cbn [bind]. rewrite P1. cbn [bind]. destruct (centre3_item m cs j D CS BJ) as (p2 & c2 & -> & P2 & C2). cbn [bind]. rewrite P2. cbn [bind].
  pose proof FF as FF'. unfold face in FF'. cbn [fst snd] in FF'. destruct (nth_error F i) as [row|] eqn:RO; [|discriminate]. rewrite (proj2 (item_some _ _ _) RO). cbn [bind]. rewrite (proj2 (item_some _ _ _) FF'). cbn [bind].
  destruct (areas_spec _ _ AR) as (F' & EF' & _ & _ & HA). assert (F' = F) by congruence. subst F'. destruct (HA _ _ FF) as (ps & x & CP & VA & PA). unfold value_of in VA. cbn [fst snd] in VA. destruct (nth_error areas i) as [ars|] eqn:AS; [|discriminate].
  destruct (normals_spec _ _ NO) as (F' & EF'' & _ & _ & HN). assert (F' = F) by congruence. subst F'. destruct (HN _ _ FF) as (n0 & n1 & n2 & r & a & b & c & n' & EN & CN & VN & U). unfold value_of in VN. cbn [fst snd] in VN. destruct (nth_error normals i) as [ns|] eqn:NS; [|discriminate].
  subst nodes. inversion CP as [|? a' ? ps1 Xa CP1]; subst. inversion CP1 as [|? b' ? ps2 Xb CP2]; subst. inversion CP2 as [|? c' ? rs Xc CP3]; subst.
  assert (Y : corners (points m) [n0; n1; n2] [a'; b'; c']) by (repeat constructor; assumption). pose proof (corners_unique _ _ _ _ Y CN) as EQ. injection EQ as -> -> ->. clear Y.
  rewrite (corners_nth _ _ _ 0 a CP eq_refl). cbn [bind]. rewrite (proj2 (item_some _ _ _) NS). cbn [bind]. rewrite (proj2 (item_some _ _ _) VN). cbn [bind]. rewrite (proj2 (item_some _ _ _) AS). cbn [bind]. rewrite (proj2 (item_some _ _ _) VA). cbn [bind].
  destruct (MI (i, f) (j, g) _ _ _ _ _ _ (conj IF (conj (ex_intro _ _ (conj FF CP)) (conj C1 C2)))) as (NC & CR). change (arrow_sub c2 c1) with (minus3 c2 c1). rewrite quotient_total.
  2: { rewrite arrow_norm3. intros Z. apply norm_is_zero in Z. apply NC. symmetry. now apply minus_zero. }
  cbn [bind]. destruct kind; [|cbn [bind]; eauto]. destruct (CR eq_refl) as (q & Q). destruct (intersection_total c1 c2 a n') as (q' & ->); [eapply crosses_not_flat; eauto|]. cbn [bind]. eauto.
Qed.

(** ** Qualities *)
Lemma rmin_least l q : rmin l = Ok q -> least (fun x => In x l) q.
Proof.
  destruct l as [|x l]; [discriminate|]. cbn [rmin]. intros E. injection E as <-. revert x. induction l as [|y l IH]; intros x; cbn [fold_left].
  - split; [now left|]. intros z [<-|[]]. lra.
  - destruct (IH (Rmin x y)) as (I & H). split.
    + destruct I as [E|I]; [|right; now right]. rewrite <- E. unfold Rmin. destruct (Rle_dec x y); [now left|right; now left].
    + intros z Z. assert (M : forall w, In w (Rmin x y :: l) -> (fold_left Rmin l (Rmin x y) <= w)%R) by exact H. pose proof (M _ (or_introl eq_refl)) as M0. destruct Z as [<-|[<-|Z]].
      * pose proof (Rmin_l x y). lra.
      * pose proof (Rmin_r x y). lra.
      * apply M. now right.
Qed.
Lemma unit_cos c1 c2 n u : normalized (minus3 c2 c1) = Ok u -> c1 <> c2 /\ Rabs (dot3 u n) = (Rabs (dot3 n (minus3 c2 c1)) / dist3 c1 c2)%R.
Proof.
  intros E. apply normalized_ok in E as (N & ->). split; [intros ->; apply N; clear; vec; apply arrow_ext; ring|]. pose proof (norm_gt _ N) as P. rewrite dot_scale, Rabs_mult, (dot_sym _ n). unfold dist3. rewrite (norm_flip c1 c2).
  rewrite (Rabs_right (/ _)); [unfold Rdiv; ring|]. apply Rle_ge, Rlt_le, Rinv_0_lt_compat, P.
Qed.
Lemma of_cell_In {A} i (l : list (nat * A)) x : In x (of_cell i l) <-> In (i, x) l.
Proof.
  unfold of_cell. rewrite in_map_iff. split.
  - intros ([j y] & E & I). cbn in E. subst y. apply filter_In in I as (I & H). cbn in H. apply Nat.eqb_eq in H. now subst j.
  - intros I. exists (i, x). split; [reflexivity|]. apply filter_In. split; [exact I|]. cbn. apply Nat.eqb_refl.
Qed.
Section Qual.
Context {V : Type} (m : mesh Qc V) (cs : list (list Qc)) (conn : list (list Z)) (F : list (list (list nat))) (normals : list (list arrow)).
Hypotheses (D : dim m = 3) (CS : centers m = Ok cs) (CO : connections 3 (cells m) = Ok conn) (EF : faces (cells m) = Ok F) (NO : face_normals m = Ok normals).
Lemma cosine_alignment i f j g x : interface F (i, f) (j, g) -> cosine cs normals (i, f, j) = Ok x -> alignment (points m) (cells m) F (i, f) (j, g) x.
Proof using D CS EF NO.
  intros IF E. unfold cosine in E. destruct (interface_faces _ _ _ IF) as (nodes & _ & FF & _).
  destruct (Numpy.item cs i) as [p1|] eqn:P1; [|discriminate]. cbn [bind] in E. destruct (place3 p1) as [c1|] eqn:C1; [|discriminate]. cbn [bind] in E.
  destruct (Numpy.item cs j) as [p2|] eqn:P2; [|discriminate]. cbn [bind] in E. destruct (place3 p2) as [c2|] eqn:C2; [|discriminate]. cbn [bind] in E.
  destruct (Numpy.item normals i) as [ns|] eqn:NS; [|discriminate]. cbn [bind] in E. destruct (Numpy.item ns f) as [n|] eqn:NN; [|discriminate]. cbn [bind] in E.
  change (arrow_sub c2 c1) with (minus3 c2 c1) in E. destruct (normalized (minus3 c2 c1)) as [u|] eqn:U; [|discriminate]. cbn [bind] in E. injection E as <-. destruct (unit_cos _ _ n _ U) as (NC & UC).
  apply item_some in NS, NN. destruct (normals_spec _ _ NO) as (F' & EF'' & _ & _ & HN). assert (F' = F) by congruence. subst F'. destruct (HN _ _ FF) as (n0 & n1 & n2 & r & a & b & c & n' & EN & CN & VN & UN).
  unfold value_of in VN. cbn [fst snd] in VN. rewrite NS, NN in VN. injection VN as <-.
  subst nodes. exists n0, n1, n2, r, a, b, c, c1, c2, n. split; [exact FF|]. split; [exact CN|]. split; [apply (centre3_at m cs i c1 D CS); rewrite P1; exact C1|]. split; [apply (centre3_at m cs j c2 D CS); rewrite P2; exact C2|]. auto.
Qed.
Lemma alignment_unique p p' p'' x y : fst p' = fst p'' -> alignment (points m) (cells m) F p p' x -> alignment (points m) (cells m) F p p'' y -> x = y.
Proof.
  intros E (i & j & k & r & a & b & c & c1 & c2 & n & V1 & C & K1 & K2 & NC & U & ->) (i' & j' & k' & r' & a' & b' & c' & c1' & c2' & n' & V1' & C' & K1' & K2' & NC' & U' & ->).
  rewrite V1 in V1'. injection V1' as <- <- <- <-. pose proof (corners_unique _ _ _ _ C C') as X. injection X as <- <- <-. rewrite <- E in K2'. rewrite <- (centre3_unique _ _ _ _ _ K1 K1'), <- (centre3_unique _ _ _ _ _ K2 K2').
  pose proof (unit_normal_bent _ _ _ _ U) as N. now rewrite (unit_normal_unique _ _ _ _ N U'), (unit_normal_unique _ _ _ _ N U).
Qed.
Lemma angles_In angles : mapM (fun l => let* a := cosine cs normals l in Ok [(fst (fst l), a); (snd l, a)]) (links conn) = Ok angles ->
  forall i x, In (i, x) (concat angles) <-> alignments (points m) (cells m) F i x.
Proof using D CS CO EF NO.
  intros E i x. rewrite in_concat. split.
  - intros (row & IR & I). destruct (mapM_In _ _ _ _ E IR) as ([[i' f] j] & L & C). cbn [fst snd] in C. destruct (cosine cs normals (i', f, j)) as [y|] eqn:CY; [|discriminate]. cbn [bind] in C. injection C as <-.
    apply (links_interface conn F (cells m) CO EF) in L as (LE & g & IF). exists (i', f), (j, g). split; [exact IF|]. split; [exact LE|]. cbn [fst].
    pose proof (cosine_alignment _ _ _ _ _ IF CY) as AL. destruct I as [I|[I|[]]]; injection I as <- <-; auto.
  - intros ([i' f] & [j g] & IF & LE & O & AL). cbn [fst] in LE, O. assert (L : In (i', f, j) (links conn)) by (apply (links_interface conn F (cells m) CO EF); eauto). apply In_nth_error in L as (k & L).
    destruct (mapM_nth _ _ _ _ _ E L) as (row & C & NR). cbn [fst snd] in C. destruct (cosine cs normals (i', f, j)) as [y|] eqn:CY; [|discriminate]. cbn [bind] in C. injection C as <-.
    rewrite (alignment_unique (i', f) (j, g) (j, g) x y eq_refl AL (cosine_alignment _ _ _ _ _ IF CY)). eexists. split; [eapply nth_error_In; eauto|]. destruct O as [-> | ->]; cbn; auto.
Qed.
End Qual.
Lemma alignment_range points bs F p p' x : alignment points bs F p p' x -> (0 <= x <= 1)%R.
Proof.
  intros (i & j & k & r & a & b & c & c1 & c2 & n & _ & _ & _ & _ & NC & U & ->). pose proof (cauchy n (minus3 c2 c1)) as C. destruct U as (L & _). rewrite L, Rmult_1_l in C. unfold dist3. rewrite (norm_flip c1 c2).
  assert (P : (0 < norm3 (minus3 c2 c1))%R) by (apply norm_gt; intros Z; apply NC; symmetry; now apply minus_zero). pose proof (Rabs_pos (dot3 n (minus3 c2 c1))) as A. set (l := norm3 (minus3 c2 c1)) in *. split.
  - apply Rmult_le_reg_r with l; [exact P|]. unfold Rdiv. rewrite Rmult_assoc, Rinv_l by (apply Rgt_not_eq; exact P). lra.
  - apply Rmult_le_reg_r with l; [exact P|]. unfold Rdiv. rewrite Rmult_assoc, Rinv_l by (apply Rgt_not_eq; exact P). lra.
Qed.
Theorem qualities_spec {V} (m : mesh Qc V) qs : qualities m = Ok qs -> exists F, faces (cells m) = Ok F /\ surfaces (cells m) F /\ List.length qs = n_cells (cells m) /\
  forall i q, nth_error qs i = Some q -> least (alignments (points m) (cells m) F i) q /\ (0 <= q <= 1)%R.
Proof.
  intros E. unfold qualities in E. destruct (centers m) as [cs|] eqn:CS; [|discriminate]. cbn [bind] in E. destruct (connections (dim m) (cells m)) as [conn|] eqn:CO; [|discriminate]. cbn [bind] in E.
  assert (D : dim m = 3). { unfold connections in CO. destruct (Nat.eqb_spec (dim m) 3) as [D|D]; [exact D|discriminate]. } rewrite D in CO.
  destruct (face_normals m) as [normals|] eqn:NO; [|discriminate]. cbn [bind] in E. destruct (guard _ _); [|discriminate]. cbn [bind] in E. destruct (mapM _ (links conn)) as [angles|] eqn:AN; [|discriminate]. cbn [bind] in E.
  destruct (normals_spec _ _ NO) as (F & EF & SU & _ & _). exists F. split; [exact EF|]. split; [exact SU|]. pose proof (angles_In m cs conn F normals D CS CO EF NO angles AN) as IN.
  destruct (regroup_rows (n_cells (cells m)) (concat angles)) as (rows & R & L & H).
  { intros [i x] I. apply IN in I as (p & p' & IF & _ & O & _). destruct (interface_faces _ _ _ IF) as (f & g & FF & FG). cbn [fst]. destruct O as [-> | ->]; eapply face_cell; eauto. }
  rewrite R in E. cbn [bind] in E. split; [rewrite (mapM_length _ _ _ E); exact L|]. intros i q NQ. destruct (mapM_nth_r _ _ _ _ _ E NQ) as (row & NR & RM). assert (BI : i < n_cells (cells m)) by (rewrite <- L; apply nth_error_Some; congruence).
  rewrite (H i BI) in NR. injection NR as <-. destruct (rmin_least _ _ RM) as (I & LE). apply of_cell_In, IN in I. split.
  - split; [exact I|]. intros y Y. apply LE. now apply of_cell_In, IN.
  - destruct I as (p & p' & _ & _ & _ & AL). eapply alignment_range; eauto.
Qed.
Theorem qualities_total {V} (m : mesh Qc V) : dim m = 3 -> solid (cells m) -> sound 3 (points m) (cells m) -> n_cells (cells m) <> 0 -> (forall F, faces (cells m) = Ok F -> measurable Orthogonal (points m) (cells m) F) ->
  (forall F i, faces (cells m) = Ok F -> i < n_cells (cells m) -> exists p p', interface F p p' /\ fst p = i) -> exists qs, qualities m = Ok qs.
Proof.
  intros D S SO N ME AL. destruct (faces_total _ S) as (F & EF). destruct (ME F EF) as (BE & MI). unfold qualities.
  destruct (centers_total m (solid_some _ N)) as (cs & CS); [now rewrite D|]. rewrite CS. cbn [bind]. destruct (connections_total _ S) as (conn & CO). rewrite D, CO. cbn [bind].
  destruct (normals_total m S SO N) as (normals & NO). { intros F' p f ps EF'. assert (F' = F) by congruence. subst F'. apply BE. }
  rewrite NO. cbn [bind]. pose proof (links_interface conn F (cells m) CO EF) as LI.
  assert (SOME : forall i, i < n_cells (cells m) -> exists a f b, In (a, f, b) (links conn) /\ (i = a \/ i = b)).
  { intros i BI. destruct (AL F i EF BI) as ([a f] & [b g] & IF & X). cbn [fst] in X. subst a. destruct (Nat.le_gt_cases i b) as [LE|GT].
    - exists i, f, b. split; [apply LI; eauto|now left].
    - apply interface_sym in IF. exists b, g, i. split; [apply LI; split; [lia|eauto]|now right]. }
  assert (NE : links conn <> []). { destruct (SOME 0) as (a & f & b & I & _); [lia|]. intros Z. rewrite Z in I. destruct I. }
  rewrite (some_faces _ NE). cbn [bind].
  destruct (mapM_total (fun l : nat * nat * nat => let* a := cosine cs normals l in Ok [(fst (fst l), a); (snd l, a)]) (links conn)) as (angles & AN).
  { intros [[i f] j] L. apply LI in L as (LE & g & IF). destruct (interface_faces _ _ _ IF) as (nodes & nodes' & FF & FG). pose proof (face_cell _ _ _ _ EF FF) as BI. pose proof (face_cell _ _ _ _ EF FG) as BJ. cbn [fst] in BI, BJ. unfold cosine.
    destruct (centre3_item m cs i D CS BI) as (p1 & c1 & -> & P1 & C1). cbn [bind]. rewrite P1. cbn [bind]. destruct (centre3_item m cs j D CS BJ) as (p2 & c2 & -> & P2 & C2). cbn [bind]. rewrite P2. cbn [bind].
    destruct (normals_spec _ _ NO) as (F' & EF'' & _ & _ & HN). assert (F' = F) by congruence. subst F'. destruct (HN _ _ FF) as (n0 & n1 & n2 & r & a & b & c & n' & EN & CN & VN & U). unfold value_of in VN. cbn [fst snd] in VN. destruct (nth_error normals i) as [ns|] eqn:NS; [|discriminate].
    rewrite (proj2 (item_some _ _ _) NS). cbn [bind]. rewrite (proj2 (item_some _ _ _) VN). cbn [bind].
    destruct (face_corners _ _ _ _ _ EF SO FF) as (ps & CP). subst nodes. inversion CP as [|? a' ? ps1 Xa CP1]; subst. inversion CP1 as [|? b' ? ps2 Xb CP2]; subst. inversion CP2 as [|? c' ? rs Xc CP3]; subst.
    destruct (MI (i, f) (j, g) _ _ _ _ _ _ (conj IF (conj (ex_intro _ _ (conj FF CP)) (conj C1 C2)))) as (NC & _). change (arrow_sub c2 c1) with (minus3 c2 c1). rewrite normalized_total; [cbn [bind]; eauto|]. intros Z. apply NC. symmetry. now apply minus_zero. }
  rewrite AN. cbn [bind]. pose proof (angles_In m cs conn F normals D CS CO EF NO angles AN) as IN. destruct (regroup_rows (n_cells (cells m)) (concat angles)) as (rows & R & L & H).
  { intros [i x] I. apply IN in I as (p & p' & IF & _ & O & _). destruct (interface_faces _ _ _ IF) as (f & g & FF & FG). cbn [fst]. destruct O as [-> | ->]; eapply face_cell; eauto. }
  rewrite R. cbn [bind]. apply mapM_total. intros row IR. apply In_nth_error in IR as (i & NR). assert (BI : i < n_cells (cells m)) by (rewrite <- L; apply nth_error_Some; congruence). rewrite (H i BI) in NR. injection NR as <-.
  destruct (SOME i BI) as (a & f & b & I & O). apply In_nth_error in I as (k & NK). destruct (mapM_nth _ _ _ _ _ AN NK) as (pr & C & NP). cbn [fst snd] in C. destruct (cosine cs normals (a, f, b)) as [y|]; [|discriminate]. cbn [bind] in C. injection C as <-.
  assert (Y : In y (of_cell i (concat angles))). { apply of_cell_In, in_concat. eexists. split; [eapply nth_error_In; eauto|]. destruct O as [-> | ->]; cbn; auto. }
  destruct (of_cell i (concat angles)) as [|z l]; [destruct Y|]. cbn [rmin]. eauto.
Qed.
(** Perfect cells. *)
Lemma norm_one_parallel n l : norm3 n = 1%R -> Rabs (dot3 n l) = norm3 l -> l = scale3 (dot3 n l) n.
Proof.
  intros N A. assert (NN : dot3 n n = 1%R) by (rewrite <- norm_sq, N; ring). apply minus_zero, norm_is_zero. rewrite norm_dot. replace (dot3 (minus3 l (scale3 (dot3 n l) n)) (minus3 l (scale3 (dot3 n l) n))) with (dot3 l l - 2 * dot3 n l * dot3 n l + dot3 n l * dot3 n l * dot3 n n)%R.
  - rewrite NN, <- norm_sq, <- A. replace (Rabs (dot3 n l) * Rabs (dot3 n l))%R with (dot3 n l * dot3 n l)%R. 2: { change (Rsqr (dot3 n l) = Rsqr (Rabs (dot3 n l))). apply Rsqr_abs. }
    replace (dot3 n l * dot3 n l - 2 * dot3 n l * dot3 n l + dot3 n l * dot3 n l * 1)%R with 0%R by ring. apply sqrt_0.
  - assert (G : forall k, dot3 (minus3 l (scale3 k n)) (minus3 l (scale3 k n)) = (dot3 l l - 2 * k * dot3 n l + k * k * dot3 n n)%R) by (intros k; clear; vec; ring). rewrite G. ring.
Qed.
Lemma alignment_one points bs F p p' x : alignment points bs F p p' x -> (x = 1%R <-> square points bs F p p').
Proof.
  intros (i & j & k & r & a & b & c & c1 & c2 & n & VF & CN & K1 & K2 & NC & U & ->). assert (P : (0 < norm3 (minus3 c2 c1))%R) by (apply norm_gt; intros Z; apply NC; symmetry; now apply minus_zero). unfold dist3. rewrite (norm_flip c1 c2). split.
  - intros E. assert (A : Rabs (dot3 n (minus3 c2 c1)) = norm3 (minus3 c2 c1)). { apply (Rmult_eq_reg_r (/ norm3 (minus3 c2 c1))); [|apply Rinv_neq_0_compat; lra]. rewrite Rinv_r by lra. exact E. }
    pose proof (norm_one_parallel _ _ (proj1 U) A) as PA. intros i' j' k' r' a' b' c' c1' c2' VF' CN' K1' K2'. rewrite VF in VF'. injection VF' as <- <- <- <-. pose proof (corners_unique _ _ _ _ CN CN') as X. injection X as <- <- <-.
    rewrite <- (centre3_unique _ _ _ _ _ K1 K1'), <- (centre3_unique _ _ _ _ _ K2 K2'). rewrite PA, !dot_scale. destruct U as (_ & -> & -> & _). split; ring.
  - intros S. destruct (S _ _ _ _ _ _ _ _ _ VF CN K1 K2) as (S1 & S2). pose proof (unit_normal_bent _ _ _ _ U) as N. destruct (along_normal _ _ _ N S1 S2) as (t & T).
    assert (L : minus3 c2 c1 = scale3 (t * norm3 (cross3 (minus3 b a) (minus3 c a))) n). { rewrite T, (unit_normal_unique _ _ _ _ N U), scale_scale. f_equal. rewrite Rmult_assoc, Rinv_r; [ring|]. apply Rgt_not_eq. now apply norm_gt. }
    set (q := (t * norm3 (cross3 (minus3 b a) (minus3 c a)))%R) in *. rewrite L in *. rewrite dot_scale_r, norm_scale in *. rewrite <- norm_sq, (proj1 U), !Rmult_1_r in *. unfold Rdiv. now apply Rinv_r, Rgt_not_eq.
Qed.
Theorem qualities_perfect {V} (m : mesh Qc V) qs : qualities m = Ok qs -> exists F, faces (cells m) = Ok F /\ surfaces (cells m) F /\
  forall i q, nth_error qs i = Some q -> (q = 1%R <-> forall p p', interface F p p' -> fst p <= fst p' -> i = fst p \/ i = fst p' -> square (points m) (cells m) F p p').
Proof.
  intros E. destruct (qualities_spec _ _ E) as (F & EF & SU & L & H). exists F. split; [exact EF|]. split; [exact SU|]. intros i q NQ. destruct (H i q NQ) as (((p0 & p0' & IF0 & LE0 & O0 & A0) & LE) & R). split.
  - intros -> p p' IF LEP O. 
    assert (X : exists x, alignment (points m) (cells m) F p p' x).
    { unfold qualities in E. destruct (centers m) as [cs|] eqn:CS; [|discriminate]. cbn [bind] in E. destruct (connections (dim m) (cells m)) as [conn|] eqn:CO; [|discriminate]. cbn [bind] in E.
      assert (D : dim m = 3). { unfold connections in CO. destruct (Nat.eqb_spec (dim m) 3) as [D|D]; [exact D|discriminate]. } rewrite D in CO.
      destruct (face_normals m) as [normals|] eqn:NO; [|discriminate]. cbn [bind] in E. destruct (guard _ _); [|discriminate]. cbn [bind] in E. destruct (mapM _ (links conn)) as [angles|] eqn:AN; [|discriminate].
      clear A0 H LE; destruct p as [pa pf], p' as [pb pg]. cbn [fst] in LEP. assert (I : In (pa, pf, pb) (links conn)) by (apply (links_interface conn F (cells m) CO EF); eauto). apply In_nth_error in I as (k & NK). destruct (mapM_nth _ _ _ _ _ AN NK) as (pr & C & _). destruct (cosine cs normals (pa, pf, pb)) as [y|] eqn:CY; [|discriminate].
      exists y. eapply cosine_alignment; eauto. }
    destruct X as (x & A). apply (alignment_one _ _ _ _ _ _ A). pose proof (alignment_range _ _ _ _ _ _ A) as RA. assert (Y : (1 <= x)%R) by (apply LE; exists p, p'; auto). lra.
  - intros S. apply (alignment_one _ _ _ _ _ _ A0). now apply S.
Qed.
(** A cell without neighbours has no quality, and then no cell has. *)
Theorem qualities_alone {V} (m : mesh Qc V) F i : faces (cells m) = Ok F -> i < n_cells (cells m) -> (forall p p', interface F p p' -> fst p <> i) -> forall qs, qualities m <> Ok qs.
Proof.
  intros EF BI AL qs E. destruct (qualities_spec _ _ E) as (F' & EF' & _ & L & H). assert (F' = F) by congruence. subst F'. rewrite <- L in BI. apply nth_error_Some in BI. destruct (nth_error qs i) as [q|] eqn:NQ; [|congruence].
  destruct (H i q NQ) as (((p & p' & IF & _ & O & _) & _) & _). destruct O as [-> | ->]; [exact (AL _ _ IF eq_refl)|]. apply interface_sym in IF. exact (AL _ _ IF eq_refl).
Qed.

(** ** More on the distances *)
Lemma situated_unique points bs F p p' q' ps qs c1 c2 d1 d2 : fst p' = fst q' -> situated points bs F p p' ps c1 c2 -> situated points bs F p q' qs d1 d2 -> ps = qs /\ c1 = d1 /\ c2 = d2.
Proof.
  intros E (_ & (f & F1 & C1) & K1 & K2) (_ & (g & F2 & C2) & L1 & L2). assert (g = f) by congruence. subst g. rewrite <- E in L2. split; [eapply corners_unique; eauto|]. split; eapply centre3_unique; eauto.
Qed.
Lemma gap_at {V} kind bounds (m : mesh Qc V) gs F i f j k g ps c1 c2 : gaps kind bounds m = Ok gs -> faces (cells m) = Ok F -> In ((i, f, j), g) gs -> situated (points m) (cells m) F (i, f) (j, k) ps c1 c2 ->
  exists a b c r, ps = a :: b :: c :: r /\ c1 <> c2 /\ bent a b c /\ measured kind bounds i j c1 c2 a b c g.
Proof.
  intros E EF I S. destruct (gaps_spec _ _ _ _ E) as (F' & EF' & _ & _ & _ & H). assert (F' = F) by congruence. subst F'. destruct (H i f j g I) as (k' & a & b & c & r & c1' & c2' & S' & NC & B & _ & _ & _ & _ & M).
  destruct (situated_unique (points m) (cells m) F (i, f) (j, k) (j, k') _ _ _ _ _ _ eq_refl S S') as (-> & -> & ->). exists a, b, c, r. auto.
Qed.
Theorem gaps_between {V} bounds (m : mesh Qc V) gs F i f j k g a b c r c1 c2 : gaps ByLine bounds m = Ok gs -> faces (cells m) = Ok F -> In ((i, f, j), g) gs -> situated (points m) (cells m) F (i, f) (j, k) (a :: b :: c :: r) c1 c2 ->
  bounds i = false -> bounds j = false -> separated c1 c2 a b c -> (g_d1 g + g_d2 g = dist3 c1 c2)%R.
Proof.
  intros E EF I S B1 B2 SE. destruct (gap_at _ _ _ _ _ _ _ _ _ _ _ _ _ E EF I S) as (a' & b' & c' & r' & EQ & NC & B & q & CR & D1 & D2). injection EQ as <- <- <- <-. rewrite B1 in D1. rewrite B2 in D2. rewrite D1, D2.
  apply bent_cross in B. exact (separated_sum _ _ _ _ _ _ _ (unit_normal_cross _ _ _ B) NC CR SE).
Qed.
Theorem gaps_shorter {V} bounds (m : mesh Qc V) gs gs' i f j g g' : gaps ByLine bounds m = Ok gs -> gaps Orthogonal bounds m = Ok gs' -> In ((i, f, j), g) gs -> In ((i, f, j), g') gs' ->
  (g_d1 g' <= g_d1 g)%R /\ (g_d2 g' <= g_d2 g)%R.
Proof.
  intros E E' I I'. destruct (gaps_spec _ _ _ _ E) as (F & EF & _ & _ & _ & H). destruct (H i f j g I) as (k & a & b & c & r & c1 & c2 & S & NC & B & _ & _ & _ & _ & q & CR & D1 & D2).
  destruct (gap_at _ _ _ _ _ _ _ _ _ _ _ _ _ E' EF I' S) as (a' & b' & c' & r' & EQ & _ & _ & M1 & M2). injection EQ as <- <- <- <-. destruct CR as (_ & P & _).
  split; [rewrite D1; destruct (bounds i); [rewrite M1; lra|now apply (proj2 M1)]|rewrite D2; destruct (bounds j); [rewrite M2; lra|now apply (proj2 M2)]].
Qed.
Lemma gaps_keys {V} kind bounds (m : mesh Qc V) gs conn : gaps kind bounds m = Ok gs -> connections 3 (cells m) = Ok conn -> dim m = 3 -> map fst gs = links conn.
Proof.
  intros E CO D. unfold gaps in E. destruct (centers m) as [cs|]; [|discriminate]. cbn [bind] in E. rewrite D, CO in E. cbn [bind] in E.
  destruct (faces (cells m)) as [F|]; [|discriminate]. cbn [bind] in E. destruct (face_normals m) as [normals|]; [|discriminate]. cbn [bind] in E. destruct (face_areas m) as [areas|]; [|discriminate]. cbn [bind] in E. clear -E.
  revert gs E. induction (links conn) as [|l ls IH]; intros gs E; cbn [mapM] in E; [injection E as <-; reflexivity|]. destruct (measure _ _ _ _ _ _ _ l) as [g|]; [|discriminate]. cbn [bind] in E. destruct (mapM _ ls) as [y|]; [|discriminate]. cbn [bind] in E. injection E as <-. cbn [map fst]. f_equal. now apply IH.
Qed.
