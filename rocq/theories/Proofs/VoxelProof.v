(** Voxels. *)
From Coq Require Import String Ascii Arith ZArith QArith Qcanon Lqa Bool Lia Permutation Sorted List.
From Verif Require Import Base.Str Model.Py Model.Numpy Model.Mesh Model.MeshOps Model.Grid Spec.Order Spec.Extrude Spec.Grid
  Proofs.NumpyProof Proofs.ConnectProof Proofs.MaterialProof Proofs.ExtrudeProof Proofs.PruneProof Proofs.GridProof.
Import ListNotations.
Local Open Scope nat_scope.

(** ** Rationals *)
Lemma qleb_le x y : qleb x y = true <-> (x <= y)%Qc.
Proof. unfold qleb. apply Qle_bool_iff. Qed.
Lemma qleb_order : total_order qleb.
Proof.
  split; [|split].
  - intros x y. rewrite !qleb_le. destruct (Qclt_le_dec x y) as [L | L]; [left; now apply Qclt_le_weak|now right].
  - intros x y z. rewrite !qleb_le. apply Qcle_trans.
  - intros x y. rewrite !qleb_le. apply Qcle_antisym.
Qed.
Lemma qleb_false x y : qleb x y = false <-> (y < x)%Qc.
Proof.
  split; intros H.
  - destruct (Qclt_le_dec y x) as [|L]; [assumption|]. apply qleb_le in L. congruence.
  - destruct (qleb x y) eqn:E; [|reflexivity]. apply qleb_le in E. exfalso. eapply Qclt_not_le; eauto.
Qed.
Ltac q_arith := unfold Qclt, Qcle, Qcminus, Qcdiv in *; unfold Qcopp, Qcplus, Qcmult, Qcinv in *; cbn [this Q2Qc] in *; rewrite ?Qred_correct in *; change (/ 2)%Q with (Qmake 1 2) in *; try lra.

Lemma two_eq : Q2Qc 2 = (1 + 1)%Qc.
Proof. reflexivity. Qed.
Ltac q_field := rewrite ?two_eq; field; discriminate.

(** ** Bounds and centres *)
Lemma voronoi_centres d : forall o, voronoi_from o (centres o d) = match bounds o d with [] => [] | _ :: r => r end.
Proof.
  induction d as [|w d IH]; intros o; [reflexivity|]. cbn [centres voronoi_from bounds].
  assert (E : (Q2Qc 2 * (o + w / Q2Qc 2) - o = o + w)%Qc) by q_field. rewrite E, IH. destruct d; reflexivity.
Qed.
Lemma centres_length d : forall o, List.length (centres o d) = List.length d.
Proof. induction d as [|w d IH]; intros o; cbn [centres List.length]; [reflexivity|]. now rewrite IH. Qed.
Lemma bounds_length d : forall o, List.length (bounds o d) = S (List.length d).
Proof. induction d as [|w d IH]; intros o; cbn [bounds List.length]; [reflexivity|]. now rewrite IH. Qed.
Lemma qdiff_bounds d : forall o, qdiff (bounds o d) = d.
Proof.
  induction d as [|w d IH]; intros o; [reflexivity|]. cbn [bounds qdiff]. specialize (IH (o + w)%Qc). destruct (bounds (o + w) d) as [|b r] eqn:E; [destruct d; discriminate|].
  assert (b = (o + w)%Qc) by (destruct d; cbn in E; congruence). subst b. rewrite <- IH. cbn [qdiff]. f_equal. ring.
Qed.
Lemma bounds_qdiff l o : nth_error l 0 = Some o -> bounds o (qdiff l) = l.
Proof.
  revert o. induction l as [|a l IH]; [discriminate|]. intros o E. injection E as ->. cbn [qdiff]. destruct l as [|b l]; [reflexivity|]. cbn [bounds].
  replace (o + (b - o))%Qc with b by ring. f_equal. now apply IH.
Qed.
Lemma bounds_running d : forall o, bounds o d = running Qcplus o d.
Proof. induction d as [|w d IH]; intros o; [reflexivity|]. cbn [bounds running]. now rewrite IH. Qed.
Lemma level_shift d : forall acc o i, level Qcplus (acc + o)%Qc d i = (level Qcplus acc d i + o)%Qc.
Proof.
  unfold level. induction d as [|w d IH]; intros acc o i; destruct i; cbn [firstn fold_left]; try reflexivity. rewrite <- IH. f_equal. ring.
Qed.
Lemma bounds_nth d o i : i <= List.length d -> nth_error (bounds o d) i = Some (level Qcplus 0%Qc d i + o)%Qc.
Proof.
  intros L. rewrite bounds_running, running_nth by exact L. f_equal. rewrite <- level_shift. f_equal. ring.
Qed.
Lemma centres_above d : forall o, Forall (fun w => (0 < w)%Qc) d -> Forall (fun c => (o < c)%Qc) (centres o d).
Proof.
  induction d as [|w d IH]; intros o P; [constructor|]. inversion P as [|? ? P1 P2]; subst. cbn [centres]. constructor.
  - q_arith.
  - eapply Forall_impl; [|apply (IH (o + w)%Qc P2)]. intros c H. cbn beta in H. q_arith.
Qed.
Lemma centres_sorted d : forall o, Forall (fun w => (0 < w)%Qc) d -> StronglySorted (fun a b => (a < b)%Qc) (centres o d).
Proof.
  induction d as [|w d IH]; intros o P; [constructor|]. inversion P as [|? ? P1 P2]; subst. cbn [centres]. constructor; [apply IH, P2|].
  eapply Forall_impl; [|apply (centres_above d (o + w)%Qc P2)]. intros c H. cbn beta in H. q_arith.
Qed.
Lemma lt_strict l : StronglySorted (fun a b => (a < b)%Qc) l -> StronglySorted (fun a b => qleb a b = true /\ a <> b) l.
Proof.
  induction 1 as [|x l S IH F]; constructor; auto. eapply Forall_impl; [|exact F]. intros y H. cbn beta in *. split; [apply qleb_le; now apply Qclt_le_weak|].
  intros ->. exact (Qclt_not_eq _ _ H eq_refl).
Qed.
Lemma strict_lt l : StronglySorted (fun a b => qleb a b = true /\ a <> b) l -> StronglySorted (fun a b => (a < b)%Qc) l.
Proof.
  induction 1 as [|x l S IH F]; constructor; auto. eapply Forall_impl; [|exact F]. intros y [H N]. apply qleb_le in H. apply Qcle_lt_or_eq in H as [H | H]; [exact H|contradiction].
Qed.
Lemma increasing_sorted l : increasing l <-> StronglySorted (fun a b => (a < b)%Qc) l.
Proof.
  split.
  - induction l as [|a l IH]; intros H; constructor.
    + apply IH. intros i j x y L X Y. apply (H (S i) (S j) x y); auto. lia.
    + apply Forall_forall. intros y I. apply In_nth_error in I as (j & J). apply (H 0 (S j) a y); auto. lia.
  - induction 1 as [|a l S IH F]; intros i j x y L X Y; [destruct i; discriminate|]. destruct i as [|i], j as [|j]; try lia; cbn [nth_error] in *.
    + injection X as <-. rewrite Forall_forall in F. apply F. eapply nth_error_In, Y.
    + apply (IH i j); auto. lia.
Qed.
(** ** The recurrence *)
Lemma voronoi_from_nth x : forall v i w c, nth_error (v :: voronoi_from v x) i = Some w -> nth_error x i = Some c ->
  exists w', nth_error (v :: voronoi_from v x) (S i) = Some w' /\ (w + w' = Q2Qc 2 * c)%Qc.
Proof.
  induction x as [|a x IH]; intros v i w c W X; [destruct i; discriminate|]. cbn [voronoi_from] in *. destruct i as [|i].
  - injection W as <-. injection X as <-. eexists. split; [reflexivity|]. rewrite two_eq. ring.
  - cbn [nth_error] in X. apply (IH (Q2Qc 2 * a - v)%Qc i w c W X).
Qed.
Lemma voronoi_from_length x : forall v, List.length (voronoi_from v x) = List.length x.
Proof. induction x as [|a x IH]; intros v; cbn [voronoi_from List.length]; [reflexivity|]. now rewrite IH. Qed.
Theorem voronoi_spec xs x0 v : voronoi1d xs x0 = Ok v -> 1 < List.length xs ->
  List.length v = List.length xs + 1 /\ nth_error v 0 = Some x0 /\ (exists a, nth_error xs 0 = Some a /\ (x0 < a)%Qc) /\
  forall i c, nth_error xs i = Some c -> exists a b, nth_error v i = Some a /\ nth_error v (i + 1) = Some b /\ ((a + b) / Q2Qc 2 = c)%Qc.
Proof.
  destruct xs as [|a [|b xs]]; cbn [List.length]; try lia. intros E _. cbn [voronoi1d] in E. destruct (qleb a x0) eqn:Q; cbn [negb guard bind] in E; [discriminate|].
  injection E as <-. apply qleb_false in Q. split; [cbn [List.length]; rewrite voronoi_from_length; cbn [List.length]; lia|]. split; [reflexivity|]. split; [exists a; auto|].
  intros i c X. assert (L : i < List.length (a :: b :: xs)) by eauto using nth_lt.
  destruct (nth_error (x0 :: voronoi_from x0 (a :: b :: xs)) i) as [w|] eqn:W.
  - destruct (voronoi_from_nth _ _ _ _ _ W X) as (w' & W' & S). exists w, w'. split; [exact W|]. split; [now rewrite Nat.add_1_r|]. rewrite S. q_field.
  - apply nth_error_None in W. cbn [List.length] in W, L. rewrite voronoi_from_length in W. cbn [List.length] in W. lia.
Qed.
Theorem voronoi_refused xs a x0 : 1 < List.length xs -> nth_error xs 0 = Some a -> (a <= x0)%Qc -> voronoi1d xs x0 = Err ValueError.
Proof.
  destruct xs as [|a' [|b xs]]; cbn [List.length]; try lia. intros _ E L. injection E as ->. cbn [voronoi1d]. apply qleb_le in L. rewrite L. reflexivity.
Qed.
Theorem voronoi_recovers o d : 1 < List.length d -> Forall (fun w => (0 < w)%Qc) d -> voronoi1d (centres o d) o = Ok (bounds o d).
Proof.
  intros L P. pose proof (centres_above d o P) as A. pose proof (voronoi_centres d o) as V. pose proof (centres_length d o) as LC. destruct (centres o d) as [|a [|b cs]]; cbn [List.length] in LC; try lia.
  cbn [voronoi1d]. inversion A as [|? ? A1 _]; subst. apply qleb_false in A1. rewrite A1. cbn [negb guard bind]. rewrite V. destruct d; reflexivity.
Qed.

(** ** Full grids of points *)
Lemma nodup_flat_map {A B} (f : A -> list B) l : NoDup l -> (forall x, In x l -> NoDup (f x)) ->
  (forall x y b, In x l -> In y l -> In b (f x) -> In b (f y) -> x = y) -> NoDup (flat_map f l).
Proof.
  induction l as [|a l IH]; intros N F D; [constructor|]. inversion N as [|? ? N1 N2]; subst. cbn [flat_map]. apply nodup_app.
  - apply F. now left.
  - apply IH; auto; [intros x I; apply F; now right|]. intros x y b X Y. apply D; now right.
  - intros b I J. apply in_flat_map in J as (y & Y & J). assert (a = y) by (eapply D; eauto; [now left|now right]). now subst.
Qed.
Lemma nodup_map_inj {A B} (f : A -> B) l : (forall x y, f x = f y -> x = y) -> NoDup l -> NoDup (map f l).
Proof.
  intros I N. induction N as [|a l N1 N IH]; [constructor|]. cbn [map]. constructor; [|exact IH]. intros J. apply in_map_iff in J as (b & E & J). apply I in E. now subst.
Qed.
Lemma triples_nodup {A} layer (xs ys zs : list A) : NoDup xs -> NoDup ys -> NoDup zs -> NoDup (triples layer xs ys zs).
Proof.
  intros X Y Z.
  assert (G : forall (f : A -> A -> A -> list A) (us vs ws : list A), (forall a b c a' b' c', f a b c = f a' b' c' -> a = a' /\ b = b' /\ c = c') ->
    NoDup us -> NoDup vs -> NoDup ws -> NoDup (flat_map (fun a => flat_map (fun b => map (f a b) ws) vs) us)).
  { intros f us vs ws INJ U V W. apply nodup_flat_map; [exact U| |].
    - intros a _. apply nodup_flat_map; [exact V| |].
      + intros b _. apply nodup_map_inj; [|exact W]. intros c c' E. now apply INJ in E.
      + intros b b' p _ _ P Q. apply in_map_iff in P as (c & <- & _). apply in_map_iff in Q as (c' & E & _). apply INJ in E. intuition congruence.
    - intros a a' p _ _ P Q. apply in_flat_map in P as (b & _ & P). apply in_flat_map in Q as (b' & _ & Q).
      apply in_map_iff in P as (c & <- & _). apply in_map_iff in Q as (c' & E & _). apply INJ in E. intuition congruence. }
  unfold triples. destruct layer.
  - apply (G (fun z y x => [x; y; z])); auto. intros. intuition congruence.
  - apply (G (fun x y z => [x; y; z])); auto. intros. intuition congruence.
Qed.
Lemma triples_In_iff {A} layer (xs ys zs : list A) p : In p (triples layer xs ys zs) <-> exists x y z, p = [x; y; z] /\ In x xs /\ In y ys /\ In z zs.
Proof.
  split; [apply triples_In|]. intros (x & y & z & -> & X & Y & Z). unfold triples. destruct layer; apply in_flat_map.
  - exists z. split; [exact Z|]. apply in_flat_map. exists y. split; [exact Y|]. apply in_map_iff. eauto.
  - exists x. split; [exact X|]. apply in_flat_map. exists y. split; [exact Y|]. apply in_map_iff. eauto.
Qed.
Lemma triples_length {A} layer (xs ys zs : list A) : List.length (triples layer xs ys zs) = List.length xs * List.length ys * List.length zs.
Proof.
  unfold triples. destruct layer.
  - rewrite (flat_len (List.length ys * List.length xs)); [lia|]. intros. rewrite (flat_len (List.length xs)); [reflexivity|]. intros. apply map_length.
  - rewrite (flat_len (List.length ys * List.length zs)); [lia|]. intros. rewrite (flat_len (List.length zs)); [reflexivity|]. intros. apply map_length.
Qed.
Lemma full_perm {A} layer (xs ys zs : list A) pts : NoDup xs -> NoDup ys -> NoDup zs -> full_grid xs ys zs pts -> Permutation pts (triples layer xs ys zs).
Proof.
  intros X Y Z [N I]. apply NoDup_Permutation; [exact N|now apply triples_nodup|]. intros p. now rewrite I, triples_In_iff.
Qed.
Lemma strict_same l l' : StronglySorted (fun a b => (a < b)%Qc) l -> StronglySorted (fun a b => (a < b)%Qc) l' -> (forall x, In x l <-> In x l') -> l = l'.
Proof.
  intros S S' H. apply (sorted_perm_eq qleb); try apply qleb_order.
  - apply lt_strict in S. clear -S. induction S; constructor; auto. eapply Forall_impl; [|eassumption]. cbn. tauto.
  - apply lt_strict in S'. clear -S'. induction S'; constructor; auto. eapply Forall_impl; [|eassumption]. cbn. tauto.
  - apply NoDup_Permutation; auto; eapply strict_nodup, lt_strict; eauto.
Qed.
Lemma unique_coordinates l xs : increasing xs -> (forall x, In x l <-> In x xs) -> unique qleb l = xs.
Proof.
  intros S H. apply strict_same.
  - apply strict_lt, unique_strict; apply qleb_order.
  - now apply increasing_sorted.
  - intros x. rewrite unique_In by apply qleb_order. apply H.
Qed.
Lemma increasing_nodup l : increasing l -> NoDup l.
Proof. intros H. apply increasing_sorted, lt_strict in H. now apply strict_nodup in H. Qed.
Lemma column_ok {A} (i : nat) (pts : list (list A)) (g : list A -> A) : (forall p, In p pts -> nth_error p i = Some (g p)) -> column i pts = Ok (map g pts).
Proof. intros H. unfold column. apply mapM_eq. intros p I. unfold item. now rewrite (H p I). Qed.

Theorem voxelize_grid xs ys zs pts x0 y0 z0 vx vy vz layer material : full_grid xs ys zs pts -> increasing xs -> increasing ys -> increasing zs ->
  xs <> [] -> ys <> [] -> zs <> [] ->
  voronoi1d xs x0 = Ok vx -> voronoi1d ys y0 = Ok vy -> voronoi1d zs z0 = Ok vz ->
  voxelize pts [x0; y0; z0] layer material = qgrid (qdiff vx) (qdiff vy) (Some (qdiff vz)) (Some [x0; y0; z0]) layer material.
Proof.
  intros G IX IY IZ NX NY NZ VX VY VZ. pose proof (full_perm true _ _ _ _ (increasing_nodup _ IX) (increasing_nodup _ IY) (increasing_nodup _ IZ) G) as P.
  destruct G as [N H]. unfold voxelize.
  assert (T : forall p, In p pts -> exists x y z, p = [x; y; z] /\ In x xs /\ In y ys /\ In z zs) by (intros p I; now apply H).
  destruct xs as [|x1 xs]; [contradiction|]. destruct ys as [|y1 ys]; [contradiction|]. destruct zs as [|z1 zs]; [contradiction|].
  rewrite (column_ok 0 pts (fun p => nth 0 p 0%Qc)) by (intros p I; destruct (T p I) as (? & ? & ? & -> & _); reflexivity). cbn [bind].
  rewrite (column_ok 1 pts (fun p => nth 1 p 0%Qc)) by (intros p I; destruct (T p I) as (? & ? & ? & -> & _); reflexivity). cbn [bind].
  rewrite (column_ok 2 pts (fun p => nth 2 p 0%Qc)) by (intros p I; destruct (T p I) as (? & ? & ? & -> & _); reflexivity). cbn [bind].
  rewrite (unique_coordinates _ (x1 :: xs) IX), (unique_coordinates _ (y1 :: ys) IY), (unique_coordinates _ (z1 :: zs) IZ).
  - rewrite (Permutation_length P), triples_length. rewrite Nat.eqb_refl. cbn [guard bind]. rewrite VX, VY, VZ. reflexivity.
  - intros c. rewrite in_map_iff. split.
    + intros (p & <- & I). destruct (T p I) as (? & ? & ? & -> & _ & _ & I3). exact I3.
    + intros I. exists [x1; y1; c]. split; [reflexivity|]. apply H. exists x1, y1, c. split; [reflexivity|]. split; [now left|]. split; [now left|exact I].
  - intros c. rewrite in_map_iff. split.
    + intros (p & <- & I). destruct (T p I) as (? & ? & ? & -> & _ & I2 & _). exact I2.
    + intros I. exists [x1; c; z1]. split; [reflexivity|]. apply H. exists x1, c, z1. split; [reflexivity|]. split; [now left|]. split; [exact I|now left].
  - intros c. rewrite in_map_iff. split.
    + intros (p & <- & I). destruct (T p I) as (? & ? & ? & -> & I1 & _ & _). exact I1.
    + intros I. exists [c; y1; z1]. split; [reflexivity|]. apply H. exists c, y1, z1. split; [reflexivity|]. split; [exact I|]. split; now left.
Qed.
Lemma centres_increasing o d : Forall (fun w => (0 < w)%Qc) d -> increasing (centres o d).
Proof. intros P. now apply increasing_sorted, centres_sorted. Qed.
Theorem voxelize_recovers dx dy dz x0 y0 z0 pts layer material :
  1 < List.length dx -> 1 < List.length dy -> 1 < List.length dz ->
  Forall (fun w => (0 < w)%Qc) dx -> Forall (fun w => (0 < w)%Qc) dy -> Forall (fun w => (0 < w)%Qc) dz ->
  full_grid (centres x0 dx) (centres y0 dy) (centres z0 dz) pts ->
  voxelize pts [x0; y0; z0] layer material = qgrid dx dy (Some dz) (Some [x0; y0; z0]) layer material.
Proof.
  intros LX LY LZ PX PY PZ G.
  rewrite (voxelize_grid _ _ _ _ x0 y0 z0 (bounds x0 dx) (bounds y0 dy) (bounds z0 dz) layer material G); auto using centres_increasing, voronoi_recovers.
  - now rewrite !qdiff_bounds.
  - intros E. apply (f_equal (@List.length _)) in E. rewrite centres_length in E. cbn in E. lia.
  - intros E. apply (f_equal (@List.length _)) in E. rewrite centres_length in E. cbn in E. lia.
  - intros E. apply (f_equal (@List.length _)) in E. rewrite centres_length in E. cbn in E. lia.
Qed.

(** ** The order of the data *)
Definition zyx (p q : list Qc) : bool := lexb qleb (rev p) (rev q).
Lemma zyx_order : total_order zyx.
Proof.
  destruct (lexb_order qleb qleb_order) as (T & TR & AS). unfold zyx. split; [intros; apply T|]. split; [intros x y z; apply TR|].
  intros x y A B. assert (E : rev x = rev y) by (now apply AS). rewrite <- (rev_involutive x), <- (rev_involutive y), E. reflexivity.
Qed.
Lemma insert_snd {A} (leb : A -> A -> bool) (x : nat * A) l : map snd (insert (fun a b => leb (snd a) (snd b)) x l) = insert leb (snd x) (map snd l).
Proof. induction l as [|y l IH]; [reflexivity|]. cbn [insert map]. destruct (leb (snd x) (snd y)); [reflexivity|]. cbn [map]. now rewrite IH. Qed.
Lemma isort_snd {A} (leb : A -> A -> bool) (l : list (nat * A)) : map snd (isort (fun a b => leb (snd a) (snd b)) l) = isort leb (map snd l).
Proof. induction l as [|y l IH]; [reflexivity|]. cbn [isort map]. now rewrite insert_snd, IH. Qed.
Lemma isort_In {A} (leb : A -> A -> bool) l x : In x (isort leb l) <-> In x l.
Proof.
  assert (P : Permutation l (isort leb l)). { induction l as [|y l IH]; [constructor|]. cbn [isort]. etransitivity; [apply perm_skip, IH|]. apply insert_perm. }
  split; intros I; [exact (Permutation_in _ (Permutation_sym P) I)|exact (Permutation_in _ P I)].
Qed.
Lemma map_snd_combine {A} (pts : list A) : map snd (combine (seq 0 (List.length pts)) pts) = pts.
Proof. generalize 0. induction pts as [|p pts IH]; intros k; [reflexivity|]. cbn [List.length seq combine map snd]. now rewrite IH. Qed.
Lemma combine_seq_In {A} (pts : list A) k e p : In (e, p) (combine (seq k (List.length pts)) pts) -> nth_error pts (e - k) = Some p /\ k <= e.
Proof.
  revert k. induction pts as [|q pts IH]; intros k I; [destruct I|]. cbn [List.length seq combine] in I. destruct I as [I | I].
  - injection I as <- <-. now rewrite Nat.sub_diag.
  - apply IH in I as [I L]. split; [|lia]. replace (e - k) with (S (e - S k)) by lia. exact I.
Qed.
Lemma sorted_app {A} (R : A -> A -> Prop) l l' : StronglySorted R l -> StronglySorted R l' -> (forall x y, In x l -> In y l' -> R x y) -> StronglySorted R (l ++ l').
Proof.
  intros S S' H. induction S as [|a l S IH F]; [exact S'|]. cbn [app]. constructor; [apply IH; intros; apply H; auto; now right|].
  apply Forall_app. split; [exact F|]. apply Forall_forall. intros y I. apply H; [now left|exact I].
Qed.
Lemma sorted_flat {A B} (R : B -> B -> Prop) (f : A -> list B) l (Q : A -> A -> Prop) : StronglySorted Q l -> (forall x, In x l -> StronglySorted R (f x)) ->
  (forall x y a b, Q x y -> In a (f x) -> In b (f y) -> R a b) -> StronglySorted R (flat_map f l).
Proof.
  intros S F H. induction S as [|x l S IH G]; [constructor|]. cbn [flat_map]. apply sorted_app.
  - apply F. now left.
  - apply IH. intros y I. apply F. now right.
  - intros a b A' B'. apply in_flat_map in B' as (y & Y & B'). rewrite Forall_forall in G. eapply H; eauto.
Qed.
Lemma sorted_map {A B} (R : B -> B -> Prop) (f : A -> B) l (Q : A -> A -> Prop) : StronglySorted Q l -> (forall x y, Q x y -> R (f x) (f y)) -> StronglySorted R (map f l).
Proof.
  intros S H. induction S as [|x l S IH G]; [constructor|]. cbn [map]. constructor; [exact IH|]. rewrite Forall_map. eapply Forall_impl; [|exact G]. intros y. apply H.
Qed.
Lemma zyx_lt p q r x y z x' y' z' : p = [x; y; z] -> q = [x'; y'; z'] -> r = true ->
  (z < z')%Qc \/ (z = z' /\ ((y < y')%Qc \/ (y = y' /\ (x < x')%Qc))) -> zyx p q = r.
Proof.
  intros -> -> -> H. unfold zyx. cbn [rev app lexb].
  assert (L : forall a b, (a < b)%Qc -> qleb a b = true /\ qleb b a = false).
  { intros a b X. split; [apply qleb_le; now apply Qclt_le_weak|now apply qleb_false]. }
  assert (R : forall a, qleb a a = true) by (intros a; apply qleb_le, Qcle_refl).
  destruct H as [H | [-> [H | [-> H]]]]; apply L in H as [H1 H2]; rewrite ?R, ?H1, ?H2; reflexivity.
Qed.
Lemma triples_sorted xs ys zs : increasing xs -> increasing ys -> increasing zs -> StronglySorted (fun p q => zyx p q = true) (triples true xs ys zs).
Proof.
  intros X Y Z. apply increasing_sorted in X, Y, Z. cbn [triples]. apply (sorted_flat _ _ _ _ Z).
  - intros z _. apply (sorted_flat _ _ _ _ Y).
    + intros y _. apply (sorted_map _ _ _ _ X). intros a b L. eapply zyx_lt; [reflexivity..|]. right. split; [reflexivity|]. right. auto.
    + intros y y' a b L A B. apply in_map_iff in A as (x & <- & _). apply in_map_iff in B as (x' & <- & _). eapply zyx_lt; [reflexivity..|]. right. split; [reflexivity|]. left. exact L.
  - intros z z' a b L A B. apply in_flat_map in A as (y & _ & A). apply in_map_iff in A as (x & <- & _). apply in_flat_map in B as (y' & _ & B). apply in_map_iff in B as (x' & <- & _).
    eapply zyx_lt; [reflexivity..|]. left. exact L.
Qed.
Theorem export_order_spec xs ys zs pts : full_grid xs ys zs pts -> increasing xs -> increasing ys -> increasing zs ->
  Forall2 (fun e p => nth_error pts e = Some p) (export_order pts) (triples true xs ys zs).
Proof.
  intros G X Y Z. pose proof (full_perm true _ _ _ _ (increasing_nodup _ X) (increasing_nodup _ Y) (increasing_nodup _ Z) G) as P.
  assert (E : map snd (isort by_zyx (combine (seq 0 (List.length pts)) pts)) = triples true xs ys zs).
  { change by_zyx with (fun a b : nat * list Qc => zyx (snd a) (snd b)). rewrite isort_snd, map_snd_combine.
    apply (sorted_perm_eq zyx); try apply zyx_order.
    - apply isort_sorted; apply zyx_order.
    - now apply triples_sorted.
    - etransitivity; [|exact P]. apply Permutation_sym, isort_perm. }
  unfold export_order. rewrite <- E.
  assert (A : Forall (fun ep => nth_error pts (fst ep) = Some (snd ep)) (isort by_zyx (combine (seq 0 (List.length pts)) pts))).
  { apply Forall_forall. intros [e p] I. apply isort_In in I. apply combine_seq_In in I as [I _]. rewrite Nat.sub_0_r in I. exact I. }
  clear E P. induction A as [|ep l A F IH]; [constructor|]. cbn [map]. constructor; auto.
Qed.

(** ** Voxels and data *)
Lemma take_nth {V} (vals : list V) is w n e : take vals is = Ok w -> nth_error is n = Some e -> nth_error w n = nth_error vals e.
Proof.
  intros TT. apply take_ok in TT. revert n. induction TT as [|a b is l H F IH]; intros [|n] EE; cbn [nth_error] in *; try discriminate; auto. injection EE as ->. now symmetry.
Qed.
Lemma Forall2_nth_r {A B} (R : A -> B -> Prop) l l' i y : Forall2 R l l' -> nth_error l' i = Some y -> exists x, nth_error l i = Some x /\ R x y.
Proof.
  intros F. revert i. induction F as [|a b l l' H F IH]; intros [|i] E; try discriminate; cbn [nth_error] in *; [injection E as <-; eauto|eauto].
Qed.
Lemma voronoi_first xs x0 v : voronoi1d xs x0 = Ok v -> xs <> [] -> nth_error v 0 = Some x0 /\ List.length v = List.length xs + 1.
Proof.
  destruct xs as [|a [|b xs]]; intros E N; [contradiction| |].
  - cbn [voronoi1d] in E. injection E as <-. auto.
  - destruct (voronoi_spec _ _ _ E) as (L & F & _); [cbn; lia|]. auto.
Qed.
Lemma qdiff_length l : List.length (qdiff l) = List.length l - 1.
Proof. induction l as [|a l IH]; [reflexivity|]. cbn [qdiff]. destruct l as [|b l]; [reflexivity|]. cbn [List.length] in *. lia. Qed.
Lemma voronoi_level xs x0 v i : voronoi1d xs x0 = Ok v -> xs <> [] -> i <= List.length xs -> nth_error v i = Some (level Qcplus 0%Qc (qdiff v) i + x0)%Qc.
Proof.
  intros E N L. destruct (voronoi_first _ _ _ E N) as [F LV]. rewrite <- (bounds_qdiff v x0 F) at 1. apply bounds_nth. rewrite qdiff_length. lia.
Qed.
Lemma qdiff_nonempty xs x0 v : voronoi1d xs x0 = Ok v -> xs <> [] -> qdiff v <> [] /\ List.length (qdiff v) = List.length xs.
Proof.
  intros E N. destruct (voronoi_first _ _ _ E N) as [F LV]. assert (L : List.length (qdiff v) = List.length xs) by (rewrite qdiff_length; lia).
  split; [|exact L]. intros X. rewrite X in L. destruct xs; [contradiction|discriminate].
Qed.
Lemma source_layer nx ny nz i j k : i < nx -> j < ny -> k < nz -> source true nx ny nz i j k = (i, j, nz - 1 - k).
Proof.
  intros I J K. unfold source, rank3.
  assert (D : (((nz - 1 - k) * ny + j) * nx + i) / nx = (nz - 1 - k) * ny + j) by (rewrite Nat.div_add_l by lia; rewrite (Nat.div_small i) by lia; lia).
  assert (M : (((nz - 1 - k) * ny + j) * nx + i) mod nx = i) by (rewrite Nat.add_comm, Nat.mod_add by lia; now apply Nat.mod_small).
  rewrite D, M. f_equal; [f_equal|].
  - rewrite Nat.add_comm, Nat.mod_add by lia. now apply Nat.mod_small.
  - rewrite Nat.div_add_l by lia. rewrite (Nat.div_small j) by lia. lia.
Qed.
Theorem export_spec {V} xs ys zs pts x0 y0 z0 layer (data : list (str * list V)) m d : export_voxels pts [x0; y0; z0] layer data = Ok (m, d) ->
  full_grid xs ys zs pts -> increasing xs -> increasing ys -> increasing zs -> xs <> [] -> ys <> [] -> zs <> [] ->
  let nx := List.length xs in let ny := List.length ys in let nz := List.length zs in
  exists vx vy vz cs, voronoi1d xs x0 = Ok vx /\ voronoi1d ys y0 = Ok vy /\ voronoi1d zs z0 = Ok vz /\
    cells m = [($"hexahedron", cs)] /\ List.length cs = nx * ny * nz /\
    map fst d = filter (fun l => negb (streqb l $"X" || streqb l $"Y" || streqb l $"Z")) (map fst data) /\
    forall i j k, i < nx -> j < ny -> k < nz ->
      (exists vs ax bx ay by_ az bz, nth_error cs (rank3 layer nx ny nz i j k) = Some vs /\ map (nth_error (points m)) vs = map Some (box ax bx ay by_ az bz) /\
        nth_error vx i = Some ax /\ nth_error vx (i + 1) = Some bx /\ nth_error vy j = Some ay /\ nth_error vy (j + 1) = Some by_ /\ nth_error vz k = Some az /\ nth_error vz (k + 1) = Some bz) /\
      exists e x y z, nth_error pts e = Some [x; y; z] /\
        (let '(a, b, c) := source layer nx ny nz i j k in nth_error xs a = Some x /\ nth_error ys b = Some y /\ nth_error zs c = Some z) /\
        Forall (fun kv => exists vals, In (fst kv, vals) data /\ nth_error (snd kv) (rank3 layer nx ny nz i j k) = nth_error vals e) d.
Proof.
  intros E G IX IY IZ NX NY NZ nx ny nz.
  unfold export_voxels in E. destruct (voxelize pts [x0; y0; z0] layer _) as [m'|] eqn:VO; cbn [bind] in E; [|discriminate].
  destruct (mapM _ _) as [d'|] eqn:DD in E; cbn [bind] in E; [|discriminate]. injection E as <- <-.
  (* the grid *)
  assert (VX : exists vx vy vz, voronoi1d xs x0 = Ok vx /\ voronoi1d ys y0 = Ok vy /\ voronoi1d zs z0 = Ok vz).
  { unfold voxelize in VO. destruct (column 0 pts) as [c0|] eqn:C0; cbn [bind] in VO; [|discriminate]. destruct (column 1 pts) as [c1|] eqn:C1; cbn [bind] in VO; [|discriminate]. destruct (column 2 pts) as [c2|] eqn:C2; cbn [bind] in VO; [|discriminate].
    destruct (guard _ _) in VO; cbn [bind] in VO; [|discriminate]. destruct G as [_ H].
    assert (T : forall p, In p pts -> exists x y z, p = [x; y; z] /\ In x xs /\ In y ys /\ In z zs) by (intros p I; now apply H).
    destruct xs as [|x1 xs']; [contradiction|]. destruct ys as [|y1 ys']; [contradiction|]. destruct zs as [|z1 zs']; [contradiction|].
    rewrite (column_ok 0 pts (fun p => nth 0 p 0%Qc)) in C0 by (intros p I; destruct (T p I) as (? & ? & ? & -> & _); reflexivity).
    rewrite (column_ok 1 pts (fun p => nth 1 p 0%Qc)) in C1 by (intros p I; destruct (T p I) as (? & ? & ? & -> & _); reflexivity).
    rewrite (column_ok 2 pts (fun p => nth 2 p 0%Qc)) in C2 by (intros p I; destruct (T p I) as (? & ? & ? & -> & _); reflexivity).
    injection C0 as <-. injection C1 as <-. injection C2 as <-.
    rewrite (unique_coordinates _ (x1 :: xs') IX), (unique_coordinates _ (y1 :: ys') IY), (unique_coordinates _ (z1 :: zs') IZ) in VO.
    - destruct (voronoi1d (x1 :: xs') x0) as [vx|]; cbn [bind] in VO; [|discriminate]. destruct (voronoi1d (y1 :: ys') y0) as [vy|]; cbn [bind] in VO; [|discriminate].
      destruct (voronoi1d (z1 :: zs') z0) as [vz|]; cbn [bind] in VO; [|discriminate]. eauto 8.
    - intros c. rewrite in_map_iff. split.
      + intros (p & <- & I). destruct (T p I) as (? & ? & ? & -> & _ & _ & I3). exact I3.
      + intros I. exists [x1; y1; c]. split; [reflexivity|]. apply H. exists x1, y1, c. split; [reflexivity|]. split; [now left|]. split; [now left|exact I].
    - intros c. rewrite in_map_iff. split.
      + intros (p & <- & I). destruct (T p I) as (? & ? & ? & -> & _ & I2 & _). exact I2.
      + intros I. exists [x1; c; z1]. split; [reflexivity|]. apply H. exists x1, c, z1. split; [reflexivity|]. split; [now left|]. split; [exact I|now left].
    - intros c. rewrite in_map_iff. split.
      + intros (p & <- & I). destruct (T p I) as (? & ? & ? & -> & I1 & _ & _). exact I1.
      + intros I. exists [c; y1; z1]. split; [reflexivity|]. apply H. exists c, y1, z1. split; [reflexivity|]. split; [exact I|]. split; now left. }
  destruct VX as (vx & vy & vz & VX & VY & VZ). rewrite (voxelize_grid _ _ _ _ _ _ _ _ _ _ _ _ G IX IY IZ NX NY NZ VX VY VZ) in VO.
  destruct (qdiff_nonempty _ _ _ VX NX) as [QX LX]. destruct (qdiff_nonempty _ _ _ VY NY) as [QY LY]. destruct (qdiff_nonempty _ _ _ VZ NZ) as [QZ LZ].
  destruct (grid3 Qcplus Qcopp 0%Qc (qdiff vx) (qdiff vy) (qdiff vz) (Some [x0; y0; z0]) layer ($"dfalt") x0 y0 z0 QX QY QZ (or_introl eq_refl)) as (m & cs & M & _ & CM & LC & _ & _ & HC).
  unfold qgrid in VO. rewrite M in VO. injection VO as <-. rewrite LX, LY, LZ in *. fold nx ny nz in HC, LC.
  exists vx, vy, vz, cs. split; [exact VX|]. split; [exact VY|]. split; [exact VZ|]. split; [exact CM|]. split; [exact LC|].
  apply mapM_F2 in DD. split.
  { clear -DD. set (f := fun kv : str * list V => negb (streqb (fst kv) $"X" || streqb (fst kv) $"Y" || streqb (fst kv) $"Z")) in *.
    replace (filter _ (map fst data)) with (map fst (filter f data)).
    - clear -DD. induction DD as [|kv kv' l l' H F IH]; [reflexivity|]. cbn [map]. rewrite IH. f_equal. destruct (take _ _); cbn [bind] in H; [|discriminate]. injection H as <-. reflexivity.
    - clear. induction data as [|kv data IH]; [reflexivity|]. cbn [filter map]. unfold f at 1. destruct (negb _); cbn [map]; now rewrite IH. }
  intros i j k I J K. split.
  - destruct (HC i j k I J K) as (vs & N & B). do 7 eexists. split; [exact N|]. split; [exact B|].
    repeat split; eapply voronoi_level; eauto; fold nx ny nz; lia.
  - pose proof (rank3_bound layer nx ny nz i j k I J K) as RB.
    set (n := rank3 layer nx ny nz i j k) in *. pose proof (export_order_spec xs ys zs pts G IX IY IZ) as F2.
    assert (PX : nx <> 0) by lia. assert (PY : ny <> 0) by lia.
    pose proof (Nat.mod_upper_bound n nx PX) as B1. pose proof (Nat.mod_upper_bound (n / nx) ny PY) as B2.
    assert (B3 : n / nx / ny < nz) by (rewrite Nat.div_div by lia; apply Nat.div_lt_upper_bound; lia).
    destruct (nth_error xs (n mod nx)) as [x|] eqn:EX; [|apply nth_error_None in EX; fold nx in EX; lia].
    destruct (nth_error ys ((n / nx) mod ny)) as [y|] eqn:EY; [|apply nth_error_None in EY; fold ny in EY; lia].
    destruct (nth_error zs (n / nx / ny)) as [z|] eqn:EZ; [|apply nth_error_None in EZ; fold nz in EZ; lia].
    pose proof (triples_nth true _ _ _ _ _ _ _ _ _ EX EY EZ) as T. fold nx ny nz in T. unfold node3 in T.
    replace ((n / nx / ny * ny + (n / nx) mod ny) * nx + n mod nx) with n in T.
    2: { pose proof (Nat.div_mod n nx PX). pose proof (Nat.div_mod (n / nx) ny PY). nia. }
    destruct (Forall2_nth_r _ _ _ _ _ F2 T) as (e & EE & PE). exists e, x, y, z. split; [exact PE|]. split; [unfold source; fold n; auto|].
    apply Forall_forall. intros [l v] IV. destruct (Forall2_In_r _ _ _ _ DD IV) as ([l' vals] & IL & TK). apply filter_In in IL as [IL _]. cbn [fst snd] in *.
    destruct (take vals (export_order pts)) as [w|] eqn:TT; cbn [bind] in TK; [|discriminate]. injection TK as -> ->. exists vals. split; [exact IL|].
    exact (take_nth _ _ _ _ _ TT EE).
Qed.
Lemma source_right layer nx ny nz i j k : i < nx -> j < ny -> k < nz -> nz = 1 -> layer = true \/ nx = 1 \/ ny = 1 -> source layer nx ny nz i j k = (i, j, k).
Proof.
  intros I J K -> H. assert (k = 0) by lia. subst k. destruct layer.
  - rewrite source_layer by assumption. reflexivity.
  - assert (X : nx = 1 \/ ny = 1) by (destruct H as [H | H]; [discriminate|exact H]). transitivity (source true nx ny 1 i j 0); [|now rewrite source_layer]. unfold source, rank3.
    replace ((i * ny + j) * 1 + (1 - 1 - 0)) with (((1 - 1 - 0) * ny + j) * nx + i); [reflexivity|]. destruct X as [-> | ->]; [assert (i = 0) by lia|assert (j = 0) by lia]; subst; lia.
Qed.
Theorem export_right {V} xs ys zs pts x0 y0 z0 layer (data : list (str * list V)) m d : export_voxels pts [x0; y0; z0] layer data = Ok (m, d) ->
  full_grid xs ys zs pts -> increasing xs -> increasing ys -> increasing zs -> xs <> [] -> ys <> [] ->
  List.length zs = 1 -> layer = true \/ List.length xs = 1 \/ List.length ys = 1 ->
  let nx := List.length xs in let ny := List.length ys in let nz := List.length zs in
  exists vx vy vz cs, voronoi1d xs x0 = Ok vx /\ voronoi1d ys y0 = Ok vy /\ voronoi1d zs z0 = Ok vz /\
    cells m = [($"hexahedron", cs)] /\ List.length cs = nx * ny * nz /\
    map fst d = filter (fun l => negb (streqb l $"X" || streqb l $"Y" || streqb l $"Z")) (map fst data) /\
    forall i j k, i < nx -> j < ny -> k < nz ->
      (exists vs ax bx ay by_ az bz, nth_error cs (rank3 layer nx ny nz i j k) = Some vs /\ map (nth_error (points m)) vs = map Some (box ax bx ay by_ az bz) /\
        nth_error vx i = Some ax /\ nth_error vx (i + 1) = Some bx /\ nth_error vy j = Some ay /\ nth_error vy (j + 1) = Some by_ /\ nth_error vz k = Some az /\ nth_error vz (k + 1) = Some bz) /\
      exists e x y z, nth_error pts e = Some [x; y; z] /\ nth_error xs i = Some x /\ nth_error ys j = Some y /\ nth_error zs k = Some z /\
        Forall (fun kv => exists vals, In (fst kv, vals) data /\ nth_error (snd kv) (rank3 layer nx ny nz i j k) = nth_error vals e) d.
Proof.
  intros E G IX IY IZ NX NY LZ HL nx ny nz. assert (NZ : zs <> []) by (intros ->; discriminate).
  destruct (export_spec _ _ _ _ _ _ _ _ _ _ _ E G IX IY IZ NX NY NZ) as (vx & vy & vz & cs & VX & VY & VZ & CM & LC & MD & H).
  exists vx, vy, vz, cs. split; [exact VX|]. split; [exact VY|]. split; [exact VZ|]. split; [exact CM|]. split; [exact LC|]. split; [exact MD|].
  intros i j k I J K. destruct (H i j k I J K) as (B & e & x & y & z & PE & S & F). split; [exact B|]. exists e, x, y, z. split; [exact PE|].
  fold nx ny nz in S. rewrite (source_right layer nx ny nz i j k I J K LZ HL) in S. destruct S as (S1 & S2 & S3). auto.
Qed.

(** ** The points of the export *)
Lemma varies_iff l : l <> [] -> (negb (List.length (unique qleb l) =? 1) = true <-> varying l).
Proof.
  intros N. pose proof (unique_In qleb qleb_order) as UI. pose proof (unique_nodup qleb qleb_order l) as ND. rewrite negb_true_iff, Nat.eqb_neq. split.
  - intros L. destruct (unique qleb l) as [|a [|b r]] eqn:U; [| cbn in L; lia |].
    + destruct l as [|x l]; [congruence|]. exfalso. pose proof (proj2 (UI x (x :: l)) (or_introl eq_refl)) as I. rewrite U in I. destruct I.
    + exists a, b. split; [apply UI; rewrite U; now left|]. split; [apply UI; rewrite U; right; now left|].
      intros ->. inversion ND as [|? ? A]. apply A. now left.
  - intros (x & y & X & Y & D) L. apply UI in X, Y. destruct (unique qleb l) as [|a [|b r]]; cbn in *; try lia. destruct X as [<- | []], Y as [<- | []]. now apply D.
Qed.
Lemma get_points_spec n X Y Z : n <> 0 -> Forall (fun o => match o with Some l => List.length l = n | None => True end) [X; Y; Z] -> (X <> None \/ Y <> None \/ Z <> None) ->
  let C a := coordinate n (nth a [X; Y; Z] None) in
  exists pts axis, get_points n X Y Z = Ok (pts, axis) /\ List.length pts = n /\ StronglySorted lt axis /\
    ((exists a, a < 3 /\ varying (C a)) -> forall a, In a axis <-> a < 3 /\ varying (C a)) /\
    (~ (exists a, a < 3 /\ varying (C a)) -> axis = [0]) /\
    forall i p, nth_error pts i = Some p -> List.length p = 3 /\ forall a, a < 3 -> (In a axis -> nth_error p a = nth_error (C a) i) /\ (~ In a axis -> nth_error p a = Some (Q2Qc 0)).
Proof.
  intros N0 FL G C. unfold get_points. replace (match X with Some _ => true | None => match Y with Some _ => true | None => match Z with Some _ => true | None => false end end end) with true
    by (destruct X, Y, Z; try reflexivity; exfalso; destruct G as [G | [G | G]]; congruence).
  cbn [guard bind].
  set (ar := fun o => match o with Some l => l | None => repeat 0%Qc n end). set (varies := fun o => negb (List.length (unique qleb (ar o)) =? 1)).
  set (stack := fun x y z : list Qc => map (fun xyz : Qc * (Qc * Qc) => [fst xyz; fst (snd xyz); snd (snd xyz)]) (combine x (combine y z))).
  assert (LA : forall o, In o [X; Y; Z] -> List.length (ar o) = n).
  { rewrite Forall_forall in FL. intros o I. specialize (FL o I). unfold ar. destruct o; [exact FL|apply repeat_length]. }
  assert (V : forall o, In o [X; Y; Z] -> varies o = true <-> varying (coordinate n o)).
  { intros o I. unfold varies. change (coordinate n o) with (ar o). apply varies_iff. intros E. specialize (LA o I). rewrite E in LA. cbn in LA. congruence. }
  assert (C0 : C 0 = ar X) by reflexivity. assert (C1 : C 1 = ar Y) by reflexivity. assert (C2 : C 2 = ar Z) by reflexivity.
  assert (VX := V X (or_introl eq_refl)). assert (VY := V Y (or_intror (or_introl eq_refl))). assert (VZ := V Z (or_intror (or_intror (or_introl eq_refl)))).
  assert (LX := LA X (or_introl eq_refl)). assert (LY := LA Y (or_intror (or_introl eq_refl))). assert (LZ := LA Z (or_intror (or_intror (or_introl eq_refl)))).
  assert (L0 : List.length (repeat 0%Qc n) = n) by apply repeat_length.
  change (coordinate n X) with (C 0) in VX. change (coordinate n Y) with (C 1) in VY. change (coordinate n Z) with (C 2) in VZ.
  assert (SL : forall x y z, List.length x = n -> List.length y = n -> List.length z = n -> List.length (stack x y z) = n).
  { intros x y z A B D. unfold stack. rewrite map_length, !combine_length. lia. }
  assert (SN : forall (x y z : list Qc) i p, nth_error (stack x y z) i = Some p -> exists a b c, p = [a; b; c] /\ nth_error x i = Some a /\ nth_error y i = Some b /\ nth_error z i = Some c).
  { unfold stack. clear. induction x as [|a x IH]; intros [|b y] [|c z] [|i] p H; cbn in H; try discriminate.
    - injection H as <-. now exists a, b, c.
    - destruct (IH y z i p H) as (a' & b' & c' & ? & ? & ? & ?). now exists a', b', c'. }
  assert (Z0 : forall i v, nth_error (repeat 0%Qc n) i = Some v -> v = Q2Qc 0).
  { intros i v H. apply nth_error_In, repeat_spec in H. exact H. }
  assert (A3 : forall P : nat -> Prop, (forall a, a < 3 -> P a) <-> P 0 /\ P 1 /\ P 2).
  { intros P. split; [intros H; repeat split; apply H; lia|intros (P0 & P1 & P2) a A]. destruct a as [|[|[|a]]]; auto. lia. }
  assert (IN : forall axis, (exists a, a < 3 /\ varying (C a)) -> (In 0 axis <-> varies X = true) -> (In 1 axis <-> varies Y = true) -> (In 2 axis <-> varies Z = true) ->
    (forall a, In a axis -> a < 3) -> forall a, In a axis <-> a < 3 /\ varying (C a)).
  { intros axis _ I0 I1 I2 B a. split.
    - intros I. split; [auto|]. assert (a < 3) by auto. destruct a as [|[|[|a]]]; try lia; tauto.
    - intros (L & W). destruct a as [|[|[|a]]]; try lia; tauto. }
  assert (NV : (exists a, a < 3 /\ varying (C a)) <-> varies X = true \/ varies Y = true \/ varies Z = true).
  { split; [intros (a & L & W); destruct a as [|[|[|a]]]; try lia; tauto|]. intros [W | [W | W]]; [exists 0|exists 1|exists 2]; split; try lia; tauto. }
  assert (FIN : forall (x y z : list Qc) axis, List.length x = n -> List.length y = n -> List.length z = n -> StronglySorted lt axis ->
    ((exists a, a < 3 /\ varying (C a)) -> forall a, In a axis <-> a < 3 /\ varying (C a)) -> (~ (exists a, a < 3 /\ varying (C a)) -> axis = [0]) ->
    (In 0 axis -> x = ar X) -> (~ In 0 axis -> x = repeat 0%Qc n) -> (In 1 axis -> y = ar Y) -> (~ In 1 axis -> y = repeat 0%Qc n) -> (In 2 axis -> z = ar Z) -> (~ In 2 axis -> z = repeat 0%Qc n) ->
    exists pts axis', Ok (stack x y z, axis) = Ok (pts, axis') /\ List.length pts = n /\ StronglySorted lt axis' /\
    ((exists a, a < 3 /\ varying (C a)) -> forall a, In a axis' <-> a < 3 /\ varying (C a)) /\
    (~ (exists a, a < 3 /\ varying (C a)) -> axis' = [0]) /\
    forall i p, nth_error pts i = Some p -> List.length p = 3 /\ forall a, a < 3 -> (In a axis' -> nth_error p a = nth_error (C a) i) /\ (~ In a axis' -> nth_error p a = Some (Q2Qc 0))).
  { intros x y z axis A B D SS H1 H2 X1 X2 Y1 Y2 Z1 Z2. exists (stack x y z), axis. split; [reflexivity|]. split; [now apply SL|]. split; [exact SS|]. split; [exact H1|]. split; [exact H2|].
    intros i p P. destruct (SN _ _ _ _ _ P) as (a & b & c & -> & PA & PB & PC). split; [reflexivity|]. apply A3. rewrite C0, C1, C2. cbn [nth_error]. repeat split; intros I.
    - now rewrite <- (X1 I). 
    - rewrite (X2 I) in PA. f_equal. eapply Z0, PA.
    - now rewrite <- (Y1 I). 
    - rewrite (Y2 I) in PB. f_equal. eapply Z0, PB.
    - now rewrite <- (Z1 I). 
    - rewrite (Z2 I) in PC. f_equal. eapply Z0, PC. }
  cbv zeta beta. change (match X with Some l => l | None => repeat 0%Qc n end) with (ar X). change (match Y with Some l => l | None => repeat 0%Qc n end) with (ar Y).
  change (match Z with Some l => l | None => repeat 0%Qc n end) with (ar Z). change (negb (List.length (unique qleb (ar X)) =? 1)) with (varies X).
  change (negb (List.length (unique qleb (ar Y)) =? 1)) with (varies Y). change (negb (List.length (unique qleb (ar Z)) =? 1)) with (varies Z).
  destruct (varies X) eqn:EX, (varies Y) eqn:EY, (varies Z) eqn:EZ; cbn [app];
    (apply FIN; auto; first
      [ solve [repeat constructor]
      | solve [intros W; exfalso; apply NV in W; destruct W as [W | [W | W]]; discriminate]
      | solve [intros W; exfalso; apply W, NV; tauto]
      | solve [intros W; apply IN; auto; cbn; intuition (congruence || lia)]
      | solve [cbn; intuition (congruence || lia)] ]).
Qed.
Lemma get_points_none n : get_points n None None None = Err ValueError.
Proof. reflexivity. Qed.
