(** Centres, nearest cells, boxes and interpolation. *)
From Coq Require Import String Ascii Arith ZArith QArith Qcanon Lqa Bool Lia Sorted List.
From Verif Require Import Base.Str Model.Py Model.Numpy Model.Mesh Model.MeshOps Model.Grid Model.Geometry Spec.Geometry
  Proofs.NumpyProof Proofs.ConnectProof Proofs.MaterialProof Proofs.ReorderProof Proofs.ExtrudeProof Proofs.PruneProof Proofs.GridProof Proofs.VoxelProof Proofs.VolumeProof.
Import ListNotations.
Local Open Scope nat_scope.

(** ** Means and centres *)
Lemma qsum_adds l : adds_up l (qsum l).
Proof. induction l as [|x l IH]; cbn [qsum fold_right]; constructor. exact IH. Qed.
Lemma adds_unique l s : adds_up l s -> s = qsum l.
Proof. induction 1 as [|x l s A IH]; [reflexivity|]. cbn [qsum fold_right]. unfold qsum in IH. now rewrite IH. Qed.
Lemma qnat_positive n : n <> 0 -> (0 < qnat n)%Qc.
Proof.
  intros N. unfold qnat, Qclt. cbn [this Q2Qc]. rewrite !Qred_correct. change 0%Q with (inject_Z 0). rewrite <- Zlt_Qlt. lia.
Qed.
Lemma qnat_nonzero n : n <> 0 -> qnat n <> 0%Qc.
Proof. intros N E. pose proof (qnat_positive n N) as P. rewrite E in P. discriminate. Qed.
Lemma qmean_spec l x : qmean l = Ok x -> mean_of l x.
Proof.
  unfold qmean. destruct (List.length l =? 0) eqn:L; [discriminate|]. cbn [negb guard bind]. intros E. injection E as <-. apply Nat.eqb_neq in L.
  split; [intros ->; contradiction|]. replace (rational (List.length l) * _)%Qc with (qsum l); [apply qsum_adds|].
  change (rational (List.length l)) with (qnat (List.length l)). field. now apply qnat_nonzero.
Qed.
Lemma mesh_cells_typed bs : mesh_cells bs = map snd (typed_cells bs).
Proof.
  unfold mesh_cells, typed_cells. induction bs as [|b bs IH]; [reflexivity|]. cbn [map concat flat_map]. rewrite map_app, map_map. cbn [snd]. rewrite map_id. now rewrite IH.
Qed.
Lemma F2_compose {A B C} (P : A -> B -> Prop) (R : B -> C -> Prop) l k h : Forall2 P l k -> Forall2 R k h -> Forall2 (fun a c => exists b, P a b /\ R b c) l h.
Proof.
  intros F. revert h. induction F as [|a b l k p F IH]; intros h G; inversion G; subst; constructor; [eexists; split; eassumption|auto].
Qed.
Lemma center_spec d points cell c : center d points cell = Ok c -> centre_of d points cell c.
Proof.
  unfold center. destruct (take points cell) as [ps|] eqn:T; [|discriminate]. cbn [bind]. intros E. apply mapM_F2 in E. split.
  - rewrite <- (Forall2_length _ _ _ E). apply seq_length.
  - intros a x N. assert (R : exists col, column a ps = Ok col /\ qmean col = Ok x).
    { assert (La : a < d) by (rewrite <- (seq_length d 0), (Forall2_length _ _ _ E); apply nth_error_Some; congruence).
      destruct (Forall2_nth_r _ _ _ _ _ E N) as (a' & Na & R). rewrite seq_nth_error in Na by exact La. injection Na as <-. cbn [Nat.add] in R. destruct (column a ps) as [col|]; [|discriminate].
      exists col. split; [reflexivity|exact R]. }
    destruct R as (col & Cc & M). exists col. split; [|now apply qmean_spec]. unfold take in T. apply mapM_F2 in T. unfold column in Cc. apply mapM_F2 in Cc.
    eapply Forall2_impl; [|exact (F2_compose _ _ _ _ _ T Cc)]. cbn beta. intros n v (p & P & Q). exists p. unfold item in P, Q.
    destruct (nth_error points n); [|discriminate]. injection P as ->. destruct (nth_error p a); [|discriminate]. injection Q as ->. split; reflexivity.
Qed.
Lemma centers_spec {V} (m : mesh Qc V) cs : centers m = Ok cs -> Forall2 (fun tc c => centre_of (dim m) (points m) (snd tc) c) (typed_cells (cells m)) cs.
Proof.
  unfold centers. destruct (guard _ _); [|discriminate]. cbn [bind]. intros E. apply mapM_F2 in E. rewrite mesh_cells_typed in E.
  revert E. generalize (typed_cells (cells m)). intros l. revert cs. induction l as [|tc l IH]; intros cs E; inversion E; subst; constructor; [now apply center_spec|now apply IH].
Qed.
Lemma center_total d (points : list (list Qc)) cell : (forall p, In p points -> List.length p = d) -> cell <> [] -> (forall n, In n cell -> n < List.length points) ->
  exists c, center d points cell = Ok c.
Proof.
  intros D N B. unfold center. destruct (take_total points cell) as (ps & T); [now apply Forall_forall|]. rewrite T. cbn [bind]. apply mapM_total. intros a I. apply in_seq in I.
  assert (Cc : exists col, column a ps = Ok col).
  { unfold column. apply mapM_total. intros p P. unfold take in T. destruct (mapM_In _ _ _ _ T P) as (n & _ & E). unfold item in E |- *. destruct (nth_error points n) eqn:Np; [|discriminate].
    injection E as ->. destruct (nth_error p a) eqn:Na; [eauto|]. apply nth_error_None in Na. rewrite (D p (nth_error_In _ _ Np)) in Na. lia. }
  destruct Cc as (col & Cc). rewrite Cc. cbn [bind]. unfold qmean. unfold column in Cc. apply mapM_F2, Forall2_length in Cc. unfold take in T. apply mapM_F2, Forall2_length in T.
  assert (L : (List.length col =? 0) = false) by (apply Nat.eqb_neq; destruct cell; [contradiction|cbn in T; lia]). rewrite L. cbn [negb guard bind]. eauto.
Qed.
Lemma centers_total {V} (m : mesh Qc V) : cells m <> [] -> sound (dim m) (points m) (cells m) -> exists cs, centers m = Ok cs.
Proof.
  intros N (D & B). unfold centers. destruct (List.length (cells m) =? 0) eqn:L; [apply Nat.eqb_eq in L; destruct (cells m); [contradiction|discriminate]|]. cbn [negb guard bind].
  apply mapM_total. intros c I. rewrite mesh_cells_typed in I. apply in_map_iff in I as (tc & <- & I). destruct (B tc I) as (NE & Bn). now apply center_total.
Qed.
(** The centre is unique. *)
Lemma centre_unique d points cell c c' : centre_of d points cell c -> centre_of d points cell c' -> c = c'.
Proof.
  intros (L & H) (L' & H'). apply nth_error_ext. intros a. destruct (nth_error c a) as [x|] eqn:N.
  - destruct (nth_error c' a) as [x'|] eqn:N'; [|apply nth_error_None in N'; assert (a < List.length c) by (apply nth_error_Some; congruence); lia].
    destruct (H a x N) as (col & F & NE & A). destruct (H' a x' N') as (col' & F' & _ & A'). assert (col = col').
    { clear -F F'. revert col' F'. induction F as [|n v cell col (p & P & Q) F IH]; intros col' F'; inversion F' as [|? v' ? col'' (p' & P' & Q') F'']; subst; [reflexivity|].
      f_equal; [congruence|now apply IH]. }
    subst col'. apply adds_unique in A, A'. f_equal. rewrite <- A' in A. assert (R : rational (List.length col) <> 0%Qc) by (apply (qnat_nonzero (List.length col)); destruct col; [contradiction|discriminate]).
    apply (f_equal (fun y => y / rational (List.length col))%Qc) in A. replace x with (rational (List.length col) * x / rational (List.length col))%Qc by (field; exact R).
    rewrite A. field. exact R.
  - symmetry. apply nth_error_None. apply nth_error_None in N. lia.
Qed.

(** ** near *)
Lemma distance_spec p c : List.length p = List.length c -> dist2 p c (distance p c).
Proof.
  revert c. induction p as [|x p IH]; intros [|y c] L; try discriminate; [constructor|]. unfold distance. cbn [combine map qsum fold_right fst snd].
  replace ((y - x) * (y - x))%Qc with ((x - y) * (x - y))%Qc by ring. constructor. apply IH. now injection L.
Qed.
Lemma dist_unique p c s : dist2 p c s -> s = distance p c.
Proof. induction 1 as [|x y p q s D IH]; [reflexivity|]. unfold distance. cbn [combine map qsum fold_right fst snd]. rewrite IH. unfold distance, qsum. ring. Qed.
Lemma argmin_from_spec l : forall best v i pre, nth_error (pre ++ l) best = Some v -> List.length pre = i -> best < i ->
  (forall j w, j < i -> nth_error (pre ++ l) j = Some w -> (v <= w)%Qc /\ (j < best -> (v < w)%Qc)) ->
  exists x, nth_error (pre ++ l) (argmin_from best v i l) = Some x /\
    forall j w, nth_error (pre ++ l) j = Some w -> (x <= w)%Qc /\ (j < argmin_from best v i l -> (x < w)%Qc).
Proof.
  induction l as [|a l IH]; intros best v i pre Nb Lp Lb H.
  - cbn [argmin_from]. exists v. split; [exact Nb|]. intros j w N. apply H; [|exact N]. rewrite app_nil_r in N. rewrite <- Lp. apply nth_error_Some. congruence.
  - cbn [argmin_from]. assert (Na : nth_error (pre ++ a :: l) i = Some a) by (rewrite nth_error_app2 by lia; replace (i - List.length pre) with 0 by lia; reflexivity).
    replace (pre ++ a :: l) with ((pre ++ [a]) ++ l) in * by (rewrite <- app_assoc; reflexivity). destruct (qleb v a) eqn:Q.
    + apply qleb_le in Q. apply IH; [exact Nb|rewrite app_length; cbn; lia|lia|]. intros j w Lj N. destruct (Nat.eq_dec j i) as [-> | Nj]; [|apply H; [lia|exact N]].
      rewrite Na in N. injection N as <-. split; [exact Q|lia].
    + apply qleb_false in Q. apply IH; [exact Na|rewrite app_length; cbn; lia|lia|]. intros j w Lj N. destruct (Nat.eq_dec j i) as [-> | Nj].
      * rewrite Na in N. injection N as <-. split; [apply Qcle_refl|lia].
      * destruct (H j w ltac:(lia) N) as (P & _). assert (S : (a < w)%Qc) by (eapply Qclt_le_trans; eassumption). split; [now apply Qclt_le_weak|intros _; exact S].
Qed.
Lemma argmin_spec l i : argmin l = Ok i -> exists x, nth_error l i = Some x /\ forall j w, nth_error l j = Some w -> (x <= w)%Qc /\ (j < i -> (x < w)%Qc).
Proof.
  destruct l as [|x l]; [discriminate|]. cbn [argmin]. intros E. injection E as <-. apply (argmin_from_spec l 0 x 1 [x]); [reflexivity|reflexivity|lia|].
  intros j w Lj N. assert (j = 0) by lia. subst j. injection N as <-. split; [apply Qcle_refl|lia].
Qed.
Theorem near_spec {V} (m : mesh Qc V) queries is : near m queries = Ok is ->
  Forall2 (fun q i => exists tc c s, nth_error (typed_cells (cells m)) i = Some tc /\ centre_of (dim m) (points m) (snd tc) c /\ dist2 q c s /\
    forall j tc' c' s', nth_error (typed_cells (cells m)) j = Some tc' -> centre_of (dim m) (points m) (snd tc') c' -> dist2 q c' s' ->
      (s <= s')%Qc /\ (j < i -> (s < s')%Qc)) queries is.
Proof.
  unfold near. destruct (forallb _ queries) eqn:G; [|discriminate]. cbn [guard bind]. destruct (centers m) as [cs|] eqn:Ec; [|discriminate]. cbn [bind]. intros E. apply mapM_F2 in E.
  pose proof (centers_spec m cs Ec) as F. rewrite forallb_forall in G. revert G. induction E as [|q i qs is R E IH]; intros G; constructor.
  - specialize (G q (or_introl eq_refl)). apply Nat.eqb_eq in G. destruct (argmin_spec _ _ R) as (s & N & H). rewrite nth_error_map in N. destruct (nth_error cs i) as [c|] eqn:Nc; [|discriminate].
    injection N as <-. destruct (Forall2_nth_r _ _ _ _ _ F Nc) as (tc & Nt & C). exists tc, c, (distance q c). split; [exact Nt|]. split; [exact C|]. split; [apply distance_spec; rewrite G; symmetry; apply C|].
    intros j tc' c' s' Nj C' D. assert (L : j < List.length cs). { rewrite <- (Forall2_length _ _ _ F). apply nth_error_Some. congruence. }
    destruct (nth_error cs j) as [c''|] eqn:Ncj; [|apply nth_error_None in Ncj; lia]. destruct (Forall2_nth_r _ _ _ _ _ F Ncj) as (tc'' & Nt' & C''). rewrite Nj in Nt'. injection Nt' as <-.
    rewrite (centre_unique _ _ _ _ _ C'' C') in Ncj. rewrite (dist_unique _ _ _ D). apply (H j). rewrite nth_error_map, Ncj. reflexivity.
  - apply IH. intros x I. apply G. now right.
Qed.
Theorem near_total {V} (m : mesh Qc V) queries : typed_cells (cells m) <> [] -> sound (dim m) (points m) (cells m) -> (forall q, In q queries -> List.length q = dim m) ->
  exists is, near m queries = Ok is.
Proof.
  intros N S Q. unfold near. assert (G : forallb (fun p => List.length p =? dim m) queries = true) by (apply forallb_forall; intros q I; apply Nat.eqb_eq; auto). rewrite G. cbn [guard bind].
  destruct (centers_total m) as (cs & E); [intros H; rewrite H in N; apply N; reflexivity|exact S|]. rewrite E. cbn [bind]. apply mapM_total. intros q I.
  pose proof (Forall2_length _ _ _ (centers_spec m cs E)) as L. destruct cs as [|c cs]; [destruct (typed_cells (cells m)); [contradiction|discriminate]|]. cbn [map argmin]. eauto.
Qed.

(** ** The box filter *)
Lemma interval x0 dx x : dx <> Some 0%Qc -> (dx <> None -> x0 <> None) -> ge_bound x (lower x0) && le_bound x (upper x0 dx) = true <-> within x0 dx x.
Proof.
  intros Z N. unfold within. destruct x0 as [a|]; cbn [lower ge_bound]; destruct dx as [d|]; cbn [upper].
  - assert (Zd : Qc_eq_bool d 0 = false). { destruct (Qc_eq_bool d 0) eqn:Q; [|reflexivity]. exfalso. apply Z. f_equal. now apply Qc_eq_bool_correct. }
    rewrite Zd. cbn [le_bound]. rewrite andb_true_iff, !qleb_le. split.
    + intros (A & B). split; [intros a' E; injection E as <-; exact A|intros a' d' E E'; injection E as <-; injection E' as <-; exact B].
    + intros (A & B). split; [now apply A|now apply B].
  - cbn [le_bound]. rewrite andb_true_r, qleb_le. split; [intros A; split; [intros a' E; injection E as <-; exact A|discriminate]|intros (A & _); now apply A].
  - exfalso. apply N; [discriminate|reflexivity].
  - cbn [le_bound andb]. split; [intros _; split; discriminate|reflexivity].
Qed.
Lemma indices_from (mask : list bool) k i : In i (map fst (filter snd (combine (seq k (List.length mask)) mask))) <-> k <= i /\ nth_error mask (i - k) = Some true.
Proof.
  revert k. induction mask as [|b mask IH]; intros k; cbn [List.length seq combine filter].
  - split; [intros []|intros (_ & N); destruct (i - k); discriminate].
  - destruct b; cbn [snd map fst In]; rewrite IH; split.
    + intros [<- | (L & N)]; [rewrite Nat.sub_diag; split; [lia|reflexivity]|]. split; [lia|]. replace (i - k) with (S (i - S k)) by lia. exact N.
    + intros (L & N). destruct (Nat.eq_dec k i) as [-> | D]; [now left|right]. split; [lia|]. replace (i - k) with (S (i - S k)) in N by lia. exact N.
    + intros (L & N). split; [lia|]. replace (i - k) with (S (i - S k)) by lia. exact N.
    + intros (L & N). destruct (Nat.eq_dec k i) as [-> | D]; [rewrite Nat.sub_diag in N; discriminate|]. split; [lia|]. replace (i - k) with (S (i - S k)) in N by lia. exact N.
Qed.
Lemma indices_sorted (mask : list bool) k : StronglySorted lt (map fst (filter snd (combine (seq k (List.length mask)) mask))).
Proof.
  revert k. induction mask as [|b mask IH]; intros k; cbn [List.length seq combine filter]; [constructor|]. destruct b; cbn [snd map fst]; [|apply IH].
  constructor; [apply IH|]. apply Forall_forall. intros i I. apply indices_from in I. lia.
Qed.
Theorem box_spec {V} (m : mesh Qc V) x0 y0 z0 dx dy dz is : box_filter m x0 y0 z0 dx dy dz = Ok is ->
  dx <> Some 0%Qc -> dy <> Some 0%Qc -> dz <> Some 0%Qc -> (dx <> None -> x0 <> None) -> (dy <> None -> y0 <> None) -> (dz <> None -> z0 <> None) ->
  StronglySorted lt is /\
  forall i, In i is <-> exists tc x y z, nth_error (typed_cells (cells m)) i = Some tc /\ centre_of (dim m) (points m) (snd tc) [x; y; z] /\
    within x0 dx x /\ within y0 dy y /\ within z0 dz z.
Proof.
  intros E X Y Z X' Y' Z'. unfold box_filter in E. destruct (centers m) as [cs|] eqn:Ec; [|discriminate]. cbn [bind] in E. destruct (mapM _ cs) as [mask|] eqn:M; [|discriminate]. cbn [bind] in E.
  injection E as <-. pose proof (centers_spec m cs Ec) as F. apply mapM_F2 in M. split; [apply indices_sorted|]. intros i. rewrite indices_from, Nat.sub_0_r. split.
  - intros (_ & N). destruct (Forall2_nth_r _ _ _ _ _ M N) as (c & Nc & B). destruct (Forall2_nth_r _ _ _ _ _ F Nc) as (tc & Nt & C). unfold in_box in B.
    destruct c as [|x [|y [|z [|]]]]; try discriminate. injection B as B. apply andb_true_iff in B as (B & Bz). apply andb_true_iff in B as (Bx & By).
    exists tc, x, y, z. split; [exact Nt|]. split; [exact C|]. split; [now apply interval|]. split; now apply interval.
  - intros (tc & x & y & z & Nt & C & Wx & Wy & Wz). split; [lia|]. assert (L : i < List.length mask). { rewrite <- (Forall2_length _ _ _ M), <- (Forall2_length _ _ _ F). apply nth_error_Some. congruence. }
    destruct (nth_error mask i) as [b|] eqn:N; [|apply nth_error_None in N; lia]. f_equal. destruct (Forall2_nth_r _ _ _ _ _ M N) as (c & Nc & B). destruct (Forall2_nth_r _ _ _ _ _ F Nc) as (tc' & Nt' & C').
    rewrite Nt in Nt'. injection Nt' as <-. rewrite (centre_unique _ _ _ _ _ C' C) in B. cbn [in_box] in B. injection B as <-.
    apply (proj2 (interval x0 dx x X X')) in Wx. apply (proj2 (interval y0 dy y Y Y')) in Wy. apply (proj2 (interval z0 dz z Z Z')) in Wz. now rewrite Wx, Wy, Wz.
Qed.
Theorem box_total {V} (m : mesh Qc V) x0 y0 z0 dx dy dz : dim m = 3 -> cells m <> [] -> sound 3 (points m) (cells m) -> exists is, box_filter m x0 y0 z0 dx dy dz = Ok is.
Proof.
  intros D N S. unfold box_filter. destruct (centers_total m N) as (cs & E); [now rewrite D|]. rewrite E. cbn [bind].
  destruct (mapM_total (in_box x0 y0 z0 dx dy dz) cs) as (mask & M); [|rewrite M; cbn [bind]; eauto]. intros c I. apply In_nth_error in I as (i & I).
  destruct (Forall2_nth_r _ _ _ _ _ (centers_spec m cs E) I) as (tc & _ & (L & _)). rewrite D in L. destruct c as [|x [|y [|z [|]]]]; try discriminate. eexists. reflexivity.
Qed.

(** ** Interpolation *)
Lemma value_put {B} k (x : B) d j : value j (put k x d) = if streqb j k then Some x else value j d.
Proof.
  induction d as [|(k', y) d IH]; cbn [put value]; [reflexivity|]. destruct (streqb k k') eqn:E; cbn [value].
  - apply streqb_eq in E. subst k'. destruct (streqb j k); reflexivity.
  - rewrite IH. destruct (streqb j k') eqn:E'; [|reflexivity]. apply streqb_eq in E'. subst k'. destruct (streqb j k) eqn:E2; [|reflexivity]. apply streqb_eq in E2. subst k. now rewrite streqb_refl in E.
Qed.
Lemma value_update_absent {B} (e : list (str * B)) : forall d j, ~ In j (map fst e) -> value j (update d e) = value j d.
Proof.
  unfold update. induction e as [|(k, x) e IH]; intros d j N; [reflexivity|]. cbn [fold_left fst snd]. rewrite IH by (intros I; apply N; now right). rewrite value_put.
  destruct (streqb j k) eqn:E; [|reflexivity]. apply streqb_eq in E. subst k. exfalso. apply N. now left.
Qed.
Lemma value_update {B} (e : list (str * B)) : forall d j x, NoDup (map fst e) -> In (j, x) e -> value j (update d e) = Some x.
Proof.
  induction e as [|(k, y) e IH]; intros d j x N I; [destruct I|]. cbn [map fst] in N. apply NoDup_cons_iff in N as (N1 & N2). destruct I as [E | I].
  - injection E as -> ->. unfold update. cbn [fold_left fst snd]. fold (update (put j x d) e). rewrite value_update_absent by exact N1. rewrite value_put. now rewrite streqb_refl.
  - unfold update. cbn [fold_left fst snd]. fold (update (put k y d) e). now apply IH.
Qed.
Lemma weighted_bounds vs : forall ws lo hi, List.length vs = List.length ws -> Forall (fun w => 0 <= w)%Qc ws -> Forall (fun v => lo <= v /\ v <= hi)%Qc vs ->
  (lo * qsum ws <= qsum (map (fun vw => fst vw * snd vw)%Qc (combine vs ws)))%Qc /\ (qsum (map (fun vw => fst vw * snd vw)%Qc (combine vs ws)) <= hi * qsum ws)%Qc.
Proof.
  induction vs as [|v vs IH]; intros [|w ws] lo hi L P B; try discriminate.
  - cbn [combine map qsum fold_right]. split; [replace (lo * 0)%Qc with 0%Qc by ring|replace (hi * 0)%Qc with 0%Qc by ring]; apply Qcle_refl.
  - inversion P as [|? ? Pw Pws]; subst. inversion B as [|? ? (Bl & Bh) Bvs]; subst. destruct (IH ws lo hi ltac:(now injection L) Pws Bvs) as (H1 & H2).
    cbn [combine map qsum fold_right fst snd]. fold (qsum ws). fold (qsum (map (fun vw => fst vw * snd vw)%Qc (combine vs ws))).
    split; [replace (lo * (w + qsum ws))%Qc with (lo * w + lo * qsum ws)%Qc by ring|replace (hi * (w + qsum ws))%Qc with (hi * w + hi * qsum ws)%Qc by ring];
      apply Qcplus_le_compat; try assumption; apply Qcmult_le_compat_r; assumption.
Qed.
Lemma divide_bounds a b w : (0 < w)%Qc -> (a * w <= b)%Qc -> (a <= b / w)%Qc.
Proof.
  intros P H. apply Qcmult_lt_0_le_reg_r with w; [exact P|]. replace (b / w * w)%Qc with b; [exact H|]. field. intros ->. discriminate.
Qed.
Lemma divide_bounds' a b w : (0 < w)%Qc -> (b <= a * w)%Qc -> (b / w <= a)%Qc.
Proof.
  intros P H. apply Qcmult_lt_0_le_reg_r with w; [exact P|]. replace (b / w * w)%Qc with b; [exact H|]. field. intros ->. discriminate.
Qed.
Lemma average_bounds vs ws v (P : Qc -> Prop) : average vs ws = Ok v -> Forall (fun w => 0 <= w)%Qc ws -> (forall x, In x vs -> P x) -> between P v.
Proof.
  unfold average. destruct (List.length vs =? List.length ws) eqn:L; [|discriminate]. cbn [guard bind]. destruct (Qc_eq_bool (qsum ws) 0) eqn:Z; [discriminate|]. cbn [negb guard bind].
  intros E. injection E as <-. intros W H lo hi B. apply Nat.eqb_eq in L. assert (S : (0 < qsum ws)%Qc).
  { destruct (Qcle_lt_or_eq _ _ (qsum_nonneg ws W)) as [|E]; [assumption|]. rewrite <- E in Z. discriminate. }
  destruct (weighted_bounds vs ws lo hi L W) as (H1 & H2); [apply Forall_forall; intros x I; apply B; now apply H|]. split; [now apply divide_bounds|now apply divide_bounds'].
Qed.
Lemma qmean_bounds l v (P : Qc -> Prop) : qmean l = Ok v -> (forall x, In x l -> P x) -> between P v.
Proof.
  unfold qmean. destruct (List.length l =? 0) eqn:L; [discriminate|]. cbn [negb guard bind]. intros E. injection E as <-. intros H lo hi B. apply Nat.eqb_neq in L.
  pose proof (qnat_positive _ L) as S. assert (G : (lo * qnat (List.length l) <= qsum l)%Qc /\ (qsum l <= hi * qnat (List.length l))%Qc).
  { assert (Hb : forall x, In x l -> (lo <= x)%Qc /\ (x <= hi)%Qc) by (intros x I; apply B; now apply H). clear -Hb. induction l as [|x l IH].
    - cbn [qsum fold_right List.length]. change (qnat 0) with 0%Qc. split; [replace (lo * 0)%Qc with 0%Qc by ring|replace (hi * 0)%Qc with 0%Qc by ring]; apply Qcle_refl.
    - cbn [qsum fold_right List.length]. fold (qsum l). destruct IH as (H1 & H2); [intros y I; apply Hb; now right|]. destruct (Hb x (or_introl eq_refl)) as (B1 & B2).
      assert (S : qnat (S (List.length l)) = (1 + qnat (List.length l))%Qc).
      { unfold qnat. rewrite Nat2Z.inj_succ. apply Qc_is_canon. unfold Qcplus. cbn [this Q2Qc]. rewrite !Qred_correct. rewrite <- Z.add_1_l, inject_Z_plus. reflexivity. }
      rewrite S. split; [replace (lo * (1 + qnat (List.length l)))%Qc with (lo + lo * qnat (List.length l))%Qc by ring|replace (hi * (1 + qnat (List.length l)))%Qc with (hi + hi * qnat (List.length l))%Qc by ring];
        apply Qcplus_le_compat; assumption. }
  split; [now apply divide_bounds|now apply divide_bounds'].
Qed.
Lemma around_from cs : forall k i p, In i (flat_map (fun ic : nat * list nat => map (fun _ => fst ic) (filter (Nat.eqb p) (snd ic))) (combine (seq k (List.length cs)) cs)) <->
  k <= i /\ exists c, nth_error cs (i - k) = Some c /\ In p c.
Proof.
  induction cs as [|c cs IH]; intros k i p; cbn [List.length seq combine flat_map].
  - split; [intros []|intros (_ & c & N & _); destruct (i - k); discriminate].
  - rewrite in_app_iff, IH. cbn [fst snd]. split.
    + intros [I | (L & c' & N & P)].
      * apply in_map_iff in I as (q & <- & I). apply filter_In in I as (I & Q). apply Nat.eqb_eq in Q. subst q. split; [lia|]. exists c. rewrite Nat.sub_diag. split; [reflexivity|exact I].
      * split; [lia|]. exists c'. replace (i - k) with (S (i - S k)) by lia. split; [exact N|exact P].
    + intros (L & c' & N & P). destruct (Nat.eq_dec k i) as [-> | D].
      * left. rewrite Nat.sub_diag in N. injection N as ->. apply in_map_iff. exists p. split; [reflexivity|]. apply filter_In. split; [exact P|apply Nat.eqb_refl].
      * right. split; [lia|]. exists c'. replace (i - k) with (S (i - S k)) in N by lia. split; [exact N|exact P].
Qed.
Lemma around_In bs i p : In i (around (mesh_cells bs) p) <-> exists tc, nth_error (typed_cells bs) i = Some tc /\ In p (snd tc).
Proof.
  unfold around. rewrite around_from, Nat.sub_0_r, mesh_cells_typed. split.
  - intros (_ & c & N & P). rewrite nth_error_map in N. destruct (nth_error (typed_cells bs) i) as [tc|]; [|discriminate]. injection N as <-. exists tc. split; [reflexivity|exact P].
  - intros (tc & N & P). split; [lia|]. exists (snd tc). rewrite nth_error_map, N. split; [reflexivity|exact P].
Qed.
Lemma take_In {A} (l : list A) is xs x : take l is = Ok xs -> In x xs -> exists i, In i is /\ nth_error l i = Some x.
Proof.
  unfold take. intros T I. destruct (mapM_In _ _ _ _ T I) as (i & Ii & E). exists i. split; [exact Ii|]. unfold item in E. destruct (nth_error l i); [|discriminate]. now injection E as ->.
Qed.
Lemma interpolated_keys {A} (f : list A -> res (list A)) (d : list (str * list A)) e :
  mapM (fun kv => let* out := f (snd kv) in Ok (fst kv, out)) d = Ok e -> map fst e = map fst d /\ forall k v, In (k, v) d -> exists out, In (k, out) e /\ f v = Ok out.
Proof.
  revert e. induction d as [|(k, v) d IH]; intros e E; cbn [mapM fst snd] in E.
  - injection E as <-. split; [reflexivity|intros ? ? []].
  - destruct (f v) as [out|] eqn:Fv; [|discriminate]. cbn [bind] in E. destruct (mapM _ d) as [e'|]; [|discriminate]. injection E as <-. destruct (IH e' eq_refl) as (K & H). cbn [map fst]. split; [now rewrite K|].
    intros k' v' [I | I]; [injection I as <- <-; exists out; split; [now left|exact Fv]|]. destruct (H k' v' I) as (o & Io & Ev). exists o. split; [now right|exact Ev].
Qed.
Theorem to_points (m m' : mesh Qc Qc) : cell_data_to_point_data m = Ok m' -> NoDup (map fst (cell_data m)) ->
  points m' = points m /\ cells m' = cells m /\ cell_data m' = [] /\
  (forall k, ~ In k (map fst (cell_data m)) -> value k (point_data m') = value k (point_data m)) /\
  forall k vals, In (k, vals) (cell_data m) -> exists out, value k (point_data m') = Some out /\ List.length out = List.length (points m) /\
    forall p v, nth_error out p = Some v -> between (cell_values (cells m) vals p) v.
Proof.
  unfold cell_data_to_point_data. destruct (volumes m) as [vol|] eqn:Ev; [|discriminate]. cbn [bind]. destruct (forallb _ _); [|discriminate]. cbn [guard bind].
  destruct (mapM _ (cell_data m)) as [data|] eqn:Ed; [|discriminate]. intros E N. injection E as <-. cbn [points cells cell_data point_data].
  apply (interpolated_keys (fun v => mapM (fun p => let* vs := take v (around (mesh_cells (cells m)) p) in let* ws := take vol (around (mesh_cells (cells m)) p) in average vs ws)
    (seq 0 (List.length (points m))))) in Ed. destruct Ed as (K & H). split; [reflexivity|]. split; [reflexivity|]. split; [reflexivity|]. split.
  - intros k A. apply value_update_absent. now rewrite K.
  - intros k vals I. destruct (H k vals I) as (out & Io & Eo). exists out. split; [apply value_update; [now rewrite K|exact Io]|]. apply mapM_F2 in Eo. split; [rewrite <- (Forall2_length _ _ _ Eo); apply seq_length|].
    intros p v Np. destruct (Forall2_nth_r _ _ _ _ _ Eo Np) as (p' & Ns & R). assert (Lp : p < List.length (points m)) by (rewrite <- (seq_length (List.length (points m)) 0); apply nth_error_Some; congruence).
    rewrite seq_nth_error in Ns by exact Lp. injection Ns as <-. cbn [Nat.add] in R. destruct (take vals _) as [vs|] eqn:T1; [|discriminate]. cbn [bind] in R. destruct (take vol _) as [ws|] eqn:T2; [|discriminate].
    cbn [bind] in R. apply (average_bounds _ _ _ _ R).
    + apply Forall_forall. intros w Iw. destruct (take_In _ _ _ _ T2 Iw) as (i & _ & Ni). destruct (volumes_nonneg m vol Ev) as (_ & F). rewrite Forall_forall in F. apply F. exact (nth_error_In _ _ Ni).
    + intros x Ix. destruct (take_In _ _ _ _ T1 Ix) as (i & Ii & Ni). apply around_In in Ii as (tc & Nt & Ip). exists i, tc. split; [exact Nt|]. split; [exact Ip|exact Ni].
Qed.
Theorem to_cells (m m' : mesh Qc Qc) : point_data_to_cell_data m = Ok m' -> NoDup (map fst (point_data m)) ->
  points m' = points m /\ cells m' = cells m /\ point_data m' = [] /\
  (forall k, ~ In k (map fst (point_data m)) -> value k (cell_data m') = value k (cell_data m)) /\
  forall k vals, In (k, vals) (point_data m) -> exists out, value k (cell_data m') = Some out /\ List.length out = List.length (typed_cells (cells m)) /\
    forall i v tc, nth_error out i = Some v -> nth_error (typed_cells (cells m)) i = Some tc -> between (node_values (snd tc) vals) v.
Proof.
  unfold point_data_to_cell_data. destruct (mapM _ (point_data m)) as [data|] eqn:Ed; [|discriminate]. cbn [bind]. intros E N. injection E as <-. cbn [points cells cell_data point_data].
  apply (interpolated_keys (fun v => mapM (fun c => let* vs := take v c in qmean vs) (mesh_cells (cells m)))) in Ed. destruct Ed as (K & H).
  split; [reflexivity|]. split; [reflexivity|]. split; [reflexivity|]. split.
  - intros k A. apply value_update_absent. now rewrite K.
  - intros k vals I. destruct (H k vals I) as (out & Io & Eo). exists out. split; [apply value_update; [now rewrite K|exact Io]|]. apply mapM_F2 in Eo. rewrite mesh_cells_typed in Eo. split.
    { rewrite <- (Forall2_length _ _ _ Eo). apply map_length. }
    intros i v tc Ni Nt. destruct (Forall2_nth_r _ _ _ _ _ Eo Ni) as (c & Nc & R). rewrite nth_error_map, Nt in Nc. injection Nc as <-. destruct (take vals (snd tc)) as [vs|] eqn:T; [|discriminate]. cbn [bind] in R.
    apply (qmean_bounds _ _ _ R). intros x Ix. destruct (take_In _ _ _ _ T Ix) as (p & Ip & Np). exists p. split; [exact Ip|exact Np].
Qed.

(** The weights are the volumes of the cells around the point. *)
Lemma around_sorted cs : Forall (@NoDup nat) cs -> forall k p,
  StronglySorted lt (flat_map (fun ic : nat * list nat => map (fun _ => fst ic) (filter (Nat.eqb p) (snd ic))) (combine (seq k (List.length cs)) cs)).
Proof.
  induction 1 as [|c cs N F IH]; intros k p; cbn [List.length seq combine flat_map fst snd]; [constructor|].
  assert (H : filter (Nat.eqb p) c = [] \/ filter (Nat.eqb p) c = [p]).
  { clear -N. induction N as [|x c N1 N IH]; [now left|]. cbn [filter]. destruct (Nat.eqb p x) eqn:E; [|exact IH]. apply Nat.eqb_eq in E. subst x. right. f_equal.
    destruct (filter (Nat.eqb p) c) as [|q r] eqn:Ef; [reflexivity|]. exfalso. apply N1. assert (In q (filter (Nat.eqb p) c)) by (rewrite Ef; now left). apply filter_In in H as (H & E). apply Nat.eqb_eq in E. now subst q. }
  destruct H as [-> | ->]; cbn [map app]; [apply IH|]. constructor; [apply IH|]. apply Forall_forall. intros i I. apply around_from in I. lia.
Qed.
Theorem to_points_weights (m m' : mesh Qc Qc) vol : cell_data_to_point_data m = Ok m' -> volumes m = Ok vol -> NoDup (map fst (cell_data m)) ->
  (forall tc, In tc (typed_cells (cells m)) -> NoDup (snd tc)) ->
  forall k vals out p v, In (k, vals) (cell_data m) -> value k (point_data m') = Some out -> nth_error out p = Some v ->
  exists is xs ws total, StronglySorted lt is /\ (forall i, In i is <-> exists tc, nth_error (typed_cells (cells m)) i = Some tc /\ In p (snd tc)) /\
    Forall2 (fun i x => nth_error vals i = Some x) is xs /\ Forall2 (fun i w => nth_error vol i = Some w) is ws /\
    adds_up ws total /\ total <> 0%Qc /\ adds_up (map (fun xw => fst xw * snd xw)%Qc (combine xs ws)) (v * total)%Qc.
Proof.
  unfold cell_data_to_point_data. intros E Ev N D. rewrite Ev in E. cbn [bind] in E. destruct (forallb _ _); [|discriminate]. cbn [guard bind] in E.
  destruct (mapM _ (cell_data m)) as [data|] eqn:Ed; [|discriminate]. injection E as <-. cbn [points cells cell_data point_data].
  apply (interpolated_keys (fun v => mapM (fun p => let* vs := take v (around (mesh_cells (cells m)) p) in let* ws := take vol (around (mesh_cells (cells m)) p) in average vs ws)
    (seq 0 (List.length (points m))))) in Ed. destruct Ed as (K & H). intros k vals out p v I Vo Np. destruct (H k vals I) as (out' & Io & Eo).
  rewrite (value_update data _ k out') in Vo by (rewrite ?K; assumption). injection Vo as ->. apply mapM_F2 in Eo.
  destruct (Forall2_nth_r _ _ _ _ _ Eo Np) as (p' & Ns & R). assert (Lp : p < List.length (points m)) by (rewrite <- (seq_length (List.length (points m)) 0); apply nth_error_Some; congruence).
  rewrite seq_nth_error in Ns by exact Lp. injection Ns as <-. cbn [Nat.add] in R. destruct (take vals _) as [xs|] eqn:T1; [|discriminate]. cbn [bind] in R. destruct (take vol _) as [ws|] eqn:T2; [|discriminate]. cbn [bind] in R.
  unfold average in R. destruct (List.length xs =? List.length ws); [|discriminate]. cbn [guard bind] in R. destruct (Qc_eq_bool (qsum ws) 0) eqn:Z; [discriminate|]. cbn [negb guard bind] in R. injection R as <-.
  exists (around (mesh_cells (cells m)) p), xs, ws, (qsum ws). split.
  { apply around_sorted. apply Forall_forall. intros c Ic. rewrite mesh_cells_typed in Ic. apply in_map_iff in Ic as (tc & <- & Ic). now apply D. }
  split; [intros i; apply around_In|].
  assert (G : forall (l : list Qc) is ys, take l is = Ok ys -> Forall2 (fun i x => nth_error l i = Some x) is ys).
  { intros l is ys T. unfold take in T. apply mapM_F2 in T. eapply Forall2_impl; [|exact T]. cbn beta. intros i x Q. unfold item in Q. destruct (nth_error l i); [|discriminate]. now injection Q as ->. }
  split; [now apply G|]. split; [now apply G|]. split; [apply qsum_adds|]. assert (NZ : qsum ws <> 0%Qc) by (intros Q; rewrite Q in Z; discriminate). split; [exact NZ|].
  match goal with |- adds_up ?l ?s => replace s with (qsum l); [apply qsum_adds|] end. field. exact NZ.
Qed.
Lemma qsum_positive l w : Forall (fun x => 0 <= x)%Qc l -> In w l -> (0 < w)%Qc -> (0 < qsum l)%Qc.
Proof.
  intros F I P. induction F as [|x l Px F IH]; [destruct I|]. cbn [qsum fold_right]. fold (qsum l). destruct I as [-> | I].
  - eapply Qclt_le_trans; [exact P|]. rewrite <- (Qcplus_0_r w) at 1. apply Qcplus_le_compat; [apply Qcle_refl|now apply qsum_nonneg].
  - eapply Qclt_le_trans; [exact (IH I)|]. rewrite <- (Qcplus_0_l (qsum l)) at 1. apply Qcplus_le_compat; [exact Px|apply Qcle_refl].
Qed.
Theorem to_points_total (m : mesh Qc Qc) vol : volumes m = Ok vol -> sound 3 (points m) (cells m) ->
  (forall k vals, In (k, vals) (cell_data m) -> List.length vals = List.length (typed_cells (cells m))) ->
  (forall p, p < List.length (points m) -> exists i tc v, nth_error (typed_cells (cells m)) i = Some tc /\ In p (snd tc) /\ nth_error vol i = Some v /\ (0 < v)%Qc) ->
  exists m', cell_data_to_point_data m = Ok m'.
Proof.
  intros Ev (_ & B) L W. unfold cell_data_to_point_data. rewrite Ev. cbn [bind].
  assert (G : forallb (forallb (fun p => p <? List.length (points m))) (mesh_cells (cells m)) = true).
  { apply forallb_forall. intros c Ic. apply forallb_forall. intros p Ip. apply Nat.ltb_lt. rewrite mesh_cells_typed in Ic. apply in_map_iff in Ic as (tc & <- & Ic). now apply (B tc Ic). }
  rewrite G. cbn [guard bind]. destruct (volumes_nonneg m vol Ev) as (Lv & Fv).
  match goal with |- context [mapM ?f (cell_data m)] => destruct (mapM_total f (cell_data m)) as (data & Ed) end; [|rewrite Ed; cbn [bind]; eauto].
  intros (k, vals) I. cbn [fst snd]. specialize (L k vals I).
  match goal with |- context [mapM ?f (seq 0 _)] => destruct (mapM_total f (seq 0 (List.length (points m)))) as (out & Eo) end; [|rewrite Eo; cbn [bind]; eauto].
  intros p Ip. apply in_seq in Ip. assert (Fa : forall i, In i (around (mesh_cells (cells m)) p) -> i < List.length (typed_cells (cells m))).
  { intros i Ii. apply around_In in Ii as (tc & N & _). apply nth_error_Some. congruence. }
  destruct (take_total vals (around (mesh_cells (cells m)) p)) as (vs & T1); [apply Forall_forall; rewrite L; exact Fa|].
  destruct (take_total vol (around (mesh_cells (cells m)) p)) as (ws & T2); [apply Forall_forall; rewrite Lv; exact Fa|]. rewrite T1. cbn [bind]. rewrite T2. cbn [bind]. unfold average.
  pose proof T1 as T1'. pose proof T2 as T2'. unfold take in T1', T2'. apply mapM_F2, Forall2_length in T1'. apply mapM_F2 in T2'. pose proof (Forall2_length _ _ _ T2') as T2''.
  assert (Le : (List.length vs =? List.length ws) = true) by (apply Nat.eqb_eq; congruence). rewrite Le. cbn [guard bind].
  destruct (W p ltac:(lia)) as (i & tc & v & Nt & Ipc & Nv & Pv). assert (Ii : In i (around (mesh_cells (cells m)) p)) by (apply around_In; eauto).
  assert (Iv : In v ws). { clear -T2' Ii Nv. induction T2' as [|j w is ws R T IH]; [destruct Ii|]. destruct Ii as [-> | Ii]; [unfold item in R; rewrite Nv in R; injection R as ->; now left|right; now apply IH]. }
  assert (S : (0 < qsum ws)%Qc).
  { apply (qsum_positive ws v); [|exact Iv|exact Pv]. apply Forall_forall. intros w Iw. destruct (take_In _ _ _ _ T2 Iw) as (j & _ & Nj). rewrite Forall_forall in Fv. apply Fv. exact (nth_error_In _ _ Nj). }
  destruct (Qc_eq_bool (qsum ws) 0) eqn:Z; [apply Qc_eq_bool_correct in Z; rewrite Z in S; discriminate|]. cbn [negb guard bind]. eauto.
Qed.
Theorem to_cells_total (m : mesh Qc Qc) d : sound d (points m) (cells m) -> (forall k vals, In (k, vals) (point_data m) -> List.length vals = List.length (points m)) ->
  exists m', point_data_to_cell_data m = Ok m'.
Proof.
  intros (_ & B) L. unfold point_data_to_cell_data.
  match goal with |- context [mapM ?f (point_data m)] => destruct (mapM_total f (point_data m)) as (data & Ed) end; [|rewrite Ed; cbn [bind]; eauto].
  intros (k, vals) I. cbn [fst snd]. specialize (L k vals I).
  match goal with |- context [mapM ?f (mesh_cells _)] => destruct (mapM_total f (mesh_cells (cells m))) as (out & Eo) end; [|rewrite Eo; cbn [bind]; eauto].
  intros c Ic. rewrite mesh_cells_typed in Ic. apply in_map_iff in Ic as (tc & <- & Ic). destruct (B tc Ic) as (NE & Bn).
  destruct (take_total vals (snd tc)) as (vs & T); [apply Forall_forall; rewrite L; exact Bn|]. rewrite T. cbn [bind]. unfold qmean. unfold take in T. apply mapM_F2, Forall2_length in T.
  assert (Z : (List.length vs =? 0) = false) by (apply Nat.eqb_neq; destruct (snd tc); [contradiction|cbn in T; lia]). rewrite Z. cbn [negb guard bind]. eauto.
Qed.
