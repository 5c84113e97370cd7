(** MESH and INCON files of a mesh. *)
From Coq Require Import String Ascii Arith ZArith QArith Bool Lia Permutation List.
From Verif Require Import Base.Str Base.Digits Base.Flt Base.FltInt Base.FltRound Base.FltArith Model.Py Model.Records Model.Numpy Model.Mesh Model.MeshFile
  Spec.MeshCells Spec.MeshFile Proofs.DictLemmas Proofs.NumpyProof Proofs.ConnectProof Proofs.MaterialProof Proofs.ExtrudeProof Proofs.PruneProof Proofs.FaceProof.
Import ListNotations.
Local Open Scope nat_scope.

Lemma ljust_pad n k (s : str) : List.length s <= n -> n <= k -> ljust n s ++ spaces (k - n) = ljust k s.
Proof.
  intros A B. unfold ljust. rewrite <- app_assoc. f_equal. unfold spaces. rewrite <- repeat_app. f_equal. lia.
Qed.
Lemma ELEME_lengths n fmt : fmt_ELEME n = Ok fmt -> n = 5 \/ n = 6 \/ n = 7 \/ n = 8 \/ n = 9.
Proof. do 5 (destruct n as [|n]; [discriminate|]). do 5 (destruct n as [|n]; [lia|]). discriminate. Qed.
Ltac specs := match goal with |- context [str2format ?f ?l] => let x := fresh in set (x := str2format f l); vm_compute in x; subst x end.
Ltac columns := cbv beta iota zeta delta [fmt_line combine mapM py_format fmt_num fmt_int bind fst snd sp_t sp_p sp_w sp_right trunc Ascii.eqb Bool.eqb].
Ltac abstract_numbers := repeat match goal with |- context [rjust ?n ?s] => generalize (rjust n s); intro end.
Ltac letters l H := destruct l; [discriminate H|]; cbn [List.length] in H; apply Nat.succ_inj in H.

Lemma eleme_record_text n fmt names c : fmt_ELEME n = Ok fmt -> List.length (mc_label c) = n ->
  eleme_record (str2format fmt [1; 2; 5; 6]) names c =
  Ok (eleme_line (mc_label c) (mat_text (renamed names (padded (mc_mat c)))) (mc_volume c) (mc_x c) (mc_y c) (mc_z c)).
Proof.
  intros F L. unfold eleme_record. generalize (mat_text (renamed names (padded (mc_mat c)))) (mc_volume c) (mc_x c) (mc_y c) (mc_z c).
  generalize dependent (mc_label c). intros l L mt vol x y z. unfold eleme_line.
  destruct (ELEME_lengths _ _ F) as [-> | [-> | [-> | [-> | ->]]]]; cbn in F; injection F as <-; specs; columns; abstract_numbers; f_equal; cbn [concat];
    rewrite <- !app_assoc; generalize (ljust 5 (firstn 5 mt)); intros m5; repeat letters l L; destruct l; try discriminate; reflexivity.
Qed.
Lemma CONNE_lengths n fmt : fmt_CONNE n = Ok fmt -> n = 5 \/ n = 6 \/ n = 7 \/ n = 8 \/ n = 9.
Proof. do 5 (destruct n as [|n]; [discriminate|]). do 5 (destruct n as [|n]; [lia|]). discriminate. Qed.
Lemma isot_text z : (1 <= z <= 3)%Z -> exists s m e, flt_of_Z z = Fin s m e /\ fmt_g 6 (Fin s m e) = print_Z z.
Proof.
  intros H. assert (X : z = 1%Z \/ z = 2%Z \/ z = 3%Z) by lia. destruct X as [-> | [-> | ->]].
  - exists false, 4503599627370496%Z, (-52)%Z. split; vm_compute; reflexivity.
  - exists false, 4503599627370496%Z, (-51)%Z. split; vm_compute; reflexivity.
  - exists false, 6755399441055744%Z, (-51)%Z. split; vm_compute; reflexivity.
Qed.
Lemma conne_record_text n fmt l1 l2 m : fmt_CONNE n = Ok fmt -> List.length l1 = n -> List.length l2 = n -> (1 <= me_isot m <= 3)%Z ->
  conne_record (str2format fmt [1; 2; 3; 9]) l1 l2 m = Ok (conne_line l1 l2 (me_isot m) (me_d1 m) (me_d2 m) (me_area m) (me_angle m)).
Proof.
  intros F L1 L2 I. unfold conne_record. destruct (isot_text _ I) as (s & mm & e & EZ & EG). generalize (me_d1 m) (me_d2 m) (me_area m) (me_angle m). intros d1 d2 a b. unfold conne_line.
  assert (L : List.length (l1 ++ l2) = n + n) by (rewrite app_length; lia). clear L1 L2. generalize dependent (l1 ++ l2). intros l L.
  destruct (CONNE_lengths _ _ F) as [-> | [-> | [-> | [-> | ->]]]]; cbn in F; injection F as <-; specs; columns; rewrite EZ; rewrite EG; abstract_numbers; f_equal; cbn [concat];
    rewrite <- !app_assoc; cbn [Nat.add] in L; repeat letters l L; destruct l; try discriminate; reflexivity.
Qed.

(** ** Interfaces *)
Lemma row_links_In i row : forall f0 x, In x (row_links i f0 row) <->
  exists f j, x = (i, f0 + f, j) /\ nth_error row f = Some (Z.of_nat j) /\ i <= j.
Proof.
  induction row as [|z row IH]; intros f0 x; cbn [row_links].
  - split; [intros []|]. intros ([|f] & j & _ & E & _); discriminate.
  - rewrite in_app_iff, IH. split.
    + intros [I | (f & j & -> & E & L)].
      * destruct ((0 <=? z)%Z && negb (Z.to_nat z <? i)) eqn:B; [|destruct I]. destruct I as [<- | []]. apply andb_true_iff in B as [B1 B2].
        exists 0, (Z.to_nat z). split; [f_equal; f_equal; lia|]. split; [cbn [nth_error]; f_equal; lia|]. apply negb_true_iff, Nat.ltb_ge in B2. lia.
      * exists (S f), j. split; [f_equal; f_equal; lia|]. split; [exact E|exact L].
    + intros ([|f] & j & -> & E & L); cbn [nth_error] in E.
      * left. injection E as ->. replace (0 <=? Z.of_nat j)%Z with true by (symmetry; apply Z.leb_le; lia). rewrite Nat2Z.id.
        replace (j <? i) with false by (symmetry; apply Nat.ltb_ge; lia). left. f_equal. f_equal. lia.
      * right. exists f, j. split; [f_equal; f_equal; lia|]. auto.
Qed.
Lemma links_from_In conn : forall i0 x, In x (links_from i0 conn) <->
  exists i f j row, x = (i0 + i, f, j) /\ nth_error conn i = Some row /\ nth_error row f = Some (Z.of_nat j) /\ i0 + i <= j.
Proof.
  induction conn as [|row conn IH]; intros i0 x; cbn [links_from].
  - split; [intros []|]. intros ([|i] & ? & ? & ? & _ & E & _); discriminate.
  - rewrite in_app_iff, row_links_In, IH. split.
    + intros [(f & j & -> & E & L) | (i & f & j & r & -> & E & E2 & L)].
      * exists 0, f, j, row. rewrite Nat.add_0_r. auto.
      * exists (S i), f, j, r. replace (i0 + S i) with (S i0 + i) by lia. auto.
    + intros ([|i] & f & j & r & -> & E & E2 & L); cbn [nth_error] in E.
      * left. injection E as ->. exists f, j. rewrite Nat.add_0_r in *. auto.
      * right. exists i, f, j, r. replace (S i0 + i) with (i0 + S i) by lia. auto.
Qed.
Lemma links_In conn i f j : In (i, f, j) (links conn) <-> entry conn (i, f) = Some (Z.of_nat j) /\ i <= j.
Proof.
  unfold links. rewrite links_from_In. unfold entry. cbn [fst snd Nat.add]. split.
  - intros (i' & f' & j' & row & E & E1 & E2 & L). injection E as -> -> ->. rewrite E1. auto.
  - intros [E L]. destruct (nth_error conn i) as [row|] eqn:R; [|discriminate]. exists i, f, j, row. auto.
Qed.
Lemma row_links_nodup i row : forall f0, NoDup (row_links i f0 row).
Proof.
  induction row as [|z row IH]; intros f0; cbn [row_links]; [constructor|]. destruct (_ && _); [|apply IH]. cbn [app]. constructor; [|apply IH].
  intros I. apply row_links_In in I as (f & j & E & _). injection E as E1 E2. lia.
Qed.
Lemma links_nodup conn : NoDup (links conn).
Proof.
  unfold links. generalize 0. induction conn as [|row conn IH]; intros i0; cbn [links_from]; [constructor|]. apply nodup_app; [apply row_links_nodup|apply IH|].
  intros x I J. apply row_links_In in I as (f & j & -> & _). apply links_from_In in J as (i & f' & j' & r & E & _). injection E as E1 E2 E3. lia.
Qed.
(** with the connections of the mesh *)
Theorem links_interfaces cells out : connections 3 cells = Ok out ->
  exists F, surfaces cells F /\ NoDup (links out) /\
    (forall i f j, In (i, f, j) (links out) <-> i <= j /\ exists g, interface F (i, f) (j, g)).
Proof.
  intros C. destruct (connections_full _ _ _ C) as (F & SU & L1 & L2 & H1 & H2 & H3). exists F. split; [exact SU|]. split; [apply links_nodup|].
  intros i f j. rewrite links_In. split.
  - intros [E L]. eauto.
  - intros [L (g & I)]. split; [|exact L]. exact (H1 _ _ I).
Qed.

(** ** The whole file *)
Lemma mapM_eq {A B} (f : A -> res B) (g : A -> B) l : (forall x, In x l -> f x = Ok (g x)) -> mapM f l = Ok (map g l).
Proof. induction l as [|a l IH]; intros H; [reflexivity|]. cbn [mapM map]. rewrite (H a (or_introl eq_refl)). cbn [bind]. rewrite IH; [reflexivity|]. intros x I. apply H. now right. Qed.
Lemma ending_perm ending cs : Permutation (ending_last ending cs) cs.
Proof.
  unfold ending_last. induction cs as [|c cs IH]; [constructor|]. cbn [filter]. destruct (is_ending ending c) eqn:E; cbn [negb].
  - etransitivity; [symmetry; apply Permutation_middle|]. now constructor.
  - cbn [app]. now constructor.
Qed.
Lemma mesh_block_text k ls : mesh_block k ls = block_text k ls.
Proof. reflexivity. Qed.
Lemma ELEME_ok n : 5 <= n <= 9 -> exists f, fmt_ELEME n = Ok f.
Proof. intros [A B]. do 10 (destruct n as [|n]; [first [lia | eexists; reflexivity]|]). lia. Qed.
Lemma CONNE_ok n : 5 <= n <= 9 -> exists f, fmt_CONNE n = Ok f.
Proof. intros [A B]. do 10 (destruct n as [|n]; [first [lia | eexists; reflexivity]|]). lia. Qed.
Lemma INCON_ok n : 5 <= n <= 9 -> exists f, fmt_INCON n = Ok f.
Proof. intros [A B]. do 10 (destruct n as [|n]; [first [lia | eexists; reflexivity]|]). lia. Qed.

Lemma write_eleme_text n names ending cs : 5 <= n <= 9 -> Forall (fun c => List.length (mc_label c) = n) cs -> cs <> [] ->
  write_eleme names ending cs = Ok (block_text $"ELEME" (map (fun c =>
    eleme_line (mc_label c) (mat_text (renamed names (padded (mc_mat c)))) (mc_volume c) (mc_x c) (mc_y c) (mc_z c)) (ending_last ending cs))).
Proof.
  intros N L NE. unfold write_eleme. destruct cs as [|c cs]; [contradiction|]. remember (c :: cs) as l eqn:EL.
  assert (FL : first_length (map mc_label l) = Ok n) by (subst l; cbn; f_equal; now inversion L). rewrite FL. cbn [bind].
  destruct (ELEME_ok _ N) as (f & F). rewrite F. cbn [bind]. rewrite mapM_eq with (g := fun c =>
    eleme_line (mc_label c) (mat_text (renamed names (padded (mc_mat c)))) (mc_volume c) (mc_x c) (mc_y c) (mc_z c)).
  - cbn [bind]. f_equal.
  - intros x I. apply eleme_record_text with (n := n); [exact F|]. rewrite Forall_forall in L. apply L. eapply Permutation_in; [apply ending_perm|exact I].
Qed.
Definition label_of (labels : list str) (i : nat) : str := nth i labels [].
Lemma item_nth {A} (l : list A) i d : i < List.length l -> Numpy.item l i = Ok (nth i l d).
Proof. intros H. unfold Numpy.item. rewrite (nth_error_nth' _ d H). reflexivity. Qed.
Lemma write_conne_text n (labels : list str) conn me : 5 <= n <= 9 -> Forall (fun l => List.length l = n) labels -> links conn <> [] ->
  (forall i f j, In (i, f, j) (links conn) -> i < List.length labels /\ j < List.length labels /\ (1 <= me_isot (me (i, f, j)) <= 3)%Z) ->
  write_conne labels conn me = Ok (block_text $"CONNE" (map (fun l => conne_line (label_of labels (fst (fst l))) (label_of labels (snd l))
    (me_isot (me l)) (me_d1 (me l)) (me_d2 (me l)) (me_area (me l)) (me_angle (me l))) (links conn))).
Proof.
  intros N L NE H. unfold write_conne. rewrite mapM_eq with (g := fun l => (label_of labels (fst (fst l)), label_of labels (snd l), me l)).
  2: { intros [[i f] j] I. destruct (H _ _ _ I) as (A & B & _). cbn [fst snd]. rewrite (@item_nth str _ _ [] A). cbn [bind]. rewrite (@item_nth str _ _ [] B). reflexivity. }
  cbn [bind]. rewrite map_length. assert (LL : forall i f j, In (i, f, j) (links conn) -> List.length (label_of labels i) = n /\ List.length (label_of labels j) = n).
  { intros i f j I. destruct (H _ _ _ I) as (A & B & _). rewrite Forall_forall in L. split; apply L; apply nth_In; assumption. }
  destruct (links conn) as [|[[i f] j] ls] eqn:EL; [contradiction|]. cbn [List.length Nat.eqb negb guard bind].
  rewrite <- EL in *. replace (first_length _) with (Ok (A := nat) n).
  2: { rewrite EL. cbn. f_equal. symmetry. apply (LL i f j). rewrite EL. now left. }
  cbn [bind]. destruct (CONNE_ok _ N) as (fm & F). rewrite F. cbn [bind]. 
  rewrite mapM_eq with (g := fun x => conne_line (fst (fst x)) (snd (fst x)) (me_isot (snd x)) (me_d1 (snd x)) (me_d2 (snd x)) (me_area (snd x)) (me_angle (snd x))).
  2: { intros x I. apply in_map_iff in I as ([[i' f'] j'] & <- & I). cbn [fst snd]. destruct (LL _ _ _ I). apply conne_record_text with (n := n); auto. now apply H. }
  cbn [bind]. rewrite map_map. reflexivity.
Qed.
Theorem write_mesh_text n names ending coord cs conn me : 5 <= n <= 9 -> Forall (fun c => List.length (mc_label c) = n) cs -> links conn <> [] ->
  (forall i f j, In (i, f, j) (links conn) -> i < List.length cs /\ j < List.length cs /\ (1 <= me_isot (me (i, f, j)) <= 3)%Z) ->
  write_mesh names ending coord cs conn me = Ok (
    block_text $"ELEME" (map (fun c => eleme_line (mc_label c) (mat_text (renamed names (padded (mc_mat c)))) (mc_volume c) (mc_x c) (mc_y c) (mc_z c)) (ending_last ending cs)) ++
    (if coord then block_text $"COORD" (map (fun c => coord_line (mc_x c) (mc_y c) (mc_z c)) (ending_last ending cs)) else []) ++
    block_text $"CONNE" (map (fun l => conne_line (label_of (map mc_label cs) (fst (fst l))) (label_of (map mc_label cs) (snd l))
      (me_isot (me l)) (me_d1 (me l)) (me_d2 (me l)) (me_area (me l)) (me_angle (me l))) (links conn))).
Proof.
  intros N L NE H. unfold write_mesh.
  assert (NC : cs <> []). { intros ->. destruct (links conn) as [|[[i f] j] r]; [contradiction|]. destruct (H i f j) as (A & _); [now left|]. cbn in A. lia. }
  rewrite (write_eleme_text _ _ _ _ N L NC). cbn [bind]. rewrite (write_conne_text n); auto.
  - rewrite Forall_map. exact L.
  - rewrite map_length. exact H.
Qed.
(** with the connections of the blocks of the mesh *)
Theorem mesh_file n names ending coord blocks cs conn me : connections 3 blocks = Ok conn -> List.length cs = n_cells blocks ->
  5 <= n <= 9 -> Forall (fun c => List.length (mc_label c) = n) cs -> (forall l, 1 <= me_isot (me l) <= 3)%Z ->
  exists F, surfaces blocks F /\ ((exists p q, interface F p q) ->
  exists order names' ls, Permutation order cs /\ NoDup ls /\
    (forall i f j, In (i, f, j) ls <-> i <= j /\ exists g, interface F (i, f) (j, g)) /\
    write_mesh names ending coord cs conn me = Ok (
      block_text $"ELEME" (map (fun c => eleme_line (mc_label c) (names' c) (mc_volume c) (mc_x c) (mc_y c) (mc_z c)) order) ++
      (if coord then block_text $"COORD" (map (fun c => coord_line (mc_x c) (mc_y c) (mc_z c)) order) else []) ++
      block_text $"CONNE" (map (fun l => conne_line (nth (fst (fst l)) (map mc_label cs) []) (nth (snd l) (map mc_label cs) [])
        (me_isot (me l)) (me_d1 (me l)) (me_d2 (me l)) (me_area (me l)) (me_angle (me l))) ls))).
Proof.
  intros C LC N L IS. destruct (connections_full _ _ _ C) as (F & SU & L1 & L2 & H1 & H2 & H3). exists F. split; [exact SU|]. intros (p & q & PQ).
  exists (ending_last ending cs), (fun c => mat_text (renamed names (padded (mc_mat c)))), (links conn).
  split; [apply ending_perm|]. split; [apply links_nodup|]. split.
  { intros i f j. rewrite links_In. split; [intros [E X]; eauto|]. intros [X (g & I)]. split; [|exact X]. exact (H1 _ _ I). }
  apply write_mesh_text with (n := n); auto.
  - intros E. assert (X : fst p <= fst q \/ fst q <= fst p) by lia. destruct X as [X | X].
    + assert (I : In (fst p, snd p, fst q) (links conn)) by (apply links_In; split; [destruct p; exact (H1 _ _ PQ)|exact X]). rewrite E in I. destruct I.
    + apply interface_sym in PQ. assert (I : In (fst q, snd q, fst p) (links conn)) by (apply links_In; split; [destruct q; exact (H1 _ _ PQ)|exact X]). rewrite E in I. destruct I.
  - intros i f j I. apply links_In in I as [E X]. rewrite LC.
    assert (B : forall i f v, entry conn (i, f) = Some v -> i < n_cells blocks).
    { intros i' f' v E'. unfold entry in E'. cbn [fst snd] in E'. destruct (nth_error conn i') as [row|] eqn:R; [|discriminate]. rewrite <- L1. eauto using nth_lt. }
    split; [eapply B, E|]. split; [|apply IS]. destruct (connections_symmetric _ _ _ _ _ _ C E) as (j' & E'). eapply B, E'.
Qed.

(** ** Materials *)
Lemma padded_whole s : whole_name s -> padded (MName s) = MName s.
Proof. intros [A B]. cbn [padded]. rewrite B. unfold ljust. replace (5 - List.length s) with 0 by lia. cbn. now rewrite app_nil_r. Qed.
Definition whole_mat (m : mat) : Prop := match m with MName s => whole_name s | MNum _ => True end.
Lemma padded_mat m : whole_mat m -> padded m = m.
Proof. destruct m; intros H; [now apply padded_whole|reflexivity]. Qed.
Lemma mat_eqb_eq a b : mat_eqb a b = true <-> a = b.
Proof. destruct a, b; cbn [mat_eqb]; rewrite ?streqb_eq, ?Z.eqb_eq; split; congruence. Qed.
Theorem material_selection names ending cs : Forall (fun c => forall s, mc_mat c = MName s -> whole_name s) cs -> NoDup (map fst names) ->
  (exists front back, ending_last ending cs = front ++ back /\ Permutation (front ++ back) cs /\
     (forall c, In c front <-> In c cs /\ ~ In (mc_mat c) ending) /\ (forall c, In c back <-> In c cs /\ In (mc_mat c) ending)) /\
  (forall c, In c cs -> (forall v, In (mc_mat c, v) names -> renamed names (padded (mc_mat c)) = v) /\
     (~ In (mc_mat c) (map fst names) -> renamed names (padded (mc_mat c)) = mc_mat c)).
Proof.
  intros W0 ND. assert (W : Forall (fun c => whole_mat (mc_mat c)) cs) by (eapply Forall_impl; [|exact W0]; intros c X; cbn beta in X; destruct (mc_mat c); cbn; auto).
  clear W0. rewrite Forall_forall in W.
  assert (E : forall c, In c cs -> is_ending ending c = true <-> In (mc_mat c) ending).
  { intros c I. unfold is_ending. rewrite (padded_mat _ (W c I)), existsb_exists. split.
    - intros (m & J & X). apply mat_eqb_eq in X. now subst m.
    - intros J. exists (mc_mat c). split; [exact J|]. now apply mat_eqb_eq. }
  split.
  - do 2 eexists. split; [reflexivity|]. split; [apply ending_perm|]. split; intros c; rewrite filter_In; split; intros [I X]; (split; [exact I|]).
    + intros J. apply (E c I) in J. rewrite J in X. discriminate.
    + destruct (is_ending ending c) eqn:Y; [|reflexivity]. exfalso. apply X, E; auto.
    + now apply E.
    + now apply E.
  - intros c I. rewrite (padded_mat _ (W c I)). unfold renamed. clear E W I. split.
    + intros v J. induction names as [|[k w] names IH]; [destruct J|]. cbn [find fst]. cbn [map] in ND. inversion ND as [|? ? N1 N2]; subst. destruct J as [J | J].
      * injection J as -> ->. rewrite (proj2 (mat_eqb_eq _ _) eq_refl). reflexivity.
      * destruct (mat_eqb (mc_mat c) k) eqn:Y; [|now apply IH]. apply mat_eqb_eq in Y. exfalso. apply N1. rewrite <- Y. change (mc_mat c) with (fst (mc_mat c, v)). now apply in_map.
    + intros N. destruct (find _ names) as [[k w]|] eqn:Y; [|reflexivity]. apply find_some in Y as [J Y]. apply mat_eqb_eq in Y. exfalso. apply N. rewrite Y. now apply (in_map fst) in J.
Qed.

(** ** INCON *)
Definition known (v : flt) : option flt := if fgtb v m1e9 then Some v else None.
Lemma m1e9_val : is_finite m1e9 = true /\ (fval m1e9 == - (Qmake 1000000000 1))%Q.
Proof. split; vm_compute; reflexivity. Qed.
Lemma defined_known v : is_finite v = true -> fgtb v m1e9 = true <-> defined v.
Proof.
  intros F. unfold fgtb, defined. destruct m1e9_val as [FM VM]. rewrite (fltb_fin _ _ FM F). now rewrite VM.
Qed.
Lemma known_spec v : is_finite v = true -> defined_or_none v (known v).
Proof.
  intros F. unfold known, defined_or_none. rewrite <- (defined_known v F). destruct (fgtb v m1e9); [left|right]; split; congruence.
Qed.
Lemma undefined_at vs : forall k i, existsb (Nat.eqb i) (undefined_from k vs) =
  (k <=? i) && match nth_error vs (i - k) with Some v => negb (fgtb v m1e9) | None => false end.
Proof.
  induction vs as [|v vs IH]; intros k i; cbn [undefined_from].
  - cbn. destruct (i - k); now rewrite andb_false_r.
  - rewrite existsb_app, IH. destruct (k <=? i) eqn:A.
    + apply Nat.leb_le in A. destruct (Nat.eq_dec i k) as [-> | N].
      * rewrite Nat.sub_diag. cbn [nth_error andb]. replace (S k <=? k) with false by (symmetry; apply Nat.leb_gt; lia). cbn [andb]. rewrite orb_false_r.
        destruct (fgtb v m1e9); [reflexivity|]. cbn. now rewrite Nat.eqb_refl.
      * replace (S k <=? i) with true by (symmetry; apply Nat.leb_le; lia). cbn [andb]. replace (i - k) with (S (i - S k)) by lia. cbn [nth_error].
        replace (existsb (Nat.eqb i) (if fgtb v m1e9 then [] else [k])) with false; [reflexivity|]. destruct (fgtb v m1e9); [reflexivity|]. cbn.
        replace (i =? k) with false; [reflexivity|]. symmetry. now apply Nat.eqb_neq.
    + apply Nat.leb_gt in A. cbn [andb]. replace (S k <=? i) with false by (symmetry; apply Nat.leb_gt; lia). rewrite orb_false_r.
      destruct (fgtb v m1e9); [reflexivity|]. cbn. replace (i =? k) with false; [reflexivity|]. symmetry. apply Nat.eqb_neq. lia.
Qed.
Lemma col_known v : py_format (if negb (fgtb v m1e9) then Spec false 20 None None else Spec true 20 (Some 13) (Some ("e"%char))) (value_or_blank v) = 
  Ok (number_or_blank 20 13 (known v)).
Proof. unfold value_or_blank, known. destruct (fgtb v m1e9); reflexivity. Qed.

Lemma values_text vs : values_record vs = Ok (concat (map (fun v => number_or_blank 20 13 (known v)) (firstn 4 vs)) ++ [nl]).
Proof.
  unfold values_record, fmt_line.
  assert (E : combine (str2format fmt_INCON_0 (undefined_from 0 vs)) (map value_or_blank vs) =
    map (fun v => (if negb (fgtb v m1e9) then Spec false 20 None None else Spec true 20 (Some 13) (Some ("e"%char)), value_or_blank v)) (firstn 4 vs)).
  { assert (T : exists t, fmt_INCON_0 = [t; t; t; t] /\ spec_ignored t = Spec false 20 None None /\ spec_of t = Spec true 20 (Some 13) (Some ("e"%char))).
    { eexists. split; [vm_compute; reflexivity|]. split; reflexivity. }
    destruct T as (t & -> & TI & TO). unfold str2format. cbn [List.length seq combine map fst snd]. rewrite !undefined_at, TI, TO. cbn [Nat.leb Nat.sub andb].
    destruct vs as [|a [|b [|c [|d vs]]]]; reflexivity. }
  rewrite E. rewrite mapM_eq with (g := fun p => match snd p with PFloat v => rjust 20 (fmt_e 13 v) | _ => spaces 20 end).
  - cbn [bind]. f_equal. f_equal. rewrite map_map. f_equal. apply map_ext. intros v. cbn [snd]. unfold value_or_blank, known. destruct (fgtb v m1e9); reflexivity.
  - intros p I. apply in_map_iff in I as (v & <- & _). cbn [fst snd]. rewrite col_known. unfold value_or_blank, known. destruct (fgtb v m1e9); reflexivity.
Qed.
Lemma incon_record1_text n fmt c : fmt_INCON n = Ok fmt -> List.length (ic_label c) = n -> 5 <= n <= 9 ->
  match ic_userx c with Some u => List.length u = 3 | None => True end ->
  incon_record1 fmt c = Ok (ljust 15 (ic_label c) ++ number_or_blank 15 9 (ic_porosity c) ++
    match ic_userx c with Some u => concat (map (fun v => rjust 10 (fmt_e 3 v)) u) | None => spaces 30 end ++ [nl]).
Proof.
  intros F L N U. unfold incon_record1. destruct c as [l vs p u]. cbn [ic_label ic_values ic_porosity ic_userx] in *. clear vs.
  assert (NN : n = 5 \/ n = 6 \/ n = 7 \/ n = 8 \/ n = 9) by lia.
  assert (UU : u = None \/ exists a b c, u = Some [a; b; c]).
  { destruct u as [[|a [|b [|c [|d u]]]]|]; try discriminate; [right; eauto|now left]. }
  clear U. destruct UU as [-> | (a & b & c & ->)]; destruct p as [p|];
  destruct NN as [-> | [-> | [-> | [-> | ->]]]]; cbn in F; injection F as <-; cbn [app map]; specs; columns; cbn [number_or_blank map concat]; abstract_numbers; f_equal; cbn [concat];
    rewrite <- ?app_assoc; repeat letters l L; destruct l; try discriminate; reflexivity.
Qed.
Lemma incon_record_text n fmt c : fmt_INCON n = Ok fmt -> List.length (ic_label c) = n -> 5 <= n <= 9 ->
  match ic_userx c with Some u => List.length u = 3 | None => True end ->
  incon_record fmt c = Ok (incon_lines (ic_label c) (ic_porosity c) (ic_userx c) (map known (ic_values c))).
Proof.
  intros F L N U. unfold incon_record. rewrite (incon_record1_text _ _ _ F L N U). cbn [bind]. rewrite !values_text. unfold incon_lines. rewrite map_length, !firstn_map, !skipn_map, !firstn_map, !map_map.
  rewrite firstn_firstn. cbn [Nat.min]. generalize (number_or_blank 15 9 (ic_porosity c)). intros ph.
  destruct (4 <? List.length (ic_values c)); cbn [bind]; f_equal; rewrite <- !app_assoc; reflexivity.
Qed.

Lemma and_iff_compat_l_weak (A B C : Prop) : (A -> (B <-> C)) -> (A /\ B <-> A /\ C).
Proof. tauto. Qed.
(** Cells with a defined value have a non-negative one. *)
Theorem incon_file n cs : 5 <= n <= 9 -> cs <> [] -> Forall (fun c => List.length (ic_label c) = n) cs ->
  Forall (fun c => match ic_userx c with Some u => List.length u = 3 | None => True end) cs ->
  Forall (fun c => Forall (fun v => is_finite v = true) (ic_values c)) cs ->
  Forall (fun c => (exists v, In v (ic_values c) /\ defined v) -> exists v, In v (ic_values c) /\ (0 <= fval v)%Q) cs ->
  exists listed values, (forall c, In c listed <-> In c cs /\ ((exists v, In v (ic_values c) /\ defined v) \/ ic_porosity c <> None \/ ic_userx c <> None)) /\
    (NoDup cs -> NoDup listed) /\
    (forall c, In c listed -> Forall2 defined_or_none (ic_values c) (values c)) /\
    write_incon cs = Ok (block_text $"INCON" (map (fun c => incon_lines (ic_label c) (ic_porosity c) (ic_userx c) (values c)) listed)).
Proof.
  intros N NE L U FI H. exists (filter ic_listed cs), (fun c => map known (ic_values c)). rewrite !Forall_forall in *.
  assert (MV : is_finite m1em9 = true /\ (fval m1em9 < 0)%Q /\ (- Qmake 1000000000 1 < fval m1em9)%Q) by (repeat (split; [vm_compute; reflexivity|]); vm_compute; reflexivity).
  destruct MV as (MF & MV1 & MV2). split; [|split; [|split]].
  - intros c. rewrite filter_In. apply and_iff_compat_l_weak. intros I. unfold ic_listed. rewrite !orb_true_iff, existsb_exists. specialize (FI _ I). rewrite Forall_forall in FI. split.
    + intros [[(v & J & X) | X] | X].
      * left. exists v. split; [exact J|]. unfold fgtb in X. apply (fltb_fin _ _ MF (FI _ J)) in X. unfold defined. eapply Qlt_trans; eauto.
      * right; left. destruct (ic_porosity c); congruence.
      * right; right. destruct (ic_userx c); congruence.
    + intros [X | [X | X]].
      * left; left. destruct (H _ I X) as (v & J & Y). exists v. split; [exact J|]. unfold fgtb. apply (fltb_fin _ _ MF (FI _ J)). eapply Qlt_le_trans; eauto.
      * left; right. destruct (ic_porosity c); congruence.
      * right. destruct (ic_userx c); congruence.
  - apply NoDup_filter.
  - intros c I. apply filter_In in I as [I _]. specialize (FI _ I). rewrite Forall_forall in FI. induction (ic_values c) as [|v vs IH]; [constructor|]. cbn [map]. constructor.
    + apply known_spec, FI. now left.
    + apply IH. intros x J. apply FI. now right.
  - unfold write_incon. destruct cs as [|c cs]; [contradiction|]. remember (c :: cs) as l eqn:EL.
    assert (FL : first_length (map ic_label l) = Ok n) by (subst l; cbn; f_equal; apply L; now left). rewrite FL. cbn [bind].
    destruct (INCON_ok _ N) as (f & F). rewrite F. cbn [bind].
    rewrite mapM_eq with (g := fun c => incon_lines (ic_label c) (ic_porosity c) (ic_userx c) (map known (ic_values c))).
    + reflexivity.
    + intros x I. apply filter_In in I as [I _]. apply incon_record_text with (n := n); auto. now apply U.
Qed.
