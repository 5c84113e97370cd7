(** Removing duplicated points and cells. *)
From Coq Require Import String Ascii Arith ZArith Bool Lia Permutation Sorted List.
From Verif Require Import Base.Str Model.Py Model.Numpy Model.Mesh Model.MeshOps Spec.Order Spec.MeshCells Spec.Prune Proofs.DictLemmas Proofs.NumpyProof Proofs.ConnectProof Proofs.BlocksProof Proofs.ReorderProof Proofs.MaterialProof Proofs.ExtrudeProof.
Import ListNotations.
Local Open Scope nat_scope.

Lemma Forall2_impl {A B} (P Q : A -> B -> Prop) l l' : (forall a b, P a b -> Q a b) -> Forall2 P l l' -> Forall2 Q l l'.
Proof. induction 2; constructor; auto. Qed.
Lemma take_picked {A} (l : list A) is out : take l is = Ok out <-> picked l is out.
Proof. apply take_ok. Qed.
Lemma picked_nth {A} (l : list A) is out k i : picked l is out -> nth_error is k = Some i -> nth_error out k = nth_error l i.
Proof.
  intros H. revert k. induction H as [|j x is out E H IH]; intros [|k]; cbn [nth_error]; try discriminate; [intros X; injection X as ->; congruence|auto].
Qed.
Lemma picked_len {A} (l : list A) is out : picked l is out -> List.length out = List.length is.
Proof. intros H. symmetry. eapply Forall2_length; exact H. Qed.
Lemma picked_seq {A} (l : list A) : picked l (seq 0 (List.length l)) l.
Proof.
  assert (G : forall pre l : list A, Forall2 (fun i x => nth_error (pre ++ l) i = Some x) (seq (List.length pre) (List.length l)) l).
  { clear. intros pre l. revert pre. induction l as [|x l IH]; intros pre; cbn [List.length seq]; constructor.
    - rewrite nth_error_app2 by lia. now rewrite Nat.sub_diag.
    - specialize (IH (pre ++ [x])). rewrite <- app_assoc, app_length, Nat.add_1_r in IH. exact IH. }
  exact (G [] l).
Qed.
Lemma picked_eq {A} (l : list A) is a b : picked l is a -> picked l is b -> a = b.
Proof. intros H. revert b. induction H; intros b K; inversion K; subst; f_equal; [congruence|auto]. Qed.

Lemma keys_unique {A K} (leb : K -> K -> bool) (O : total_order leb) (key : A -> K) rows rows' :
  picked rows (unique_index leb (map key rows)) rows' -> map key rows' = unique leb (map key rows).
Proof.
  unfold unique_index. assert (I : incl (unique leb (map key rows)) (map key rows)) by (intros u Iu; now apply (unique_In leb O)).
  revert I. generalize (unique leb (map key rows)). intros U I P. revert rows' I P.
  induction U as [|u U IH]; intros out I P; cbn [map] in P; inversion P as [|? x ? r E P']; subst; [reflexivity|]. cbn [map]. f_equal.
  - assert (X : nth_error (map key rows) (position leb u (map key rows)) = Some u) by (apply (position_nth leb O); apply I; now left).
    rewrite nth_error_map, E in X. now injection X.
  - apply IH; auto. intros v Iv. apply I. now right.
Qed.
Lemma index_nodup {K} (leb : K -> K -> bool) (O : total_order leb) ks : NoDup (unique_index leb ks).
Proof.
  unfold unique_index. assert (I : incl (unique leb ks) ks) by (intros u Iu; now apply (unique_In leb O)). pose proof (unique_nodup leb O ks) as N.
  revert I N. generalize (unique leb ks). induction l as [|u U IH]; intros I N; cbn [map]; constructor; inversion N; subst.
  - intros X. apply in_map_iff in X as (v & E & Iv). assert (E1 : nth_error ks (position leb u ks) = Some u) by (apply (position_nth leb O), I; now left).
    assert (E2 : nth_error ks (position leb v ks) = Some v) by (apply (position_nth leb O), I; now right). rewrite E in E2. assert (u = v) by congruence. subst. contradiction.
  - apply IH; auto. intros v Iv. apply I. now right.
Qed.
Lemma index_fixed {K} (leb : K -> K -> bool) (O : total_order leb) ks : unique leb ks = ks -> unique_index leb ks = seq 0 (List.length ks).
Proof.
  intros U. unfold unique_index. pose proof (unique_nodup leb O ks) as N. rewrite U in *. apply nth_error_ext. intros i. rewrite nth_error_map.
  destruct (nth_error ks i) as [x|] eqn:E.
  - cbn [option_map]. rewrite (position_nodup leb O _ _ _ N E). symmetry. rewrite (nth_error_nth' (seq 0 (List.length ks)) 0); [rewrite seq_nth; eauto using nth_lt|rewrite seq_length; eauto using nth_lt].
  - cbn [option_map]. symmetry. apply nth_error_None. rewrite seq_length. now apply nth_error_None.
Qed.
Lemma unique_length_nodup {K} (leb : K -> K -> bool) (O : total_order leb) ks : List.length ks <= List.length (unique leb ks) -> NoDup ks.
Proof.
  intros L. eapply NoDup_incl_NoDup; [apply (unique_nodup leb O ks)|exact L|]. intros x I. now apply (unique_In leb O).
Qed.
Lemma nodup_unique_length {K} (leb : K -> K -> bool) (O : total_order leb) ks : NoDup ks -> List.length ks = List.length (unique leb ks).
Proof.
  intros N. apply Permutation_length. apply NoDup_Permutation; auto; [apply (unique_nodup leb O)|]. intros x. symmetry. apply (unique_In leb O).
Qed.

Definition cell_key := isort Nat.leb.
Definition order (rows : list (list nat)) := unique_index (lexb Nat.leb) (map cell_key rows).
Lemma lex_nat : total_order (lexb Nat.leb).
Proof. apply lexb_order, nat_order. Qed.
Lemma order_distinct rows rows' : picked rows (order rows) rows' -> distinct_cells rows'.
Proof.
  intros P i j c d Ei Ej PM. apply keys_unique in P; [|apply lex_nat]. pose proof (unique_nodup _ lex_nat (map cell_key rows)) as N. rewrite <- P in N.
  rewrite NoDup_nth_error in N. apply N; [rewrite map_length; eauto using nth_lt|]. rewrite !nth_error_map, Ei, Ej. cbn [option_map]. f_equal.
  now apply (isort_perm_eq Nat.leb nat_order).
Qed.
Lemma order_covers rows rows' c : picked rows (order rows) rows' -> In c rows -> exists c', In c' rows' /\ Permutation c c'.
Proof.
  intros P I. apply keys_unique in P; [|apply lex_nat]. assert (X : In (cell_key c) (map cell_key rows')) by (rewrite P; apply (unique_In _ lex_nat); now apply in_map).
  apply in_map_iff in X as (c' & E & I'). exists c'. split; [exact I'|]. now apply (isort_perm_eq Nat.leb nat_order).
Qed.
Lemma order_again rows rows' : picked rows (order rows) rows' -> order rows' = seq 0 (List.length rows').
Proof.
  intros P. apply keys_unique in P; [|apply lex_nat]. unfold order. rewrite index_fixed; [now rewrite map_length|apply lex_nat|].
  rewrite P. apply unique_fixed; [apply lex_nat|]. apply (unique_strict _ lex_nat).
Qed.
Lemma order_nodup rows : NoDup (order rows).
Proof. apply index_nodup, lex_nat. Qed.
Lemma order_take rows : exists rows', take rows (order rows) = Ok rows'.
Proof.
  apply take_total. apply Forall_forall. intros i I. unfold order, unique_index in I. apply in_map_iff in I as (u & <- & Iu).
  apply (proj1 (unique_In _ lex_nat _ _)) in Iu. rewrite <- (map_length cell_key rows). now apply (position_lt _ lex_nat).
Qed.

Section Prune.
  Context {C V : Type} (leb : C -> C -> bool) (OC : total_order leb).
  Let row := lexb leb.
  Let OR : total_order row := lexb_order leb OC.
  Lemma renumbered (pts : list (list C)) c c' : take (unique_inverse row pts) c = Ok c' -> corners pts c = corners (unique row pts) c'.
  Proof.
    intros T. apply take_picked in T. induction T as [|i k c c' E T IH]; cbn [corners map]; [reflexivity|]. f_equal; [|exact IH].
    unfold unique_inverse in E. rewrite nth_error_map in E. destruct (nth_error pts i) as [p|] eqn:P; [|discriminate]. cbn [option_map] in E. injection E as <-.
    symmetry. apply (position_nth row OR). apply (unique_In row OR). eapply nth_error_In; eauto.
  Qed.
  Lemma uniq_picked (pts : list (list C)) : picked pts (unique_index row pts) (unique row pts).
  Proof.
    unfold unique_index. assert (I : incl (unique row pts) pts) by (intros u Iu; now apply (unique_In row OR)).
    revert I. generalize (unique row pts). induction l as [|u U IH]; intros I; cbn [map]; constructor.
    - apply (position_nth row OR). apply I. now left.
    - apply IH. intros v Iv. apply I. now right.
  Qed.
  Definition first_phase (m : mesh C V) : res (list (list C) * list (str * list V) * list cellblock) :=
    if List.length (unique row (points m)) <? List.length (points m) then
      let* pd := mapM (fun kv => let* v := take (snd kv) (unique_index row (points m)) in Ok (fst kv, v)) (point_data m) in
      let* cs := mapM (fun b : cellblock => let* r := mapM (take (unique_inverse row (points m))) (snd b) in Ok (fst b, r)) (cells m) in
      Ok (unique row (points m), pd, cs)
    else Ok (points m, point_data m, cells m).
  Definition moved (pts pts1 : list (list C)) (b b1 : cellblock) : Prop :=
    fst b1 = fst b /\ Forall2 (fun c c1 => corners pts c = corners pts1 c1) (snd b) (snd b1).
  Lemma first_ok m pts1 pd1 cs1 : first_phase m = Ok (pts1, pd1, cs1) ->
    NoDup pts1 /\ (forall p, In p pts1 <-> In p (points m)) /\
    (exists js, picked (points m) js pts1 /\ (Forall2 (fun kv kv' => fst kv' = fst kv /\ picked (snd kv) js (snd kv')) (point_data m) pd1 \/ (pd1 = point_data m /\ js = seq 0 (List.length (points m))))) /\
    Forall2 (moved (points m) pts1) (cells m) cs1.
  Proof.
    unfold first_phase. destruct (Nat.ltb_spec (List.length (unique row (points m))) (List.length (points m))) as [L|L].
    - destruct (mapM _ (point_data m)) as [pd|] eqn:PD; [|discriminate]. cbn [bind]. destruct (mapM _ (cells m)) as [cs|] eqn:CS; [|discriminate]. cbn [bind].
      intros E; injection E as <- <- <-. split; [apply (unique_nodup row OR)|]. split; [intros p; apply (unique_In row OR)|]. split.
      + exists (unique_index row (points m)). split; [apply uniq_picked|]. left. apply mapM_F2 in PD. eapply Forall2_impl; [|exact PD]. cbn beta. intros kv kv' E.
        destruct (take (snd kv) _) as [v|] eqn:T; [|discriminate]. injection E as <-. split; [reflexivity|]. now apply take_picked.
      + apply mapM_F2 in CS. eapply Forall2_impl; [|exact CS]. cbn beta. intros b b1 E. destruct (mapM (take _) (snd b)) as [r|] eqn:T; [|discriminate]. injection E as <-.
        split; [reflexivity|]. cbn [snd]. apply mapM_F2 in T. eapply Forall2_impl; [|exact T]. cbn beta. intros c c1. apply renumbered.
    - intros E; injection E as <- <- <-. split; [apply (unique_length_nodup row OR); exact L|]. split; [reflexivity|]. split.
      + exists (seq 0 (List.length (points m))). split; [apply picked_seq|]. right. auto.
      + generalize (cells m). induction l as [|b l IH]; constructor; [|exact IH]. split; [reflexivity|]. generalize (snd b). induction l0; constructor; auto.
  Qed.
  Definition second_phase (m : mesh C V) (pcp : list (list C) * list (str * list V) * list cellblock) : res (mesh C V) :=
    let '(pts, pd, cs) := pcp in
    let* pieces := mapM (fun kv => let* ps := split (cells m) (snd kv) in Ok (fst kv, ps)) (cell_data m) in
    let* cs' := mapM (fun b : cellblock => let* r := take (snd b) (order (snd b)) in Ok (fst b, r)) cs in
    let* data' := mapM (fun kv =>
      let* ps := mapM (fun bp : cellblock * list V => take (snd bp) (order (snd (fst bp)))) (combine cs (snd kv)) in Ok (fst kv, concat ps)) pieces in
    Ok (Mesh (dim m) pts cs' pd data' (field_data m)).
  Lemma prune_phases m : prune leb m = let* pcp := first_phase m in second_phase m pcp.
  Proof. reflexivity. Qed.
  Definition chosen_cells (b b' : cellblock) : Prop := fst b' = fst b /\ picked (snd b) (order (snd b)) (snd b').
  Lemma chosen_kept pts pts1 b b1 b' : moved pts pts1 b b1 -> chosen_cells b1 b' -> fst b' = fst b /\ kept_cells pts pts1 (snd b) (order (snd b1)) (snd b').
  Proof.
    intros [F1 M] [F2 P]. split; [congruence|]. split; [apply order_nodup|]. split; [eapply order_distinct; eauto|]. split.
    - revert P. generalize (order (snd b1)). generalize (snd b'). intros rows' is P. induction P as [|i c' is rows' E P IH]; constructor; [|exact IH].
      clear -M E. revert i E. induction M as [|c c1 cs cs1 H M IHM]; intros [|i] E; try discriminate; cbn [nth_error] in *; [injection E as ->; eauto|]. apply IHM. exact E.
    - intros c I. assert (X : exists c1, In c1 (snd b1) /\ corners pts c = corners pts1 c1).
      { clear -M I. induction M as [|c0 c1 cs cs1 H M IHM]; [destruct I|]. destruct I as [-> | I]; [exists c1; split; [now left|exact H]|]. destruct (IHM I) as (c2 & I2 & E2). exists c2. split; [now right|exact E2]. }
      destruct X as (c1 & I1 & E). destruct (order_covers _ _ _ P I1) as (c' & I' & PM). exists c'. split; [exact I'|]. rewrite E. unfold corners. now apply Permutation_map.
  Qed.
  Lemma moved_sizes pts pts1 cs cs1 : Forall2 (moved pts pts1) cs cs1 -> sizes cs1 = sizes cs.
  Proof. unfold sizes. induction 1 as [|b b1 bs bs1 [_ M] F IH]; cbn [map]; [reflexivity|]. rewrite IH. f_equal. symmetry. eapply Forall2_length; exact M. Qed.
  Lemma pieces_ok (cs : list cellblock) (cd : list (str * list V)) pieces : cs <> [] -> mapM (fun kv => let* ps := split cs (snd kv) in Ok (fst kv, ps)) cd = Ok pieces ->
    Forall2 (fun kv kp => fst kp = fst kv /\ concat (snd kp) = snd kv /\ map (@List.length V) (snd kp) = sizes cs) cd pieces.
  Proof.
    intros NE E. apply mapM_F2 in E. eapply Forall2_impl; [|exact E]. cbn beta. intros kv kp SP.
    destruct (split cs (snd kv)) as [ps|] eqn:S1; [|discriminate]. injection SP as <-. cbn [fst snd]. split; [reflexivity|].
    destruct (Nat.eq_dec (List.length (snd kv)) (n_cells cs)) as [LC|LC]; [|rewrite split_refused in S1 by exact LC; discriminate].
    destruct (split_ok _ _ NE LC) as (ps0 & E0 & C0 & S0). rewrite E0 in S1. injection S1 as ->. auto.
  Qed.
  Lemma data_picked (cs cs' : list cellblock) : Forall2 chosen_cells cs cs' -> forall ps ps' : list (list V), map (@List.length V) ps = sizes cs ->
    mapM (fun bp : cellblock * list V => take (snd bp) (order (snd (fst bp)))) (combine cs ps) = Ok ps' ->
    Forall3 picked ps (map (fun b : cellblock => order (snd b)) cs) ps' /\ map (@List.length V) ps' = sizes cs'.
  Proof.
    unfold sizes. induction 1 as [|b b' bs bs' [H1 H2] F IH]; intros [|p ps] ps' S0 E; try discriminate.
    - injection E as <-. split; [constructor|reflexivity].
    - cbn [combine mapM fst snd] in E. destruct (take p _) as [x|] eqn:T; [|discriminate]. cbn [bind] in E. destruct (mapM _ (combine bs ps)) as [xs|] eqn:M; [|discriminate]. cbn [bind] in E. injection E as <-.
      cbn [map] in S0. injection S0 as S1 S2. destruct (IH ps xs S2 M) as [A B]. apply take_picked in T. split; cbn [map]; [constructor; auto|]. rewrite B. f_equal.
      rewrite (picked_len _ _ _ T). symmetry. exact (picked_len _ _ _ H2).
  Qed.
  Lemma Forall2_trans3 {A B D E} (R : A -> B -> Prop) (S1 : B -> D -> Prop) (f : B -> E) (T : A -> E -> D -> Prop) la lb ld :
    (forall a b d, R a b -> S1 b d -> T a (f b) d) -> Forall2 R la lb -> Forall2 S1 lb ld -> Forall3 T la (map f lb) ld.
  Proof. intros H F. revert ld. induction F; intros ld G; inversion G; subst; cbn [map]; constructor; eauto. Qed.

  Theorem prune_ok (m m' : mesh C V) : prune leb m = Ok m' -> cells m <> [] ->
    NoDup (points m') /\ (forall p, In p (points m') <-> In p (points m)) /\
    (exists js, picked (points m) js (points m') /\
       (Forall (fun kv => List.length (snd kv) = List.length (points m)) (point_data m) ->
        Forall2 (fun kv kv' => fst kv' = fst kv /\ picked (snd kv) js (snd kv')) (point_data m) (point_data m'))) /\
    exists orders,
      Forall3 (fun b is b' => fst b' = fst b /\ kept_cells (points m) (points m') (snd b) is (snd b')) (cells m) orders (cells m') /\
      Forall2 (fun kv kv' => fst kv' = fst kv /\ exists ps ps', concat ps = snd kv /\ map (@List.length V) ps = sizes (cells m) /\
        concat ps' = snd kv' /\ map (@List.length V) ps' = sizes (cells m') /\ Forall3 picked ps orders ps') (cell_data m) (cell_data m') /\
      field_data m' = field_data m.
  Proof.
    intros E NE. rewrite prune_phases in E. destruct (first_phase m) as [[[pts pd] cs]|] eqn:F1; [|discriminate]. cbn [bind] in E.
    destruct (first_ok _ _ _ _ F1) as (N & S1 & (js & J1 & J2) & M). unfold second_phase in E.
    destruct (mapM _ (cell_data m)) as [pieces|] eqn:PI; [|discriminate]. cbn [bind] in E.
    destruct (mapM _ cs) as [cs'|] eqn:CS; [|discriminate]. cbn [bind] in E.
    destruct (mapM _ pieces) as [data'|] eqn:DA; [|discriminate]. cbn [bind] in E. injection E as <-. cbn [points cells point_data cell_data field_data].
    split; [exact N|]. split; [exact S1|]. split.
    - exists js. split; [exact J1|]. intros LP. destruct J2 as [J2 | [-> ->]]; [exact J2|]. clear -LP. induction LP as [|kv pd L LP IH]; constructor; [|exact IH]. split; [reflexivity|]. rewrite <- L. apply picked_seq.
    - assert (CH : Forall2 chosen_cells cs cs').
      { apply mapM_F2 in CS. eapply Forall2_impl; [|exact CS]. cbn beta. intros b b' E. destruct (take (snd b) _) as [r|] eqn:T; [|discriminate]. injection E as <-. split; [reflexivity|]. now apply take_picked. }
      exists (map (fun b : cellblock => order (snd b)) cs). split; [|split; [|reflexivity]].
      + eapply (Forall2_trans3 (moved (points m) pts) chosen_cells); eauto. intros b b1 b' M1 C1. cbn beta. now apply chosen_kept.
      + pose proof (pieces_ok _ _ _ NE PI) as PO. apply mapM_F2 in DA. pose proof (moved_sizes _ _ _ _ M) as SZ. clear -PO DA CH SZ.
        revert data' DA. induction PO as [|kv kp cd pieces (K1 & K2 & K3) PO IH]; intros data' DA; inversion DA as [|? d ? ds E DA']; subst; constructor; [|now apply IH].
        destruct (mapM _ (combine cs (snd kp))) as [ps'|] eqn:MP; [|discriminate]. injection E as <-. cbn [fst snd]. split; [exact K1|].
        rewrite <- SZ in K3. destruct (data_picked _ _ CH _ _ K3 MP) as [A B]. exists (snd kp), ps'. rewrite <- SZ. auto.
  Qed.

  Lemma concat_lengths {A} (a b : list (list A)) : map (@List.length A) a = map (@List.length A) b -> concat a = concat b -> a = b.
  Proof.
    revert b. induction a as [|x a IH]; intros [|y b] L E; try discriminate; [reflexivity|]. cbn [map concat] in *. injection L as L1 L2.
    assert (x = y). { transitivity (firstn (List.length x) (x ++ concat a)); [now rewrite firstn_app, Nat.sub_diag, firstn_all, app_nil_r|]. rewrite E, L1. now rewrite firstn_app, Nat.sub_diag, firstn_all, app_nil_r. }
    subst y. apply app_inv_head in E. f_equal. auto.
  Qed.
  Lemma split_back (cs : list cellblock) (ps : list (list V)) : cs <> [] -> map (@List.length V) ps = sizes cs -> split cs (concat ps) = Ok ps.
  Proof.
    intros NE L. destruct (split_ok cs (concat ps) NE) as (qs & E & C1 & S1).
    - unfold n_cells. unfold sizes in L. change (fun c : cellblock => List.length (snd c)) with (fun b : str * list (list nat) => List.length (snd b)). rewrite <- L. clear. induction ps as [|p ps IH]; [reflexivity|]. cbn [concat map list_sum fold_right]. rewrite app_length, IH. reflexivity.
    - rewrite E. f_equal. apply concat_lengths; [congruence|exact C1].
  Qed.
  Lemma take_all {A} (l : list A) n : List.length l = n -> take l (seq 0 n) = Ok l.
  Proof. intros <-. apply take_picked, picked_seq. Qed.

  Theorem prune_again (m m' : mesh C V) : prune leb m = Ok m' -> cells m <> [] -> prune leb m' = Ok m'.
  Proof.
    intros E NE. destruct (prune_ok _ _ E NE) as (N & _ & _ & orders & B & D & _). rewrite prune_phases.
    assert (OB : Forall (fun b : cellblock => order (snd b) = seq 0 (List.length (snd b))) (cells m')).
    { rewrite prune_phases in E. destruct (first_phase m) as [[[pts pd] cs]|]; [|discriminate]. cbn [bind] in E. unfold second_phase in E.
      destruct (mapM _ (cell_data m)) as [pieces|]; [|discriminate]. cbn [bind] in E.
      destruct (mapM _ cs) as [cs'|] eqn:CS; [|discriminate]. cbn [bind] in E.
      destruct (mapM _ pieces) as [data'|]; [|discriminate]. cbn [bind] in E. injection E as <-. cbn [cells]. apply mapM_F2 in CS. clear -CS.
      induction CS as [|b b' cs cs' E CS IH]; constructor; [|exact IH]. destruct (take (snd b) _) as [r|] eqn:T; [|discriminate]. injection E as <-. cbn [snd]. eapply order_again. apply take_picked. exact T. }
    assert (NE' : cells m' <> []) by (intros X; rewrite X in B; inversion B as [E1 E2 E3 | ]; congruence).
    unfold first_phase. assert (L : List.length (points m') = List.length (unique row (points m'))) by now apply (nodup_unique_length row OR).
    destruct (Nat.ltb_spec (List.length (unique row (points m'))) (List.length (points m'))); [lia|]. cbn [bind]. unfold second_phase.
    assert (P1 : exists pieces, mapM (fun kv => let* ps := split (cells m') (snd kv) in Ok (fst kv, ps)) (cell_data m') = Ok pieces /\
      Forall2 (fun kv kp => fst kp = fst kv /\ concat (snd kp) = snd kv /\ map (@List.length V) (snd kp) = sizes (cells m')) (cell_data m') pieces).
    { destruct (mapM_total (fun kv : str * list V => let* ps := split (cells m') (snd kv) in Ok (fst kv, ps)) (cell_data m')) as (l & El).
      - intros kv I. destruct (Forall2_In_r _ _ _ _ D I) as (kv0 & _ & _ & ps & ps' & _ & _ & C1 & S1 & _). rewrite <- C1, (split_back _ _ NE' S1). cbn [bind]. eauto.
      - exists l. split; [exact El|]. now apply pieces_ok. }
    destruct P1 as (pieces & EP & FP). rewrite EP. cbn [bind].
    assert (EC : mapM (fun b : cellblock => let* r := take (snd b) (order (snd b)) in Ok (fst b, r)) (cells m') = Ok (cells m')).
    { clear -OB. apply mapM_F2. induction OB as [|[t rows] cs H OB IH]; constructor; [|exact IH]. cbn [fst snd] in *. rewrite H, take_all by reflexivity. reflexivity. }
    rewrite EC. cbn [bind].
    assert (ED : mapM (fun kv => let* ps := mapM (fun bp : cellblock * list V => take (snd bp) (order (snd (fst bp)))) (combine (cells m') (snd kv)) in Ok (fst kv, concat ps)) pieces = Ok (cell_data m')).
    { apply mapM_F2. clear -FP OB. induction FP as [|kv kp cd pieces (K1 & K2 & K3) FP IH]; constructor; [|exact IH].
      assert (X : mapM (fun bp : cellblock * list V => take (snd bp) (order (snd (fst bp)))) (combine (cells m') (snd kp)) = Ok (snd kp)).
      { clear -K3 OB. revert K3. generalize (snd kp). unfold sizes. induction OB as [|b cs H OB IH]; intros ps K3; destruct ps as [|p ps]; try discriminate; [reflexivity|].
        cbn [map] in K3. injection K3 as K1 K2. cbn [combine mapM fst snd]. rewrite H, take_all by exact K1. cbn [bind]. rewrite IH by exact K2. reflexivity. }
      rewrite X. cbn [bind]. rewrite K2, K1. destruct kv; reflexivity. }
    rewrite ED. cbn [bind]. destruct m'; reflexivity.
  Qed.

  Theorem prune_total (m : mesh C V) : cells m <> [] ->
    Forall (fun b : cellblock => Forall (Forall (fun i => i < List.length (points m))) (snd b)) (cells m) ->
    Forall (fun kv => List.length (snd kv) = List.length (points m)) (point_data m) ->
    Forall (fun kv => List.length (snd kv) = n_cells (cells m)) (cell_data m) -> exists m', prune leb m = Ok m'.
  Proof.
    intros NE FN FP FD. rewrite prune_phases.
    assert (F1 : exists x, first_phase m = Ok x).
    { unfold first_phase. destruct (_ <? _); [|eauto].
      destruct (mapM_total (fun kv : str * list V => let* v := take (snd kv) (unique_index row (points m)) in Ok (fst kv, v)) (point_data m)) as (l & El).
      - intros kv I. destruct (take_total (snd kv) (unique_index row (points m))) as (v & Ev); [|rewrite Ev; cbn [bind]; eauto]. rewrite Forall_forall in FP. rewrite (FP kv I).
        apply Forall_forall. intros i Ii. unfold unique_index in Ii. apply in_map_iff in Ii as (u & <- & Iu). apply (position_lt row OR). now apply (unique_In row OR).
      - rewrite El. cbn [bind].
        destruct (mapM_total (fun b : cellblock => let* r := mapM (take (unique_inverse row (points m))) (snd b) in Ok (fst b, r)) (cells m)) as (l2 & El2); [|rewrite El2; cbn [bind]; eauto].
        intros b I. rewrite Forall_forall in FN. specialize (FN b I).
        destruct (mapM_total (take (unique_inverse row (points m))) (snd b)) as (r & Er); [|rewrite Er; cbn [bind]; eauto].
        intros c Ic. rewrite Forall_forall in FN. apply take_total. unfold unique_inverse. rewrite map_length. auto. }
    destruct F1 as ([[pts pd] cs] & F1). rewrite F1. cbn [bind]. destruct (first_ok _ _ _ _ F1) as (_ & _ & _ & M). unfold second_phase.
    destruct (mapM_total (fun kv : str * list V => let* ps := split (cells m) (snd kv) in Ok (fst kv, ps)) (cell_data m)) as (pieces & EP).
    { intros kv I. rewrite Forall_forall in FD. destruct (split_ok _ _ NE (FD kv I)) as (ps & E & _). rewrite E. cbn [bind]. eauto. }
    rewrite EP. cbn [bind]. apply pieces_ok in EP; [|exact NE].
    destruct (mapM_total (fun b : cellblock => let* r := take (snd b) (order (snd b)) in Ok (fst b, r)) cs) as (cs' & EC).
    { intros b _. destruct (order_take (snd b)) as (r & Er). rewrite Er. cbn [bind]. eauto. }
    rewrite EC. cbn [bind].
    destruct (mapM_total (fun kv => let* ps := mapM (fun bp : cellblock * list V => take (snd bp) (order (snd (fst bp)))) (combine cs (snd kv)) in Ok (fst kv, concat ps)) pieces) as (d & ED); [|rewrite ED; cbn [bind]; eauto].
    intros kp I. destruct (Forall2_In_r _ _ _ _ EP I) as (kv & _ & _ & _ & SZ). rewrite <- (moved_sizes _ _ _ _ M) in SZ.
    destruct (mapM_total (fun bp : cellblock * list V => take (snd bp) (order (snd (fst bp)))) (combine cs (snd kp))) as (ps & Eps); [|rewrite Eps; cbn [bind]; eauto].
    intros [b p] Ib. cbn [fst snd]. assert (LB : List.length p = List.length (snd b)).
    { clear -SZ Ib. revert SZ Ib. generalize (snd kp). unfold sizes. induction cs as [|b0 cs IH]; intros [|p0 ps] SZ Ib; cbn [combine] in Ib; try destruct Ib.
      - injection H as -> ->. cbn [map] in SZ. congruence.
      - cbn [map] in SZ. injection SZ as _ SZ. eapply IH; eauto. }
    apply take_total. rewrite LB. destruct (order_take (snd b)) as (r & Er). apply take_picked in Er. clear -Er. induction Er; constructor; eauto using nth_lt.
  Qed.
End Prune.
