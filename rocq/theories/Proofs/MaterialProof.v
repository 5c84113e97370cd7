(** Materials of cells. *)
From Coq Require Import String Ascii Arith ZArith Bool Lia List.
From Verif Require Import Base.Str Model.Py Model.Numpy Model.Mesh Model.MeshOps Spec.Materials Proofs.DictLemmas Proofs.NumpyProof Proofs.BlocksProof Proofs.ReorderProof.
Import ListNotations.
Local Open Scope nat_scope.

Lemma marked_In b i k : In k (marked b i) <-> exists j, k = i + j /\ nth_error b j = Some true.
Proof.
  revert i. induction b as [|x b IH]; intros i; cbn [marked]; [split; [intros []|intros ([|j] & _ & E); discriminate]|].
  rewrite in_app_iff, IH. split.
  - intros [I | (j & -> & E)]; [destruct x; [destruct I as [<- | []]; exists 0; split; [lia|reflexivity]|destruct I]|]. exists (S j). split; [lia|exact E].
  - intros ([|j] & -> & E); cbn [nth_error] in E; [injection E as ->; left; left; lia|right; exists j; split; [lia|exact E]].
Qed.
Lemma selected_spec n s is : selected n s = Ok is -> forall k, In k is <-> k < n /\ chosen s k.
Proof.
  destruct s as [l | l | l]; cbn [selected].
  - destruct (minmax_ok n l) eqn:M; cbn [guard bind]; [|discriminate]. intros E; injection E as <-. intros k. rewrite in_map_iff. cbn [chosen].
    assert (R : forall z, In z l -> (0 <= z < Z.of_nat n)%Z).
    { unfold minmax_ok in M. destruct l as [|z0 l]; [discriminate|]. rewrite forallb_forall in M. intros z I. specialize (M z I). apply andb_true_iff in M as [A B]. lia. }
    split; [intros (z & <- & I); specialize (R z I); split; [lia|]; now rewrite Z2Nat.id by lia|]. intros [L I]. exists (Z.of_nat k). split; [lia|exact I].
  - destruct (minmax_ok n _); cbn [guard bind]; [|discriminate]. destruct (Nat.eqb_spec (List.length l) n); cbn [guard bind]; [|discriminate].
    intros E; injection E as <-. intros k. rewrite (marked_In _ 0 k). cbn [chosen]. split.
    + intros (j & -> & E). split; [subst n; apply nth_error_Some; cbn; congruence|exact E].
    + intros [L E]. exists k. auto.
  - destruct l as [|b l]; [discriminate|]. remember (b :: l) as l' eqn:EL. clear EL. destruct (Nat.eqb_spec (List.length l') n); cbn [guard bind]; [|discriminate].
    intros E; injection E as <-. intros k. rewrite (marked_In _ 0 k). cbn [chosen]. split.
    + intros (j & -> & E). split; [subst n; apply nth_error_Some; cbn [Nat.add]; congruence|exact E].
    + intros [L E]. exists k. auto.
Qed.
Lemma fold_set_nth {A} (x : A) is d k y : nth_error d k = Some y ->
  (In k is -> nth_error (fold_left (fun d i => set_nth i x d) is d) k = Some x) /\
  (~ In k is -> nth_error (fold_left (fun d i => set_nth i x d) is d) k = Some y).
Proof.
  revert d y. induction is as [|i is IH]; intros d y E; cbn [fold_left In]; [tauto|].
  assert (L : k < List.length d) by (apply nth_error_Some; congruence). destruct (Nat.eq_dec i k) as [-> | NE].
  - destruct (IH (set_nth k x d) x) as [A1 A2]; [now apply nth_set_same|]. split; [|tauto]. intros _. destruct (in_dec Nat.eq_dec k is); auto.
  - destruct (IH (set_nth i x d) y) as [A1 A2]; [now rewrite nth_set_other|]. split; [intros [X | X]; [contradiction|auto]|]. tauto.
Qed.
Lemma fold_set_length {A} (x : A) is d : List.length (fold_left (fun d i => set_nth i x d) is d) = List.length d.
Proof. revert d. induction is as [|i is IH]; intros d; cbn [fold_left]; auto. now rewrite IH, set_nth_length. Qed.
Lemma zmax_ge l z : In z l -> (z <= zmax l)%Z.
Proof.
  destruct l as [|x r]; [intros []|]. cbn [zmax]. assert (G : forall r x z, (z = x \/ In z r) -> (z <= fold_left Z.max r x)%Z).
  { clear. induction r as [|y r IH]; intros x z H; cbn [fold_left]; [destruct H as [-> | []]; lia|].
    destruct H as [-> | [-> | H]]; [etransitivity; [|apply IH; now left]; lia|etransitivity; [|apply IH; now left]; lia|apply IH; now right]. }
  intros [-> | I]; apply G; auto.
Qed.


Definition tied (field : list (str * Z)) (i : Z) (n : str) : Prop := In (n, i) field.
Definition rel (st : materials_state) (l : list str) : Prop :=
  NoDup (map fst (snd st)) /\ NoDup (map snd (snd st)) /\ Forall2 (tied (snd st)) (fst st) l.

Lemma nodup_fst_eq {A B} (f : list (A * B)) k v v' : NoDup (map fst f) -> In (k, v) f -> In (k, v') f -> v = v'.
Proof.
  induction f as [|[a b] f IH]; [intros _ []|]. cbn [map fst]. intros N I I'. inversion N; subst.
  destruct I as [E | I], I' as [E' | I']; [congruence| | |auto].
  - injection E as -> ->. destruct H1. change k with (fst (k, v')). now apply in_map.
  - injection E' as -> ->. destruct H1. change k with (fst (k, v)). now apply in_map.
Qed.
Lemma nodup_snd_eq {A B} (f : list (A * B)) k k' v : NoDup (map snd f) -> In (k, v) f -> In (k', v) f -> k = k'.
Proof.
  induction f as [|[a b] f IH]; [intros _ []|]. cbn [map snd]. intros N I I'. inversion N; subst.
  destruct I as [E | I], I' as [E' | I']; [congruence| | |auto].
  - injection E as -> ->. destruct H1. change v with (snd (k', v)). now apply in_map.
  - injection E' as -> ->. destruct H1. change v with (snd (k, v)). now apply in_map.
Qed.
Lemma name_of_ok field i m : name_of field i = Ok m -> In (m, i) field.
Proof.
  unfold name_of. destruct (find _ _) as [[m' i']|] eqn:E; [|discriminate]. apply find_some in E as [I E]. cbn [snd] in E. apply Z.eqb_eq in E. subst i'.
  cbn [fst]. intros X; injection X as <-. now apply in_rev.
Qed.
Lemma name_of_in field m i : NoDup (map snd field) -> In (m, i) field -> name_of field i = Ok m.
Proof.
  intros N I. unfold name_of. destruct (find _ (rev field)) as [[m' i']|] eqn:E.
  - apply find_some in E as [I' E]. cbn [snd] in E. apply Z.eqb_eq in E. subst i'. apply in_rev in I'. cbn [fst]. f_equal.
    eapply nodup_snd_eq; eauto.
  - exfalso. apply in_rev in I. apply (find_none _ _ E) in I. cbn [snd] in I. rewrite Z.eqb_refl in I. discriminate.
Qed.
Lemma mapM_F2 {A B} (f : A -> res B) l l' : mapM f l = Ok l' <-> Forall2 (fun x y => f x = Ok y) l l'.
Proof.
  revert l'. induction l as [|x l IH]; intros l'; cbn [mapM].
  - split; [intros E; injection E as <-; constructor|]. intros F. inversion F. reflexivity.
  - split.
    + destruct (f x) as [y|] eqn:E; [|discriminate]. cbn [bind]. destruct (mapM f l) as [r|] eqn:M; [|discriminate]. cbn [bind]. intros X; injection X as <-. constructor; auto. now apply IH.
    + intros F. inversion F; subst. rewrite H1. cbn [bind]. apply IH in H3. rewrite H3. reflexivity.
Qed.
Lemma shown_rel st l : NoDup (map fst (snd st)) -> NoDup (map snd (snd st)) -> materials st = Names l -> rel st l.
Proof.
  destruct st as [data field]. cbn [snd fst materials]. intros N1 N2 E. split; [exact N1|]. split; [exact N2|]. cbn [fst snd].
  destruct field as [|kv f]; [discriminate|]. destruct (mapM _ data) as [l'|] eqn:M; [|discriminate]. injection E as <-.
  apply mapM_F2 in M. clear -M. induction M; constructor; auto. now apply name_of_ok.
Qed.
Lemma rel_shown st l : fst st <> [] -> rel st l -> materials st = Names l.
Proof.
  destruct st as [data field]. cbn [fst]. intros NE (N1 & N2 & F). cbn [fst snd] in *. cbn [materials].
  assert (M : mapM (name_of field) data = Ok l) by (apply mapM_F2; clear -N2 F; induction F; constructor; auto; now apply name_of_in).
  destruct field as [|kv f]; [|now rewrite M]. destruct F as [|? ? ? ? []]; congruence.
Qed.
Lemma assoc_ok {A} k (f : list (str * A)) v : assoc k f = Ok v -> In (k, v) f.
Proof.
  induction f as [|[a b] f IH]; cbn [assoc]; [discriminate|]. destruct (streqb k a) eqn:E; [|right; auto]. apply streqb_eq in E. subst. intros X; injection X as <-. now left.
Qed.
Lemma assoc_err {A} k (f : list (str * A)) e : assoc k f = Err e -> ~ In k (map fst f).
Proof.
  induction f as [|[a b] f IH]; cbn [assoc map fst]; [intros _ []|]. destruct (streqb k a) eqn:E; [discriminate|]. intros H [-> | I]; [now rewrite streqb_refl in E|]. now apply IH.
Qed.
Lemma field_set_known m i f : assoc m f = Ok i -> field_set m i f = f.
Proof.
  induction f as [|[a b] f IH]; cbn [assoc field_set]; [discriminate|]. destruct (streqb m a); [intros X; injection X as <-; reflexivity|]. intros H. now rewrite IH.
Qed.
Lemma field_set_new m i f : ~ In m (map fst f) -> field_set m i f = f ++ [(m, i)].
Proof.
  induction f as [|[a b] f IH]; cbn [field_set map fst In app]; [reflexivity|]. intros N. destruct (streqb m a) eqn:E; [apply streqb_eq in E; subst; tauto|]. rewrite IH; tauto.
Qed.
Lemma Forall2_set_nth {A B} (R : A -> B -> Prop) i x y l l' : R x y -> Forall2 R l l' -> Forall2 R (set_nth i x l) (set_nth i y l').
Proof.
  intros H F. revert i. induction F; intros [|i]; cbn [set_nth]; constructor; auto.
Qed.
Lemma Forall2_sets {A B} (R : A -> B -> Prop) is x y l l' : R x y -> Forall2 R l l' ->
  Forall2 R (fold_left (fun d i => set_nth i x d) is l) (fold_left (fun d i => set_nth i y d) is l').
Proof. intros H. revert l l'. induction is as [|i is IH]; intros l l' F; cbn [fold_left]; auto. apply IH. now apply Forall2_set_nth. Qed.
Lemma Forall2_In_r {A B} (R : A -> B -> Prop) l l' y : Forall2 R l l' -> In y l' -> exists x, In x l /\ R x y.
Proof. induction 1; cbn [In]; [intros []|]. intros [<- | I]; [eauto|]. destruct (IHForall2 I) as (z & ? & ?). eauto. Qed.

Lemma sets_assigned m s is l : selected (List.length l) s = Ok is -> assigned m s l (fold_left (fun d i => set_nth i m d) is l).
Proof.
  intros E. split; [apply fold_set_length|]. intros k L. destruct (nth_error l k) as [y|] eqn:Y; [|apply nth_error_None in Y; lia].
  pose proof (selected_spec _ _ _ E k) as S1. destruct (fold_set_nth m is l k y Y) as [A B]. split.
  - intros C. apply A, S1. auto.
  - intros C. apply B. intros I. apply S1 in I. tauto.
Qed.

Lemma Forall2_length {A B} (R : A -> B -> Prop) l l' : Forall2 R l l' -> List.length l = List.length l'.
Proof. induction 1; cbn [List.length]; congruence. Qed.
Lemma NoDup_app_snoc {A} (l : list A) x : NoDup l -> ~ In x l -> NoDup (l ++ [x]).
Proof.
  intros N I. apply NoDup_rev in N. rewrite <- (rev_involutive (l ++ [x])). apply NoDup_rev. rewrite rev_app_distr. cbn [rev app]. constructor; [|exact N].
  intros X. apply I. now apply in_rev.
Qed.
Lemma set_step m s st st' l : fst st <> [] -> rel st l -> set_material m s st = Ok st' ->
  (In m (map fst (snd st)) \/ forall n, In n (map fst (snd st)) -> In n l) ->
  (exists k, k < List.length l /\ chosen s k) ->
  exists l', assigned m s l l' /\ rel st' l' /\ fst st' <> [] /\
    (forall n, In n (map fst (snd st')) <-> n = m \/ In n (map fst (snd st))).
Proof.
  destruct st as [data field]. cbn [fst snd]. intros NE (N1 & N2 & F) E K (k0 & L0 & C0). cbn [fst snd] in *. unfold set_material in E.
  assert (LL : List.length data = List.length l) by (eapply Forall2_length; eauto).
  destruct (selected (List.length data) s) as [is|] eqn:S1; [|discriminate]. cbn [bind] in E.
  assert (I0 : In k0 is) by (eapply selected_spec; eauto; split; [lia|exact C0]).
  set (imat := match assoc m field with Ok i => i | Err _ => (zmax data + 1)%Z end) in *.
  assert (E' : st' = (fold_left (fun d i => set_nth i imat d) is data, field_set m imat field)).
  { destruct s; destruct is; try contradiction; injection E as <-; reflexivity. } clear E. subst st'. cbn [fst snd].
  exists (fold_left (fun d i => set_nth i m d) is l). split; [apply sets_assigned; now rewrite <- LL|].
  assert (NE' : fold_left (fun d i => set_nth i imat d) is data <> []).
  { intros X. apply (f_equal (@List.length Z)) in X. rewrite fold_set_length in X. destruct data; [congruence|discriminate]. }
  destruct (assoc m field) as [i|e] eqn:A; subst imat.
  - rewrite (field_set_known _ _ _ A). assert (I : In (m, i) field) by now apply assoc_ok. split; [split; [exact N1|]; split; [exact N2|]; cbn [fst snd]; now apply Forall2_sets|].
    split; [exact NE'|]. intros n. split; [auto|]. intros [-> | H]; [|exact H]. change m with (fst (m, i)). now apply in_map.
  - pose proof (assoc_err _ _ _ A) as NI. rewrite field_set_new by exact NI. destruct K as [K|K]; [contradiction|].
    assert (NZ : ~ In (zmax data + 1)%Z (map snd field)).
    { intros X. apply in_map_iff in X as ((n & j) & EJ & IJ). cbn [snd] in EJ.
      assert (IN : In n l) by (apply K; change n with (fst (n, j)); now apply in_map).
      destruct (Forall2_In_r _ _ _ _ F IN) as (i & Ii & T). unfold tied in T. assert (i = j) by (eapply nodup_fst_eq; eauto). subst i.
      apply zmax_ge in Ii. lia. }
    split; [split; [|split]|split; [exact NE'|]]; cbn [fst snd].
    + rewrite map_app. cbn [map fst]. apply NoDup_app_snoc; [exact N1|exact NI].
    + rewrite map_app. cbn [map snd]. apply NoDup_app_snoc; [exact N2|exact NZ].
    + apply Forall2_sets; [apply in_or_app; right; now left|]. generalize (zmax data + 1)%Z. clear -F. intros z. induction F; constructor; auto. unfold tied in *. apply in_or_app. now left.
    + intros n. rewrite map_app, in_app_iff. cbn [map fst In]. split; [intros [H | [-> | []]]; auto|]. intros [-> | H]; auto.
Qed.
(* END *)
Lemma valid_selected n s : valid n s -> exists is, selected n s = Ok is.
Proof.
  destruct s as [l | l | l]; cbn [valid selected].
  - intros [NE F]. unfold minmax_ok. destruct l as [|z l]; [congruence|]. replace (forallb _ _) with true; [cbn [guard bind]; eauto|].
    symmetry. apply forallb_forall. intros x I. rewrite Forall_forall in F. specialize (F x I). lia.
  - intros [E L]. replace (minmax_ok n _) with true.
    + cbn [guard bind]. rewrite E, Nat.eqb_refl. cbn [guard bind]. eauto.
    + symmetry. unfold minmax_ok. destruct l as [|b l]; [cbn [List.length] in E; lia|]. cbn [map].
      apply forallb_forall. intros x I. change (In x (map (fun b : bool => if b then 1 else 0)%Z (b :: l))) in I. apply in_map_iff in I as (y & <- & _). destruct y; lia.
  - intros [E L]. destruct l as [|b l]; [cbn [List.length] in E; lia|]. rewrite E, Nat.eqb_refl. cbn [guard bind]. eauto.
Qed.
Lemma assigned_eq m s l a b : (exists is, selected (List.length l) s = Ok is) -> assigned m s l a -> assigned m s l b -> a = b.
Proof.
  intros (is & E) [La A] [Lb B]. apply nth_error_ext. intros k. destruct (lt_dec k (List.length l)) as [L|L]; [|transitivity (@None str); [|symmetry]; apply nth_error_None; lia]. destruct (A k L) as [A1 A2], (B k L) as [B1 B2].
  pose proof (selected_spec _ _ _ E k) as S1. destruct (in_dec Nat.eq_dec k is) as [I | I].
  - apply S1 in I as [_ C]. rewrite A1, B1; auto.
  - assert (C : ~ chosen s k) by tauto. rewrite A2, B2; auto.
Qed.
Lemma chosen_lt n s k : valid n s -> chosen s k -> k < n.
Proof.
  destruct s as [l | l | l]; cbn [valid chosen].
  - intros [_ F] I. rewrite Forall_forall in F. apply F in I. lia.
  - intros [<- _] E. apply nth_error_Some. congruence.
  - intros [<- _] E. apply nth_error_Some. congruence.
Qed.
Lemma history_known a b l calls l' : (forall n, In n a <-> In n b) -> history a l calls l' -> history b l calls l'.
Proof.
  intros H X. revert b H. induction X; intros b' H'; [constructor|constructor; auto|]. econstructor; eauto.
  - destruct H2 as [I | I]; [left; now apply H'|right; intros n In1; apply I, H', In1].
  - apply IHX. intros n. cbn [In]. rewrite H'. tauto.
Qed.
Lemma history_ok calls : forall st before after, fst st <> [] -> rel st before -> history (map fst (snd st)) before calls after ->
  exists st', foldM (fun st c => set_material (fst c) (snd c) st) st calls = Ok st' /\ fst st' <> [] /\ rel st' after.
Proof.
  induction calls as [|[m s] calls IH]; intros st before after NE R H; inversion H; subst; cbn [foldM fst snd].
  - eauto.
  - assert (LL : List.length (fst st) = List.length before) by (destruct R as (_ & _ & F); eapply Forall2_length; eauto).
    assert (E : set_material m (NpBools b) st = Ok st).
    { destruct st as [data field]. cbn [fst] in LL, NE. unfold set_material. destruct (valid_selected (List.length data) (NpBools b)) as (is & E).
      { cbn [valid]. split; [congruence|]. destruct data; [congruence|cbn; lia]. }
      rewrite E. cbn [bind]. destruct is as [|k is]; [reflexivity|]. exfalso. apply (H6 k). eapply selected_spec; eauto. now left. }
    rewrite E. cbn [bind]. eapply IH; eauto.
  - assert (LL : List.length (fst st) = List.length before) by (destruct R as (_ & _ & F); eapply Forall2_length; eauto).
    destruct H4 as (k & CK). pose proof (chosen_lt _ _ _ H3 CK) as LK. destruct (valid_selected _ _ H3) as (is & E).
    destruct (set_material m s st) as [st1|] eqn:E1.
    + cbn [bind]. destruct (set_step m s st st1 before NE R E1 H8) as (l1 & A1 & R1 & NE1 & K1); [eauto|].
      assert (l1 = l') by (eapply assigned_eq; eauto). subst l1.
      eapply IH; eauto. eapply history_known; [|exact H9]. intros n. rewrite K1. cbn [In]. intuition congruence.
    + exfalso. destruct st as [data field]. unfold set_material in E1. cbn [fst] in LL. rewrite LL, E in E1. cbn [bind] in E1. destruct s, is; discriminate.
Qed.
Theorem materials_follow data field before calls after :
  NoDup (map fst field) -> NoDup (map snd field) -> data <> [] -> materials (data, field) = Names before ->
  history (map fst field) before calls after ->
  exists st, foldM (fun st c => set_material (fst c) (snd c) st) (data, field) calls = Ok st /\ materials st = Names after.
Proof.
  intros N1 N2 NE E H. apply shown_rel in E; auto. destruct (history_ok calls (data, field) before after NE E H) as (st & R & NE' & RL).
  exists st. split; [exact R|]. now apply rel_shown.
Qed.
Theorem selection_refused m s st : ~ valid (List.length (fst st)) s -> (forall l, s = PyBools l -> List.length (fst st) <> 1) -> exists e, set_material m s st = Err e.
Proof.
  intros V P. destruct st as [data field]. cbn [fst] in *. unfold set_material. destruct (selected (List.length data) s) as [is|e] eqn:E; [|cbn [bind]; eauto]. exfalso. apply V. clear V.
  destruct s as [l | l | l]; cbn [selected valid] in *.
  - destruct (minmax_ok (List.length data) l) eqn:M; [|discriminate]. unfold minmax_ok in M. destruct l as [|z l]; [discriminate|]. split; [discriminate|].
    rewrite forallb_forall in M. apply Forall_forall. intros x I. specialize (M x I). apply andb_true_iff in M as [A B]. lia.
  - destruct (minmax_ok _ _) eqn:M; [|discriminate]. cbn [guard bind] in E. destruct (Nat.eqb_spec (List.length l) (List.length data)) as [EQ|]; [|discriminate]. split; [exact EQ|].
    specialize (P l eq_refl). destruct l as [|b l]; [discriminate|]. cbn [List.length] in EQ. lia.
  - destruct l as [|b l]; [discriminate|]. destruct (Nat.eqb_spec (List.length (b :: l)) (List.length data)) as [EQ|]; [|discriminate]. split; [exact EQ|]. rewrite <- EQ. cbn [List.length]. lia.
Qed.
