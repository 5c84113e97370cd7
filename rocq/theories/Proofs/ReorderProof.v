(** Reordering by labels. *)
From Coq Require Import String Ascii ZArith Bool Lia Permutation List.
From Verif Require Import Base.Str Base.Flt Model.Py Model.Dispatch Model.Output Spec.Output Proofs.DictLemmas.
Import ListNotations.
Local Open Scope nat_scope.

Lemma last_index_none l ls : last_index l ls = None <-> ~ In l ls.
Proof.
  induction ls as [|x r IH]; cbn [last_index In]; [tauto|]. destruct (last_index l r) as [i|] eqn:E.
  - split; [discriminate|]. intros N. exfalso. apply N. right. destruct (in_dec str_eq_dec l r) as [|H]; auto.
    apply IH in H. discriminate.
  - destruct (streqb l x) eqn:S.
    + apply streqb_eq in S as ->. split; [discriminate|]. intros []; auto.
    + split; auto. intros _ [->|H]; [rewrite streqb_refl in S; discriminate|]. now apply IH in H.
Qed.
Lemma last_index_some l ls i : last_index l ls = Some i -> nth_error ls i = Some l.
Proof.
  revert i. induction ls as [|x r IH]; cbn [last_index]; [discriminate|]. intros i.
  destruct (last_index l r) as [j|] eqn:E.
  - intros [= <-]. cbn. auto.
  - destruct (streqb l x) eqn:S; [|discriminate]. apply streqb_eq in S as ->. now intros [= <-].
Qed.
Lemma last_index_nodup l ls i : NoDup ls -> nth_error ls i = Some l -> last_index l ls = Some i.
Proof.
  intros N H. destruct (last_index l ls) as [j|] eqn:E.
  - f_equal. apply last_index_some in E. apply (proj1 (NoDup_nth_error ls) N); [|congruence].
    apply nth_error_Some. congruence.
  - apply last_index_none in E. exfalso. apply E. eapply nth_error_In; eauto.
Qed.

Lemma nth_error_ext {A} (l l' : list A) : (forall i, nth_error l i = nth_error l' i) -> l = l'.
Proof.
  revert l'. induction l as [|a l IH]; intros [|b l'] H; auto.
  - discriminate (H 0).
  - discriminate (H 0).
  - pose proof (H 0) as E. cbn in E. injection E as ->. f_equal. apply IH. intros i. exact (H (S i)).
Qed.
Lemma mapM_length {A B} (f : A -> res B) l bs : mapM f l = Ok bs -> List.length bs = List.length l.
Proof.
  revert bs. induction l as [|a l IH]; intros bs; cbn [mapM]; [now intros [= <-]|].
  destruct (f a); cbn [bind]; [|discriminate]. destruct (mapM f l); cbn [bind]; [|discriminate].
  intros [= <-]. cbn. now rewrite (IH _ eq_refl).
Qed.
Lemma mapM_nth {A B} (f : A -> res B) l bs i a : mapM f l = Ok bs -> nth_error l i = Some a ->
  exists b, f a = Ok b /\ nth_error bs i = Some b.
Proof.
  revert bs i. induction l as [|x l IH]; intros bs i; cbn [mapM]; [now destruct i|].
  destruct (f x) as [y|] eqn:E; cbn [bind]; [|discriminate]. destruct (mapM f l) as [ys|]; cbn [bind]; [|discriminate].
  intros [= <-]. destruct i; cbn [nth_error]; [intros [= ->]; eauto|]. now apply IH.
Qed.
Lemma mapM_err {A B} (f : A -> res B) e l : (forall a, In a l -> f a = Err e \/ exists b, f a = Ok b) ->
  (exists a, In a l /\ f a = Err e) -> mapM f l = Err e.
Proof.
  induction l as [|x l IH]; intros H (a & I & E); [destruct I|]. cbn [mapM].
  destruct (H x (or_introl eq_refl)) as [-> | (b & F)]; [reflexivity|]. rewrite F. cbn [bind].
  rewrite IH; [reflexivity|intros; apply H; now right|]. destruct I as [->|I]; [congruence|eauto].
Qed.
Lemma mapM_total {A B} (f : A -> res B) l : (forall a, In a l -> exists b, f a = Ok b) -> exists bs, mapM f l = Ok bs.
Proof.
  induction l as [|x l IH]; intros H; [now exists []|]. cbn [mapM]. destruct (H x (or_introl eq_refl)) as (b & ->). cbn [bind].
  destruct IH as (bs & ->); [intros; apply H; now right|]. cbn [bind]. eauto.
Qed.

Lemma element_labels own : mapM element_label (map single own) = Ok own.
Proof. induction own as [|s r IH]; cbn [mapM map]; auto. unfold element_label at 1, single at 1. cbn [bind]. now rewrite IH. Qed.

Lemma pick_ok {A} idx (x : list A) : Forall (fun i => i < List.length x) idx ->
  exists y, pick idx x = Ok y /\ List.length y = List.length idx /\
  forall j i, nth_error idx j = Some i -> nth_error y j = nth_error x i.
Proof.
  intros F. rewrite Forall_forall in F. unfold pick.
  destruct (mapM_total (fun i => match nth_error x i with Some v => Ok v | None => Err IndexError end) idx) as (y & E).
  - intros i I. apply F in I. apply nth_error_Some in I. destruct (nth_error x i); [eauto|congruence].
  - exists y. split; auto. split; [eapply mapM_length; eauto|]. intros j i H.
    destruct (mapM_nth _ _ _ _ _ E H) as (b & G & ->). destruct (nth_error x i); congruence.
Qed.

Lemma nth_sing own i l : nth_error own i = Some l -> nth_error (map single own) i = Some [l].
Proof. intros H. now apply (map_nth_error single) in H. Qed.

Theorem reorder_keeps o own labels :
  o_labels o = Some (map single own) -> NoDup own -> Permutation own labels ->
  (forall k c, In (k, c) (o_data o) -> List.length c = List.length own) ->
  exists o', reorder_labels o labels = Ok o' /\ o_type o' = o_type o /\ o_format o' = o_format o /\
    o_time o' = o_time o /\ o_labels o' = Some (map single labels) /\ names o' = names o /\
    forall n k c, nth_error (o_data o) n = Some (k, c) ->
      exists c', nth_error (o_data o') n = Some (k, c') /\ List.length c' = List.length labels /\
        forall i j l, nth_error own i = Some l -> nth_error labels j = Some l -> nth_error c' j = nth_error c i.
Proof.
  intros L N P D. unfold reorder_labels. rewrite L. rewrite map_length, (Permutation_length P), Nat.eqb_refl.
  cbn [guard bind]. rewrite element_labels. cbn [bind].
  set (f := fun l => match last_index l own with Some i => Ok i | None => Err KeyError end).
  destruct (mapM_total f labels) as (idx & E).
  { intros l I. unfold f. destruct (last_index l own) eqn:X; [eauto|]. apply last_index_none in X.
    exfalso. apply X. eapply Permutation_in; [symmetry; exact P|auto]. }
  rewrite E. cbn [bind].
  assert (IX : forall j l, nth_error labels j = Some l -> exists i, nth_error idx j = Some i /\ nth_error own i = Some l).
  { intros j l H. destruct (mapM_nth _ _ _ _ _ E H) as (i & G & I). exists i. split; auto. unfold f in G.
    destruct (last_index l own) eqn:X; [|discriminate]. injection G as ->. now apply last_index_some. }
  assert (B : Forall (fun i => i < List.length own) idx).
  { apply Forall_forall. intros i I. apply In_nth_error in I as (j & J).
    destruct (nth_error labels j) as [l|] eqn:Y.
    - destruct (IX _ _ Y) as (i' & J' & O). rewrite J in J'. injection J' as <-. apply nth_error_Some. congruence.
    - apply nth_error_None in Y. rewrite <- (mapM_length _ _ _ E) in Y. apply nth_error_None in Y. congruence. }
  destruct (pick_ok idx (map single own)) as (own' & P1 & P2 & P3).
  { now rewrite map_length. }
  rewrite P1. cbn [bind].
  set (g := fun kv : str * list flt => let* v := pick idx (snd kv) in Ok (fst kv, v)).
  destruct (mapM_total g (o_data o)) as (data & E').
  { intros [k c] I. unfold g. cbn [fst snd]. destruct (pick_ok idx c) as (y & -> & _); [|cbn; eauto].
    now rewrite (D _ _ I). }
  rewrite E'. cbn [bind]. eexists. split; [reflexivity|]. cbn [o_type o_format o_time o_labels o_data names].
  split; [auto|]. split; [auto|]. split; [auto|].
  assert (G : forall n k c, nth_error (o_data o) n = Some (k, c) ->
     exists c', nth_error data n = Some (k, c') /\ pick idx c = Ok c').
  { intros n k c H. destruct (mapM_nth _ _ _ _ _ E' H) as (b & G1 & G2). unfold g in G1. cbn [fst snd] in G1.
    destruct (pick idx c) as [c'|]; cbn [bind] in G1; [|discriminate]. injection G1 as <-. eauto. }
  split; [|split].
  - f_equal. apply nth_error_ext. intros j. destruct (nth_error labels j) as [l|] eqn:J.
    + destruct (IX _ _ J) as (i & I1 & I2). rewrite (P3 _ _ I1). now rewrite (nth_sing _ _ _ I2), (nth_sing _ _ _ J).
    + transitivity (@None (list str)); [|symmetry; apply nth_error_None; rewrite map_length; now apply nth_error_None].
      apply nth_error_None. rewrite P2, (mapM_length _ _ _ E). now apply nth_error_None.
  - unfold names. cbn [o_data]. apply nth_error_ext. intros n. destruct (nth_error (o_data o) n) as [[k c]|] eqn:H.
    + destruct (G _ _ _ H) as (c' & H' & _). now rewrite (map_nth_error fst _ _ H), (map_nth_error fst _ _ H').
    + transitivity (@None str); [|symmetry; apply nth_error_None; rewrite map_length; now apply nth_error_None].
      apply nth_error_None. rewrite map_length, (mapM_length _ _ _ E'). now apply nth_error_None.
  - intros n k c H. destruct (G _ _ _ H) as (c' & H1 & H2). exists c'. split; auto.
    destruct (pick_ok idx c) as (y & Y1 & Y2 & Y3).
    { apply nth_error_In in H. now rewrite (D _ _ H). }
    rewrite H2 in Y1. injection Y1 as <-. split; [now rewrite Y2, (mapM_length _ _ _ E)|].
    intros i j l I J. destruct (IX _ _ J) as (i' & J1 & J2). rewrite (Y3 _ _ J1). f_equal.
    apply (proj1 (NoDup_nth_error own) N); [|congruence]. apply nth_error_Some. congruence.
Qed.

Theorem reorder_refuses o own labels : o_labels o = Some (map single own) ->
  (List.length labels <> List.length own -> reorder_labels o labels = Err ValueError) /\
  (List.length labels = List.length own -> (exists l, In l labels /\ ~ In l own) ->
     reorder_labels o labels = Err KeyError).
Proof.
  intros L. unfold reorder_labels. rewrite L, map_length. split.
  - intros H. replace (List.length own =? List.length labels) with false; [reflexivity|]. symmetry. apply Nat.eqb_neq. auto.
  - intros H (l & I & O). rewrite H, Nat.eqb_refl. cbn [guard bind]. rewrite element_labels. cbn [bind].
    rewrite (mapM_err _ KeyError); [reflexivity| |].
    + intros a _. destruct (last_index a own); eauto.
    + exists l. split; auto. now rewrite (proj2 (last_index_none l own) O).
Qed.
