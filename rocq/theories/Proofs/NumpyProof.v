(** Arrays. *)
From Coq Require Import Arith Bool Lia Permutation Sorted List.
From Verif Require Import Model.Py Model.Numpy Spec.Order Proofs.DictLemmas.
Import ListNotations.

Lemma nat_order : total_order Nat.leb.
Proof.
  split; [intros x y; rewrite !Nat.leb_le; lia|]. split; [intros x y z; rewrite !Nat.leb_le; lia|].
  intros x y; rewrite !Nat.leb_le; lia.
Qed.
Lemma lexb_order {A} (leb : A -> A -> bool) : total_order leb -> total_order (lexb leb).
Proof.
  intros (T & TR & AS). split; [|split].
  - induction x as [|x xs IH]; intros [|y ys]; cbn [lexb]; auto.
    destruct (leb x y) eqn:E, (leb y x) eqn:F; auto. destruct (T x y); congruence.
  - induction x as [|x xs IH]; intros [|y ys] [|z zs]; cbn [lexb]; auto; try discriminate.
    destruct (leb x y) eqn:XY; [|discriminate]. destruct (leb y z) eqn:YZ; [|discriminate]. intros H1 H2.
    rewrite (TR _ _ _ XY YZ). destruct (leb z x) eqn:ZX; [|reflexivity].
    rewrite (TR _ _ _ YZ ZX) in H1. rewrite (TR _ _ _ ZX XY) in H2. eauto.
  - induction x as [|x xs IH]; intros [|y ys]; cbn [lexb]; auto; try discriminate.
    destruct (leb x y) eqn:XY; [|discriminate]. destruct (leb y x) eqn:YX; [|discriminate]. intros. f_equal; auto.
Qed.

Section Ordered.
  Context {A : Type} (leb : A -> A -> bool) (O : total_order leb).
  Let T := proj1 O.
  Let TR := proj1 (proj2 O).
  Let AS := proj2 (proj2 O).
  Lemma leb_refl x : leb x x = true.
  Proof. destruct (T x x); auto. Qed.
  Lemma same_eq x y : same leb x y = true <-> x = y.
  Proof. unfold same. rewrite andb_true_iff. split; [intros []; auto|]. intros ->. split; apply leb_refl. Qed.
  Lemma same_dec (x y : A) : {x = y} + {x <> y}.
  Proof. destruct (same leb x y) eqn:E; [left; now apply same_eq|right]. intros X. apply same_eq in X. congruence. Qed.
  Lemma insert_perm x l : Permutation (x :: l) (insert leb x l).
  Proof.
    induction l as [|y l IH]; cbn [insert]; auto. destruct (leb x y); auto.
    transitivity (y :: x :: l); [apply perm_swap|]. now apply perm_skip.
  Qed.
  Lemma isort_perm l : Permutation l (isort leb l).
  Proof. induction l as [|x l IH]; cbn [isort]; auto. transitivity (x :: isort leb l); [now apply perm_skip|apply insert_perm]. Qed.
  Lemma insert_sorted x l : StronglySorted (fun a b => leb a b = true) l -> StronglySorted (fun a b => leb a b = true) (insert leb x l).
  Proof.
    intros H. induction H as [|y l S IH F]; cbn [insert]; [repeat constructor|]. destruct (leb x y) eqn:E.
    - constructor; [now constructor|]. constructor; auto. eapply Forall_impl; [|exact F]. intros z. cbn beta. eauto.
    - constructor; auto. apply Forall_forall. intros z I. apply (Permutation_in _ (Permutation_sym (insert_perm x l))) in I.
      destruct I as [<- | I]; [destruct (T x y); congruence|]. rewrite Forall_forall in F. auto.
  Qed.
  Lemma isort_sorted l : StronglySorted (fun a b => leb a b = true) (isort leb l).
  Proof. induction l as [|x l IH]; cbn [isort]; [constructor|now apply insert_sorted]. Qed.
  Lemma sorted_perm_eq l l' : StronglySorted (fun a b => leb a b = true) l -> StronglySorted (fun a b => leb a b = true) l' ->
    Permutation l l' -> l = l'.
  Proof.
    revert l'. induction l as [|x l IH]; intros l' S S' P.
    - now apply Permutation_nil in P.
    - destruct l' as [|y l']; [apply Permutation_sym, Permutation_nil in P; discriminate|].
      inversion S as [|? ? S1 F1]; inversion S' as [|? ? S2 F2]; subst. rewrite Forall_forall in F1, F2.
      assert (E : x = y).
      { assert (IX : In x (y :: l')) by (eapply Permutation_in; [exact P|now left]).
        assert (IY : In y (x :: l)) by (eapply Permutation_in; [apply Permutation_sym; exact P|now left]).
        destruct IX as [-> | IX]; auto. destruct IY as [-> | IY]; auto. }
      subst y. f_equal. apply IH; auto. eapply Permutation_cons_inv; eauto.
  Qed.
  Lemma isort_perm_eq l l' : Permutation l l' <-> isort leb l = isort leb l'.
  Proof.
    split.
    - intros P. apply sorted_perm_eq; try apply isort_sorted. transitivity l; [apply Permutation_sym, isort_perm|].
      transitivity l'; [exact P|apply isort_perm].
    - intros E. transitivity (isort leb l); [apply isort_perm|]. rewrite E. apply Permutation_sym, isort_perm.
  Qed.
  Lemma dedup_In x l : In x (dedup leb l) <-> In x l.
  Proof.
    induction l as [|y l IH]; [reflexivity|]. cbn [dedup]. destruct l as [|z l]; [reflexivity|].
    destruct (same leb y z) eqn:E.
    - apply same_eq in E. subst z. rewrite IH. cbn [In]. tauto.
    - cbn [In] in *. rewrite IH. tauto.
  Qed.
  Lemma dedup_sorted l : StronglySorted (fun a b => leb a b = true) l ->
    StronglySorted (fun a b => leb a b = true /\ a <> b) (dedup leb l).
  Proof.
    intros S. induction S as [|y l S IH F]; [constructor|]. cbn [dedup]. destruct l as [|z l]; [repeat constructor|].
    destruct (same leb y z) eqn:E; [exact IH|]. constructor; [exact IH|]. apply Forall_forall. intros w W. apply (proj1 (dedup_In w _)) in W.
    rewrite Forall_forall in F. split; [auto|]. intros ->.
    assert (NE : w <> z) by (intros X; apply same_eq in X; congruence). destruct W as [X | W]; [congruence|].
    inversion S as [|? ? S1 F1]; subst. rewrite Forall_forall in F1. apply NE. apply AS; [apply F; now left|now apply F1].
  Qed.
  Lemma unique_In x l : In x (unique leb l) <-> In x l.
  Proof.
    unfold unique. rewrite dedup_In. split; intros I; [eapply Permutation_in; [apply Permutation_sym, isort_perm|exact I]|].
    eapply Permutation_in; [apply isort_perm|exact I].
  Qed.
  Lemma strict_nodup l : StronglySorted (fun a b => leb a b = true /\ a <> b) l -> NoDup l.
  Proof.
    induction 1 as [|x l S IH F]; constructor; auto. intros I. rewrite Forall_forall in F. now destruct (F x I).
  Qed.
  Lemma unique_strict l : StronglySorted (fun a b => leb a b = true /\ a <> b) (unique leb l).
  Proof. apply dedup_sorted, isort_sorted. Qed.
  Lemma unique_nodup l : NoDup (unique leb l).
  Proof. apply strict_nodup, unique_strict. Qed.
  Lemma position_nth x l : In x l -> nth_error l (position leb x l) = Some x.
  Proof.
    induction l as [|y l IH]; [intros []|]. cbn [position]. destruct (same leb x y) eqn:E.
    - apply same_eq in E. subst y. reflexivity.
    - intros [-> | I]; [rewrite (proj2 (same_eq x x) eq_refl) in E; discriminate|]. cbn [nth_error]. auto.
  Qed.
  Lemma position_lt x l : In x l -> position leb x l < List.length l.
  Proof. intros I. apply nth_error_Some. rewrite position_nth by auto. discriminate. Qed.
  Lemma position_first x l i : nth_error l i = Some x -> position leb x l <= i.
  Proof.
    revert i. induction l as [|y l IH]; intros [|i]; cbn [nth_error position]; try discriminate.
    - intros E. injection E as ->. rewrite (proj2 (same_eq x x) eq_refl). lia.
    - intros E. destruct (same leb x y); [lia|]. specialize (IH _ E). lia.
  Qed.
  Lemma position_nodup l i x : NoDup l -> nth_error l i = Some x -> position leb x l = i.
  Proof.
    intros N E. pose proof (position_nth x l (nth_error_In _ _ E)) as P. rewrite NoDup_nth_error in N. apply N.
    - apply nth_error_Some. congruence.
    - congruence.
  Qed.
  Lemma unique_fixed l : StronglySorted (fun a b => leb a b = true /\ a <> b) l -> unique leb l = l.
  Proof.
    intros S. unfold unique. assert (W : StronglySorted (fun a b => leb a b = true) l).
    { clear -S. induction S; constructor; auto. eapply Forall_impl; [|eassumption]. cbn. tauto. }
    rewrite <- (sorted_perm_eq l (isort leb l)); [|exact W|apply isort_sorted|apply isort_perm].
    clear W. induction S as [|x l S IH F]; [reflexivity|]. cbn [dedup]. destruct l as [|y l]; [reflexivity|].
    rewrite Forall_forall in F. destruct (F y) as [L N]; [now left|]. destruct (same leb x y) eqn:E; [apply same_eq in E; contradiction|]. now rewrite IH.
  Qed.
End Ordered.

Lemma set_nth_length {A} i (x : A) l : List.length (set_nth i x l) = List.length l.
Proof. revert i. induction l as [|y l IH]; intros [|i]; cbn [set_nth List.length]; auto. Qed.
Lemma nth_set_same {A} i (x : A) l : i < List.length l -> nth_error (set_nth i x l) i = Some x.
Proof. revert i. induction l as [|y l IH]; intros [|i]; cbn [set_nth List.length nth_error]; intros; try lia; auto. apply IH. lia. Qed.
Lemma nth_set_other {A} i j (x : A) l : i <> j -> nth_error (set_nth i x l) j = nth_error l j.
Proof. revert i j. induction l as [|y l IH]; intros [|i] [|j]; cbn [set_nth nth_error]; intros; try lia; auto. Qed.
Lemma take_ok {A} (a : list A) is l : take a is = Ok l <-> Forall2 (fun i x => nth_error a i = Some x) is l.
Proof.
  unfold take. revert l. induction is as [|i is IH]; intros l; cbn [mapM].
  - split; [intros E; injection E as <-; constructor|]. intros F. now inversion F.
  - unfold item at 1. split.
    + destruct (nth_error a i) as [x|] eqn:E; cbn [bind]; [|discriminate]. destruct (mapM (item a) is) as [r|]; cbn [bind]; [|discriminate].
      intros X; injection X as <-. constructor; auto. now apply IH.
    + intros F. inversion F as [|? x ? r E F']; subst. rewrite E. cbn [bind]. apply IH in F'. rewrite F'. reflexivity.
Qed.
