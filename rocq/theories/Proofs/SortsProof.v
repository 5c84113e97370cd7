(** A function which sorts as numpy.argsort promises. *)
From Coq Require Import Arith ZArith QArith Bool Lia Permutation Sorted List.
From Verif Require Import Base.Flt Base.FltRound Base.FltArith Spec.TimeSeries Spec.Export.
Import ListNotations.
Local Open Scope nat_scope.

Section Sorting.
Context {T : Type} (leb : T -> T -> bool).
Hypothesis total : forall x y, leb x y = true \/ leb y x = true.
Hypothesis trans : forall x y z, leb x y = true -> leb y z = true -> leb x z = true.
Definition le2 (p q : nat * T) : Prop := leb (snd p) (snd q) = true.
Fixpoint insert (p : nat * T) (l : list (nat * T)) : list (nat * T) :=
  match l with [] => [p] | q :: r => if leb (snd p) (snd q) then p :: l else q :: insert p r end.
Fixpoint isort (l : list (nat * T)) : list (nat * T) := match l with [] => [] | p :: r => insert p (isort r) end.
Definition sorted_ranks (l : list T) : list nat := map fst (isort (combine (seq 0 (List.length l)) l)).

Lemma insert_perm p l : Permutation (insert p l) (p :: l).
Proof. induction l as [|q r IH]; [reflexivity|]. cbn [insert]. destruct (leb _ _); [reflexivity|]. rewrite IH. apply perm_swap. Qed.
Lemma isort_perm l : Permutation (isort l) l.
Proof. induction l as [|p r IH]; [reflexivity|]. cbn [isort]. rewrite insert_perm, IH. reflexivity. Qed.
Lemma insert_sorted p l : StronglySorted le2 l -> StronglySorted le2 (insert p l).
Proof.
  induction 1 as [|q r S IH F]; cbn [insert]; [constructor; constructor|]. destruct (leb (snd p) (snd q)) eqn:E.
  - constructor; [constructor; assumption|]. constructor; [exact E|]. eapply Forall_impl; [|exact F]. intros x L. unfold le2 in *. eapply trans; eauto.
  - constructor; [exact IH|]. apply (Permutation_Forall (Permutation_sym (insert_perm p r))). constructor; [|exact F]. unfold le2. destruct (total (snd q) (snd p)); congruence.
Qed.
Lemma isort_sorted l : StronglySorted le2 (isort l).
Proof. induction l as [|p r IH]; [constructor|]. cbn [isort]. now apply insert_sorted. Qed.
Lemma sorted_nth l : StronglySorted le2 l -> forall i j p q, i < j -> nth_error l i = Some p -> nth_error l j = Some q -> le2 p q.
Proof.
  induction 1 as [|x r S IH F]; intros i j p q L A B; [destruct i; discriminate A|]. destruct j as [|j]; [lia|]. cbn [nth_error] in B. destruct i as [|i].
  - injection A as ->. rewrite Forall_forall in F. apply F. eapply nth_error_In; eauto.
  - cbn [nth_error] in A. eapply (IH i j); eauto. lia.
Qed.
Lemma in_numbered l : forall k i (x : T), In (i, x) (combine (seq k (List.length l)) l) -> k <= i /\ nth_error l (i - k) = Some x.
Proof.
  induction l as [|y l IH]; intros k i x I; [destruct I|]. cbn [List.length seq combine] in I. destruct I as [I|I].
  - injection I as -> ->. split; [lia|]. now rewrite Nat.sub_diag.
  - apply IH in I as [A B]. split; [lia|]. replace (i - k) with (S (i - S k)) by lia. exact B.
Qed.
Theorem sorted_ranks_sorts : sorts leb sorted_ranks.
Proof.
  intros l. split.
  - unfold sorted_ranks. rewrite isort_perm. clear. generalize 0. induction l as [|y l IH]; intros k; [reflexivity|]. cbn [List.length seq combine map fst]. now rewrite IH.
  - intros i j a b x y L A B X Y. unfold sorted_ranks in *. rewrite nth_error_map in A, B.
    destruct (nth_error (isort _) i) as [[a' x']|] eqn:EA; [|discriminate A]. injection A as ->. destruct (nth_error (isort _) j) as [[b' y']|] eqn:EB; [|discriminate B]. injection B as ->.
    pose proof (sorted_nth _ (isort_sorted _) i j _ _ L EA EB) as H. unfold le2 in H. cbn [snd] in H.
    assert (IA : In (a, x') (combine (seq 0 (List.length l)) l)) by (eapply Permutation_in; [apply isort_perm|eapply nth_error_In; eauto]).
    assert (IB : In (b, y') (combine (seq 0 (List.length l)) l)) by (eapply Permutation_in; [apply isort_perm|eapply nth_error_In; eauto]).
    apply in_numbered in IA as [_ IA]. apply in_numbered in IB as [_ IB]. rewrite Nat.sub_0_r in IA, IB. congruence.
Qed.
End Sorting.

Lemma not_later_total x y : not_later x y = true \/ not_later y x = true.
Proof.
  destruct x as [s m e|s|], y as [s' m' e'|s'|]; unfold not_later; try (cbn; tauto).
  - rewrite !orb_false_r. rewrite !fleb_fin by reflexivity. destruct (Qlt_le_dec (fval (Fin s m e)) (fval (Fin s' m' e'))); [left; now apply Qlt_le_weak|now right].
  - destruct s'; cbn; tauto.
  - destruct s; cbn; tauto.
  - destruct s, s'; cbn; tauto.
Qed.
Lemma not_later_trans x y z : not_later x y = true -> not_later y z = true -> not_later x z = true.
Proof.
  destruct x as [s m e|s|], y as [s' m' e'|s'|], z as [s'' m'' e''|s''|]; unfold not_later;
    try (unfold fleb; cbn [fcompare orb]; repeat match goal with |- context [if ?b then _ else _] => destruct b | |- context [eqb ?a ?b] => destruct a, b end; cbn; intros; congruence).
  1: rewrite !orb_false_r, !fleb_fin by reflexivity; apply Qle_trans.
  all: destruct s', s''; try destruct s; cbn; congruence.
Qed.
