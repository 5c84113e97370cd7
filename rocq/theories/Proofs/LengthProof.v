(** The label length found in a line. *)
From Coq Require Import String Ascii ZArith Bool Lia List.
From Verif Require Import Base.Str Base.Digits Model.Py Model.Records Model.Read Spec.Length Proofs.LabelProof.
Import ListNotations.

Lemma count_found s : (forall i, i < count_digits s -> exists c, nth_error s i = Some c /\ is_digit c = true) /\
  (forall c, nth_error s (count_digits s) = Some c -> is_digit c = false).
Proof.
  induction s as [|c s [A B]]; cbn [count_digits].
  - split; [intros; lia|]. intros c. cbn. discriminate.
  - destruct (is_digit c) eqn:E.
    + split; [|exact B]. intros [|i] L; cbn [nth_error]; [eauto|]. apply A. lia.
    + split; [intros; lia|]. cbn. congruence.
Qed.
Lemma nth_skip {X} n (l : list X) i : nth_error (skipn n l) i = nth_error l (n + i).
Proof. revert l. induction n; intros [|x l]; cbn [skipn Nat.add nth_error]; auto. now destruct i. Qed.
Lemma nth_take {X} n (l : list X) i : i < n -> nth_error (firstn n l) i = nth_error l i.
Proof. revert l i. induction n; intros [|x l] [|i] H; cbn; auto; try lia. apply IHn. lia. Qed.
Lemma found_length line : found line (get_label_length (firstn 9 line)).
Proof.
  unfold get_label_length. destruct (count_found (skipn 5 (firstn 9 line))) as [A B].
  assert (C : count_digits (skipn 5 (firstn 9 line)) <= 4).
  { destruct (Nat.le_gt_cases (count_digits (skipn 5 (firstn 9 line))) 4) as [|H]; auto.
    destruct (A 4 H) as (c & X & _). rewrite nth_skip in X.
    assert (Y : nth_error (firstn 9 line) (5 + 4) = None) by (apply nth_error_None; rewrite firstn_length; lia). congruence. }
  split; [lia|]. split.
  - intros i [L U]. destruct (A (i - 5)) as (c & X & D); [lia|]. rewrite nth_skip, nth_take in X by lia.
    replace (5 + (i - 5)) with i in X by lia. eauto.
  - intros L c X. apply B. rewrite nth_skip, nth_take by lia. exact X.
Qed.
Lemma found_unique line n m : found line n -> found line m -> n = m.
Proof.
  intros (A & B & C) (A' & B' & C'). destruct (lt_eq_lt_dec n m) as [[L|]|L]; auto; exfalso.
  - destruct (B' n) as (c & X & D); [lia|]. rewrite (C ltac:(lia) c X) in D. discriminate.
  - destruct (B m) as (c & X & D); [lia|]. rewrite (C' ltac:(lia) c X) in D. discriminate.
Qed.
Theorem length_found line n : get_label_length (firstn 9 line) = n <-> found line n.
Proof. split; [intros <-; apply found_length|]. intros F. eapply found_unique; [apply found_length|exact F]. Qed.
Theorem length_of_label label rest : 5 <= List.length label <= 9 ->
  forallb is_digit (skipn 5 label) = true -> (List.length label < 9 -> forall c r, rest = c :: r -> is_digit c = false) ->
  get_label_length (firstn 9 (label ++ rest)) = List.length label.
Proof.
  intros L D R. apply length_found. split; auto. split.
  - intros i H. destruct (nth_error label i) as [c|] eqn:E; [|apply nth_error_None in E; lia].
    exists c. rewrite nth_error_app1 by lia. split; auto. rewrite forallb_forall in D. apply D.
    apply (nth_error_In _ (i - 5)). rewrite nth_skip. now replace (5 + (i - 5)) with i by lia.
  - intros H c E. rewrite nth_error_app2, Nat.sub_diag in E by lia. destruct rest as [|c' r]; [discriminate|].
    cbn in E. injection E as ->. eauto.
Qed.
