(** A text that starts with a word never reads as a number. *)
From Coq Require Import String Ascii ZArith Bool Lia List.
From Verif Require Import Base.Str Base.Digits Base.Flt Base.FltText.
From Verif Require Import Model.Py Model.Records.
From Verif Require Import Spec.Fields Spec.Values Spec.Indom Spec.Incon.
From Verif Require Import Proofs.RecordLemmas.
Import ListNotations.
Local Open Scope Z_scope.

Lemma letter_facts c : is_letter c = true ->
  is_space c = false /\ is_digit c = false /\ Ascii.eqb c "-" = false /\ Ascii.eqb c "+" = false /\
  Ascii.eqb c "." = false /\ is_underscore c = false.
Proof. destruct c as [[] [] [] [] [] [] [] []]; try discriminate; repeat split; reflexivity. Qed.

(** Characters that occur in no name of a special float. *)
Definition plain (c : ascii) : bool := Ascii.eqb c "e" || is_digit c || Ascii.eqb c sp.
Lemma not_name u c : In c u -> plain c = true -> is_inf_name u = false /\ is_nan_name u = false.
Proof.
  intros I P.
  assert (L : lower_c c = c) by (clear I; destruct c as [[] [] [] [] [] [] [] []]; try discriminate; reflexivity).
  assert (G : forall t, forallb (fun x => negb (plain x)) t = true -> streqb (lower u) t = false).
  { intros t F. apply streqb_neq. intros E. rewrite forallb_forall in F.
    apply (in_map lower_c) in I. change (map lower_c u) with (lower u) in I. rewrite E, L in I.
    apply F in I. now rewrite P in I. }
  unfold is_inf_name, is_nan_name. cbv zeta. rewrite !G by reflexivity. auto.
Qed.
Lemma parse_udec_letter c r : is_letter c = true -> parse_udec (c :: r) = None.
Proof.
  intros H. destruct (letter_facts c H) as (_ & D & _ & _ & P & _).
  unfold parse_udec. cbn [span_digits]. rewrite D, P. reflexivity.
Qed.
Lemma underscores_digit s : forall b, existsb is_underscore s = true -> underscores_ok b s = true -> b = true \/ exists c, In c s /\ is_digit c = true.
Proof.
  induction s as [|c s IH]; intros b; cbn [existsb underscores_ok]; [discriminate|]. unfold is_underscore at 1.
  destruct (Ascii.eqb c "_") eqn:E.
  - intros _ H. apply andb_true_iff in H as [H _]. apply andb_true_iff in H as [H _]. now left.
  - cbn [orb]. intros X H. destruct (IH _ X H) as [D|(d & I & D)]; right; [exists c|exists d]; auto using in_eq, in_cons.
Qed.
Lemma parse_word u c r : strip u = c :: r -> is_letter c = true ->
  is_inf_name (c :: r) = false -> is_nan_name (c :: r) = false -> parse_float u = None.
Proof.
  intros S L N1 N2. unfold parse_float. rewrite S. destruct (letter_facts c L) as (_ & _ & M & P & _ & U).
  assert (G : forall v, is_inf_name (c :: v) = false -> is_nan_name (c :: v) = false ->
    (let (neg, u) := split_sign (c :: v) in
      if is_inf_name u then Some (Inf neg) else if is_nan_name u then Some NaN
      else match parse_udec u with Some (D, E) => Some (flt_of_dec neg D E) | None => None end) = None).
  { intros v H1 H2. cbn [split_sign]. rewrite M, P, H1, H2, parse_udec_letter by auto. reflexivity. }
  unfold no_underscores. destruct (existsb is_underscore (c :: r)) eqn:X; [|now apply G].
  destruct (underscores_ok false (c :: r)) eqn:Y; [|reflexivity].
  destruct (underscores_digit _ _ X Y) as [?|(d & I & D)]; [discriminate|].
  cbn [filter]. rewrite U. cbn [negb].
  assert (I' : In d (c :: filter (fun c => negb (is_underscore c)) r)).
  { destruct I as [->|I]; [now left|]. right. apply filter_In. split; auto. unfold is_underscore.
    destruct (Ascii.eqb d "_") eqn:Q; auto. apply Ascii.eqb_eq in Q. subst. discriminate. }
  destruct (not_name _ d I') as [H1 H2]; [unfold plain; rewrite D; now rewrite orb_true_r|]. now apply G.
Qed.

(** Stripping a text that does not start with a blank gives a prefix of it. *)
Lemma rstrip_prefix s : exists z, s = rstrip s ++ z /\ forallb is_space z = true.
Proof.
  destruct (lstrip_suffix (rev s)) as (p & E & F). exists (rev p). unfold rstrip.
  rewrite <- rev_app_distr, <- E, rev_involutive. split; auto. now rewrite forallb_rev.
Qed.
Lemma strip_nospace c r : is_space c = false -> exists r' z, strip (c :: r) = c :: r' /\ r = r' ++ z /\ forallb is_space z = true.
Proof.
  intros H. unfold strip. cbn [lstrip]. rewrite H. destruct (rstrip_prefix (c :: r)) as (z & E & F).
  destruct (rstrip (c :: r)) as [|d r'].
  - cbn [app] in E. rewrite <- E in F. cbn [forallb] in F. now rewrite H in F.
  - injection E as <- E. exists r', z. auto.
Qed.
Lemma strip_in c u x : is_space c = false -> In x (c :: u) -> is_space x = false -> In x (strip (c :: u)).
Proof.
  intros H I X. destruct (strip_nospace c u H) as (r & z & -> & -> & F). destruct I as [->|I]; [now left|].
  apply in_app_or in I as [I|I]; [now right|]. rewrite forallb_forall in F. apply F in I. congruence.
Qed.

Lemma word_not_number s w : word s = true -> trimmed s = true -> match w with [] => True | c :: _ => c = sp end ->
  not_number (strip (s ++ w)) = true /\ strip (s ++ w) <> [].
Proof.
  intros W T B. unfold word in W. destruct s as [|c s]; [discriminate|]. apply andb_true_iff in W as [L N].
  apply negb_true_iff in N. destruct (letter_facts c L) as (SP & _).
  assert (P : exists t, strip ((c :: s) ++ w) = (c :: s) ++ t /\ match t with [] => True | c :: _ => c = sp end).
  { assert (NE : c :: s <> []) by congruence. pose proof (strip_nospace c (s ++ w) SP) as (r & z & E & EQ & F).
    cbn [app]. rewrite E.
    destruct (Nat.le_gt_cases (List.length s) (List.length r)) as [LE|GT].
    - apply (f_equal (firstn (List.length s))) in EQ as Q. rewrite firstn_app, firstn_all, Nat.sub_diag in Q.
      rewrite firstn_app in Q. replace (List.length s - List.length r)%nat with 0%nat in Q by lia. cbn [firstn] in Q.
      rewrite !app_nil_r in Q. exists (skipn (List.length s) r). split.
      + rewrite Q at 1. now rewrite firstn_skipn.
      + rewrite <- (firstn_skipn (List.length s) r) in EQ. rewrite <- Q, <- app_assoc in EQ. apply app_inv_head in EQ.
        destruct (skipn (List.length s) r); auto. subst w. exact B.
    - exfalso.
      assert (Q : skipn (List.length r) s ++ w = z).
      { apply (f_equal (skipn (List.length r))) in EQ. rewrite skipn_app, skipn_app, skipn_all, Nat.sub_diag in EQ.
        replace (List.length r - List.length s)%nat with 0%nat in EQ by lia. exact EQ. }
      rewrite <- Q, forallb_app in F. apply andb_true_iff in F as [F _].
      pose proof (trimmed_rev _ T) as T'. destruct (rev (c :: s)) as [|d u] eqn:R.
      { apply (f_equal (@rev _)) in R. rewrite rev_involutive in R. discriminate. }
      assert (ND : is_space d = false) by (unfold trimmed in T'; apply andb_true_iff in T' as [T' _]; now apply negb_true_iff in T').
      apply (f_equal (@rev _)) in R. rewrite rev_involutive in R. cbn [rev] in R.
      rewrite <- (firstn_skipn (List.length r) s) in R.
      assert (SK : skipn (List.length r) s <> []).
      { intros X. apply (f_equal (@List.length _)) in X. rewrite skipn_length in X. cbn [List.length] in X. lia. }
      rewrite (app_removelast_last sp SK) in R. rewrite app_assoc in R.
      change (c :: (firstn (List.length r) s ++ removelast (skipn (List.length r) s)) ++ [last (skipn (List.length r) s) sp])
        with ((c :: firstn (List.length r) s ++ removelast (skipn (List.length r) s)) ++ [last (skipn (List.length r) s) sp]) in R.
      apply app_inj_tail in R as [_ R].
      rewrite forallb_forall in F. specialize (F (last (skipn (List.length r) s) sp)). rewrite R in F.
      rewrite F in ND; [discriminate|]. rewrite <- R. rewrite (app_removelast_last sp SK) at 2. apply in_or_app. right. now left. }
  destruct P as (t & E & TB). rewrite E. split; [|discriminate].
  assert (ST : strip ((c :: s) ++ t) = (c :: s) ++ t).
  { rewrite <- E. unfold strip at 1. destruct (strip_nospace c (s ++ w) SP) as (r & z & E2 & _ & _).
    cbn [app]. rewrite E2. cbn [lstrip]. rewrite SP. rewrite <- E2. unfold strip, rstrip.
    rewrite rev_involutive. f_equal. cbn [lstrip]. rewrite SP.
    destruct (lstrip (rev (c :: s ++ w))) as [|d u] eqn:R; auto. cbn [lstrip].
    assert (is_space d = false).
    { clear -R. revert R. generalize (rev (c :: s ++ w)). induction l as [|a l IH]; cbn [lstrip]; [discriminate|].
      destruct (is_space a) eqn:A; auto. intros [= -> _]. exact A. }
    now rewrite H. }
  unfold not_number.
  assert (F1 : parse_float ((c :: s) ++ t) = None).
  { apply (parse_word _ c (s ++ t)); auto.
    - destruct t as [|d t].
      + rewrite app_nil_r. unfold is_inf_name. cbv zeta. cbn [existsb] in N. apply orb_false_iff in N as [N1 N].
        apply orb_false_iff in N as [N2 N3]. now rewrite N1, N2.
      + subst d. apply (not_name _ sp); [right; apply in_or_app; right; now left|reflexivity].
    - destruct t as [|d t].
      + rewrite app_nil_r. unfold is_nan_name. cbn [existsb] in N. apply orb_false_iff in N as [N1 N].
        apply orb_false_iff in N as [N2 N3]. apply orb_false_iff in N3 as [N3 _]. exact N3.
      + subst d. apply (not_name _ sp); [right; apply in_or_app; right; now left|reflexivity]. }
  rewrite F1. set (u := (c :: s) ++ t) in *.
  assert (X : exists d v, drop_last 4 u ++ "e"%char :: last_n 4 u = d :: v /\ is_letter d = true).
  { unfold drop_last. destruct (List.length u - 4)%nat as [|m] eqn:Q.
    - cbn [firstn app]. eexists _, _. split; reflexivity.
    - unfold u at 1. cbn [app firstn]. eexists _, _. split; [reflexivity|auto]. }
  destruct X as (d & v & EX & LD). destruct (letter_facts d LD) as (SD & _).
  assert (IE : In "e"%char (strip (d :: v))).
  { apply strip_in; auto. rewrite <- EX. apply in_or_app. right. now left. }
  rewrite EX. destruct (strip_nospace d v SD) as (r & z & E2 & _ & _). rewrite E2 in IE.
  destruct (not_name _ "e"%char IE eq_refl) as [H1 H2].
  rewrite (parse_word _ d r); auto.
Qed.
