(** Columns and records written a second time. *)
From Coq Require Import String Ascii ZArith Bool Lia List.
From Verif Require Import Base.Str Base.Digits Base.Flt Base.FltText Base.FltInt.
From Verif Require Import Model.Py Model.Records Model.Write Model.Read.
From Verif Require Import Spec.Fields Spec.Values Spec.Types Spec.Layouts Spec.Again.
From Verif Require Import Proofs.RecordLemmas Proofs.DictLemmas Proofs.Layouts Proofs.Types Proofs.BlockTools Proofs.Stability.
Import ListNotations.
Local Open Scope Z_scope.

(** [v'] fits the column and prints like [v]. *)
Definition same (c : col) (v v' : pyval) : Prop := col_ok c v' = true /\ col_text c v' = col_text c v.
Definition plain (c : col) : bool := match c with CRaw _ | CFix _ => false | _ => true end.

Lemma same_refl c v : col_ok c v = true -> same c v v.
Proof. now split. Qed.
Lemma calm_stable c v : calm v = true -> match c with CSci _ k => (k <= 13)%nat | CLoose _ => False | _ => True end -> col_stable c v = true.
Proof.
  intros C K. destruct c; try reflexivity; [contradiction|]. cbn [col_stable].
  replace (k <=? 13)%nat with true by (symmetry; now apply Nat.leb_le). cbn [andb].
  destruct v; try reflexivity; try exact C. destruct b; reflexivity.
Qed.
Lemma fmt_e_len_rnd k x : (k <= 13)%nat -> calm_num x = true -> fmt_e k (rnd_e k x) = fmt_e k x.
Proof.
  unfold calm_num. intros K H. apply orb_true_iff in H as [H|H].
  - now rewrite fmt_e_rnd_e.
  - rewrite rnd_e_nonfinite; auto. now apply negb_true_iff.
Qed.
Lemma sci_fits_rnd w k x : (k <= 13)%nat -> calm_num x = true -> sci_fits w k x = true -> sci_fits w k (rnd_e k x) = true.
Proof.
  unfold sci_fits. intros K C. rewrite !andb_true_iff. intros [F L]. rewrite fmt_e_len_rnd by auto. split; auto.
  unfold calm_num in C. apply orb_true_iff in C as [C|C].
  - now apply rnd_e_f64.
  - rewrite rnd_e_nonfinite; auto. now apply negb_true_iff.
Qed.
Lemma calm_of v x : calm v = true -> num_of v = Some x -> calm_num x = true.
Proof. destruct v; try discriminate; cbn; intros C E; try (injection E as <-; auto). destruct b; reflexivity. Qed.
Lemma col_ok_back c v : col_ok c v = true -> calm v = true ->
  match c with CSci _ k => (k <= 13)%nat | CLoose _ | CFix _ => False | _ => True end -> col_ok c (col_val c v) = true.
Proof.
  intros H C K. destruct c as [w|w|w|w|w k|w]; cbn [col_val]; try contradiction.
  - destruct (absent v) eqn:A; auto.
  - cbn [col_ok] in *. destruct v; try discriminate. rewrite !andb_true_iff, Nat.leb_le in *.
    destruct H as [[L O] W]. rewrite ljust_len by auto. repeat split; auto. unfold ljust.
    now rewrite one_line_app, O, one_line_spaces.
  - cbn [col_ok] in *. destruct (int_of v) as [z|] eqn:E; auto. cbn [absent int_of orb].
    destruct (absent v) eqn:A; auto. destruct (num_of_absent v A). congruence.
  - destruct (num_of v) as [x|] eqn:E; [|reflexivity]. cbn [col_ok absent orb].
    apply sci_fits_rnd; [exact K|exact (calm_of _ _ C E)|].
    cbn [col_ok] in H. destruct (absent v) eqn:A.
    + destruct (num_of_absent v A). congruence.
    + cbn [orb] in H. unfold num_of in E.
      destruct v; try discriminate; cbn [int_of] in *; injection E as <-; auto; now apply andb_true_iff in H.
Qed.
Lemma same_back c v : col_ok c v = true -> calm v = true ->
  match c with CSci _ k => (k <= 13)%nat | CLoose _ | CFix _ => False | _ => True end -> same c v (col_val c v).
Proof.
  intros H C K. split; [now apply col_ok_back|]. unfold col_text. rewrite col_stable_str; auto.
  apply calm_stable; auto. destruct c; auto.
Qed.
Lemma same_int w w' v : col_ok (CInt w) v = true -> calm v = true -> same (CInt w) v (col_val (CInt w') v).
Proof. intros. now apply (same_back (CInt w)). Qed.
Lemma same_sci w k v : (k <= 13)%nat -> col_ok (CSci w k) v = true -> calm v = true -> same (CSci w k) v (sci k v).
Proof. intros. now apply (same_back (CSci w k)). Qed.
Lemma same_none c : plain c = true -> same c PNone PNone.
Proof. intros P. apply same_refl. destruct c; auto; discriminate. Qed.

(** ** Records, column by column *)
Definition same_rec (cs : list col) (vs vs' : list pyval) : Prop :=
  forall i c, nth_error cs i = Some c -> same c (nth i vs PNone) (nth i vs' PNone).
Lemma same_rec_nil vs vs' : same_rec [] vs vs'.
Proof. intros [|i] c; discriminate. Qed.
Lemma same_rec_cons c cs v vs v' vs' : same c v v' -> same_rec cs vs vs' -> same_rec (c :: cs) (v :: vs) (v' :: vs').
Proof. intros S R [|i] c' E; cbn in *; [injection E as <-; auto|now apply R]. Qed.
Lemma same_rec_inv c cs vs vs' : same_rec (c :: cs) vs vs' -> same c (hd PNone vs) (hd PNone vs') /\ same_rec cs (tl vs) (tl vs').
Proof.
  intros S. split.
  - pose proof (S 0%nat c eq_refl) as X. destruct vs, vs'; exact X.
  - intros i c' E. pose proof (S (Datatypes.S i) c' E) as X. destruct vs, vs'; cbn in *; destruct i; exact X.
Qed.
Lemma ok_none_plain c : col_ok c PNone = true -> plain c = true.
Proof. destruct c; auto; discriminate. Qed.
Lemma rec_ok_hd c cs vs : col_ok c (hd PNone vs) = true -> rec_ok cs (tl vs) = true -> rec_ok (c :: cs) vs = true.
Proof.
  destruct vs as [|v vs]; cbn [hd tl]; intros H T.
  - destruct c; try discriminate H; exact T.
  - now rewrite rec_ok_cons, H, T.
Qed.
Lemma same_rec_ok cs vs vs' : same_rec cs vs vs' -> rec_ok cs vs' = true.
Proof.
  revert vs vs'. induction cs as [|c cs IH]; intros vs vs' S; [now destruct vs'|].
  apply same_rec_inv in S as [[A _] S]. apply rec_ok_hd; auto. eapply IH; eauto.
Qed.
(** the text with all its columns *)
Fixpoint full_text (cs : list col) (vs : list pyval) : str :=
  match cs with [] => [] | c :: cs => col_text c (hd PNone vs) ++ full_text cs (tl vs) end.
Lemma full_text_nil cs : rec_ok cs [] = true -> full_text cs [] = spaces (rec_width cs).
Proof.
  induction cs as [|c cs IH]; intros H; auto. cbn [full_text hd tl]. rewrite IH by now apply rec_ok_cons_nil in H.
  unfold rec_width. cbn [map fold_right]. unfold spaces. rewrite repeat_app. f_equal.
  unfold col_text. rewrite to_str_none; [reflexivity|]. destruct c; auto; discriminate.
Qed.
Lemma full_text_ok cs vs : rec_ok cs vs = true -> exists n, full_text cs vs = cols_text cs vs ++ spaces n /\
  (List.length (cols_text cs vs) + n = rec_width cs)%nat.
Proof.
  revert vs. induction cs as [|c cs IH]; intros [|v vs] H.
  - now exists 0%nat.
  - now exists 0%nat.
  - exists (rec_width (c :: cs)). now rewrite full_text_nil.
  - rewrite rec_ok_cons in H. apply andb_true_iff in H as [H1 H2].
    destruct (IH vs H2) as (n & E & L). exists n. cbn [full_text hd tl cols_text]. rewrite E, app_assoc. split; auto.
    destruct (col_text_ok c v H1) as (_ & TL & _). rewrite app_length, TL. unfold rec_width in *. cbn [map fold_right]. lia.
Qed.
Lemma rec_line_full cs vs : (rec_width cs <= 80)%nat -> rec_ok cs vs = true -> rec_line cs vs = record80 (full_text cs vs).
Proof.
  intros W H. destruct (full_text_ok cs vs H) as (n & -> & L). unfold rec_line, record80. rewrite ljust_app_spaces; auto. lia.
Qed.
Lemma same_full cs vs vs' : same_rec cs vs vs' -> full_text cs vs' = full_text cs vs.
Proof.
  revert vs vs'. induction cs as [|c cs IH]; intros vs vs' S; auto.
  apply same_rec_inv in S as [[_ A] S]. cbn [full_text]. rewrite A. f_equal. auto.
Qed.
Lemma same_line cs vs vs' : (rec_width cs <= 80)%nat -> rec_ok cs vs = true -> same_rec cs vs vs' ->
  rec_line cs vs' = rec_line cs vs.
Proof.
  intros W H S. rewrite !rec_line_full by (auto; eapply same_rec_ok; eauto). f_equal. now apply same_full.
Qed.

(** ** Runs of numbers, trimmed *)
Lemma nth_trim l : forall i, nth i (trim l) PNone = nth i l PNone.
Proof.
  induction l as [|x l IH]; intros i; auto. cbn [trim].
  destruct (trim l) as [|y r] eqn:T.
  - destruct x; cbn [is_none]; destruct i as [|i]; cbn [nth]; auto; rewrite <- (IH i); destruct i; reflexivity.
  - destruct i as [|i]; [reflexivity|exact (IH i)].
Qed.
Lemma nth_map_sci k l i : nth i (map (sci k) l) PNone = sci k (nth i l PNone).
Proof. change PNone with (sci k PNone) at 1. apply map_nth. Qed.
Lemma nth_firstn_lt {A} (d : A) n : forall l i, (i < n)%nat -> nth i (firstn n l) d = nth i l d.
Proof. induction n as [|n IH]; intros [|x l] [|i] H; try lia; auto. cbn. apply IH. lia. Qed.
Lemma calm_seq k l : calm (PSeq k l) = true -> forall v, In v l -> calm v = true.
Proof. cbn [calm]. now rewrite forallb_forall. Qed.
Lemma calm_nth l : forallb calm l = true -> forall i, calm (nth i l PNone) = true.
Proof.
  intros H i. destruct (nth_in_or_default i l PNone) as [I| ->]; auto. rewrite forallb_forall in H. auto.
Qed.
Lemma ok_nth w k l : forallb (col_ok (CSci w k)) l = true -> forall i, col_ok (CSci w k) (nth i l PNone) = true.
Proof.
  intros H i. destruct (nth_in_or_default i l PNone) as [I| ->]; auto. rewrite forallb_forall in H. auto.
Qed.
Lemma same_run w k n l : (k <= 13)%nat -> forallb (col_ok (CSci w k)) (firstn n l) = true -> forallb calm l = true ->
  same_rec (repeat (CSci w k) n) l (trim (map (sci k) (firstn n l))).
Proof.
  intros K H C i c E. assert (L : (i < n)%nat).
  { rewrite <- (repeat_length (CSci w k) n). apply nth_error_Some. congruence. }
  apply nth_error_In in E. apply repeat_spec in E. subst c. rewrite nth_trim, nth_map_sci, nth_firstn_lt by auto.
  apply same_sci; auto; [|now apply calm_nth]. rewrite <- (nth_firstn_lt PNone n) by auto. now apply ok_nth.
Qed.
Lemma forallb_firstn' {A} (f : A -> bool) n l : forallb f l = true -> forallb f (firstn n l) = true.
Proof. rewrite !forallb_forall. intros H x I. apply H. rewrite <- (firstn_skipn n l). apply in_or_app. now left. Qed.

(** ** Looking values up *)
Lemma calm_entry d k v : calm (PDict d) = true -> dget k d = Some v -> calm v = true.
Proof.
  cbn [calm]. rewrite forallb_forall. intros H G. apply dget_in in G. exact (H _ G).
Qed.
Lemma calm_val d k : calm (PDict d) = true -> calm (val k d) = true.
Proof. intros H. unfold val. destruct (dget k d) eqn:E; auto. eapply calm_entry; eauto. Qed.
Lemma calm_entries v : calm v = true -> calm (PDict (entries v)) = true.
Proof. destruct v; auto. Qed.
Lemma calm_items v : calm v = true -> forallb calm (items v) = true.
Proof. destruct v; auto. Qed.
