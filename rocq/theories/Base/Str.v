(** Python [str] values restricted to 8-bit characters, and the handful of
    [str] methods used by ToughIO.  These are models of Python built-ins (not
    of /repo code); each comment names the built-in and where /repo relies on
    it. *)
From Coq Require Import List Ascii String ZArith Bool Lia.
Import ListNotations.

(** A Python string.  Simplification: characters are 8-bit ([ascii]). *)
Definition str := list ascii.

Definition lit (s : string) : str := list_ascii_of_string s.
Notation "$ s" := (lit s%string) (at level 1, s at level 0, format "$ s").
Arguments lit _%string_scope.

Definition code (c : ascii) : Z := Z.of_N (N_of_ascii c).

Definition nl : ascii := ascii_of_nat 10.
Definition sp : ascii := " "%char.

(** [str.isspace] on ASCII: used by [str.strip], [str.split]
    (toughio/_io/input/tough/_helpers.py:250, _read.py passim). *)
Definition is_space (c : ascii) : bool :=
  let z := code c in
  (((9 <=? z) && (z <=? 13)) || ((28 <=? z) && (z <=? 32)))%Z.

(** [str.isdigit] on one ASCII character (toughio/_common.py:95). *)
Definition is_digit (c : ascii) : bool :=
  let z := code c in ((48 <=? z) && (z <=? 57))%Z.

Definition is_upper (c : ascii) : bool :=
  let z := code c in ((65 <=? z) && (z <=? 90))%Z.
Definition is_lower (c : ascii) : bool :=
  let z := code c in ((97 <=? z) && (z <=? 122))%Z.

(** [str.lower]/[str.upper] on ASCII (toughio/_common.py:117,
    _write.py:795,802, _read.py:573). *)
Definition lower_c (c : ascii) : ascii :=
  if is_upper c then ascii_of_nat (nat_of_ascii c + 32) else c.
Definition upper_c (c : ascii) : ascii :=
  if is_lower c then ascii_of_nat (nat_of_ascii c - 32) else c.
Definition lower (s : str) : str := map lower_c s.
Definition upper (s : str) : str := map upper_c s.

Fixpoint streqb (a b : str) : bool :=
  match a, b with
  | [], [] => true
  | x :: a', y :: b' => Ascii.eqb x y && streqb a' b'
  | _, _ => false
  end.

(** [str.startswith] (_read.py:49-125). *)
Fixpoint startswith (p s : str) : bool :=
  match p, s with
  | [], _ => true
  | x :: p', y :: s' => Ascii.eqb x y && startswith p' s'
  | _ :: _, [] => false
  end.

(** [str.lstrip], [str.rstrip], [str.strip] without argument. *)
Fixpoint lstrip (s : str) : str :=
  match s with
  | [] => []
  | c :: s' => if is_space c then lstrip s' else s
  end.
Definition rstrip (s : str) : str := rev (lstrip (rev s)).
Definition strip (s : str) : str := rstrip (lstrip s).

(** Slices [s[i:j]] with non-negative bounds. *)
Definition slice (i j : nat) (s : str) : str := firstn (j - i) (skipn i s).
(** [s[:n]] *)
Definition take (n : nat) (s : str) : str := firstn n s.
(** [s[:-n]] and [s[-n:]] for n > 0. *)
Definition drop_last (n : nat) (s : str) : str := firstn (List.length s - n) s.
Definition last_n (n : nat) (s : str) : str := skipn (List.length s - n) s.

Definition spaces (n : nat) : str := repeat sp n.

(** Field alignment of [str.format]: left ([{:w}] on strings) and right
    ([{:>w}]). *)
Definition ljust (w : nat) (s : str) : str := s ++ spaces (w - List.length s).
Definition rjust (w : nat) (s : str) : str := spaces (w - List.length s) ++ s.

(** [str.split(sep)] for a one-character separator. *)
Fixpoint split_on_aux (sep : ascii) (cur : str) (s : str) : list str :=
  match s with
  | [] => [rev cur]
  | c :: s' =>
      if Ascii.eqb c sep then rev cur :: split_on_aux sep [] s'
      else split_on_aux sep (c :: cur) s'
  end.
Definition split_on (sep : ascii) (s : str) : list str := split_on_aux sep [] s.

(** [str.split()] (whitespace). *)
Fixpoint split_ws_aux (cur : str) (s : str) : list str :=
  match s with
  | [] => match cur with [] => [] | _ => [rev cur] end
  | c :: s' =>
      if is_space c then
        match cur with [] => split_ws_aux [] s' | _ => rev cur :: split_ws_aux [] s' end
      else split_ws_aux (c :: cur) s'
  end.
Definition split_ws (s : str) : list str := split_ws_aux [] s.

(** [sep.join(l)]. *)
Fixpoint join (sep : str) (l : list str) : str :=
  match l with
  | [] => []
  | [x] => x
  | x :: l' => x ++ sep ++ join sep l'
  end.

(** The lines of a text file as [readline] delivers them: each line keeps its
    newline, the last one may lack it.  Simplification: "\n" is the only line
    end (universal-newline translation of "\r" is not modelled). *)
Fixpoint lines_aux (cur : str) (s : str) : list str :=
  match s with
  | [] => match cur with [] => [] | _ => [rev cur] end
  | c :: s' =>
      if Ascii.eqb c nl then rev (c :: cur) :: lines_aux [] s'
      else lines_aux (c :: cur) s'
  end.
Definition lines (s : str) : list str := lines_aux [] s.

(** Is the string empty, as in [if line.strip():]. *)
Definition nonempty (s : str) : bool := match s with [] => false | _ => true end.

(* ------------------------------------------------------------------ *)
(** ** Lemmas *)

Lemma streqb_eq a b : streqb a b = true <-> a = b.
Proof.
  revert b; induction a as [|x a IH]; destruct b as [|y b]; cbn [streqb].
  - tauto.
  - split; discriminate.
  - split; discriminate.
  - rewrite andb_true_iff, Ascii.eqb_eq, IH.
    split; [intros [-> ->]; reflexivity | intros H; inversion H; tauto].
Qed.

Lemma streqb_refl a : streqb a a = true.
Proof. now apply streqb_eq. Qed.

Lemma streqb_neq a b : streqb a b = false <-> a <> b.
Proof.
  rewrite <- not_true_iff_false, streqb_eq. tauto.
Qed.

Lemma streqb_sym a b : streqb a b = streqb b a.
Proof.
  destruct (streqb a b) eqn:E.
  - apply streqb_eq in E. subst. now rewrite streqb_refl.
  - symmetry. apply streqb_neq. apply streqb_neq in E. auto.
Qed.

Definition str_eq_dec (a b : str) : {a = b} + {a <> b}.
Proof.
  destruct (streqb a b) eqn:E.
  - left. now apply streqb_eq.
  - right. now apply streqb_neq.
Defined.

Lemma startswith_app p s : startswith p (p ++ s) = true.
Proof. induction p; simpl; auto. now rewrite Ascii.eqb_refl. Qed.

Lemma startswith_spec p s : startswith p s = true <-> exists t, s = p ++ t.
Proof.
  split.
  - revert s; induction p as [|x p IH]; intros s H; simpl in *.
    + now exists s.
    + destruct s as [|y s]; [discriminate|].
      apply andb_true_iff in H as [H1 H2].
      apply Ascii.eqb_eq in H1. subst.
      destruct (IH _ H2) as [t ->]. now exists t.
  - intros [t ->]. apply startswith_app.
Qed.

Lemma spaces_length n : List.length (spaces n) = n.
Proof. apply repeat_length. Qed.

Lemma spaces_app a b : spaces a ++ spaces b = spaces (a + b).
Proof. unfold spaces. now rewrite repeat_app. Qed.

Lemma rev_spaces n : rev (spaces n) = spaces n.
Proof.
  unfold spaces. induction n; simpl; auto. rewrite IHn.
  change [sp] with (repeat sp 1). rewrite <- repeat_app.
  now rewrite Nat.add_comm.
Qed.

Lemma ljust_length w s : List.length (ljust w s) = Nat.max w (List.length s).
Proof. unfold ljust. rewrite app_length, spaces_length. lia. Qed.

Lemma rjust_length w s : List.length (rjust w s) = Nat.max w (List.length s).
Proof. unfold rjust. rewrite app_length, spaces_length. lia. Qed.

Lemma lstrip_spaces n s : lstrip (spaces n ++ s) = lstrip s.
Proof. induction n; simpl; auto. Qed.

Lemma lstrip_all_space s : forallb is_space s = true -> lstrip s = [].
Proof.
  induction s as [|c s IH]; simpl; auto.
  intros H. apply andb_true_iff in H as [H1 H2]. rewrite H1. auto.
Qed.

Lemma spaces_all_space n : forallb is_space (spaces n) = true.
Proof. induction n; simpl; auto. Qed.

(** A string without outer white space: the shape of what [strip] returns. *)
Definition trimmed (s : str) : bool :=
  match s with
  | [] => true
  | c :: _ => negb (is_space c) && negb (is_space (last s sp))
  end.

Lemma lstrip_trimmed_app s t :
  s <> [] -> trimmed s = true -> lstrip (s ++ t) = s ++ t.
Proof.
  destruct s as [|c s]; [congruence|]. intros _ H. unfold trimmed in H.
  apply andb_true_iff in H as [H _]. cbn [app lstrip].
  destruct (is_space c); simpl in *; congruence.
Qed.

Lemma trimmed_rev s : trimmed s = true -> trimmed (rev s) = true.
Proof.
  destruct s as [|c s]; auto. intros H. unfold trimmed in *.
  apply andb_true_iff in H as [H1 H2].
  destruct (rev (c :: s)) as [|d r] eqn:E.
  - simpl in E. destruct (rev s); discriminate.
  - apply andb_true_iff. split.
    + assert (d = last (c :: s) sp) as ->; auto.
      rewrite <- (rev_involutive (c :: s)), E. simpl. now rewrite last_last.
    + rewrite <- E. simpl. now rewrite last_last.
Qed.

Lemma rstrip_trimmed_app s n :
  s <> [] -> trimmed s = true -> rstrip (s ++ spaces n) = s.
Proof.
  intros H0 H. unfold rstrip. rewrite rev_app_distr, rev_spaces, lstrip_spaces.
  rewrite <- (app_nil_r (rev s)), lstrip_trimmed_app.
  - now rewrite app_nil_r, rev_involutive.
  - intros E. apply H0. rewrite <- (rev_involutive s), E. reflexivity.
  - now apply trimmed_rev.
Qed.

Lemma strip_pad a b s : trimmed s = true -> strip (spaces a ++ s ++ spaces b) = s.
Proof.
  intros H. unfold strip. destruct s as [|c s].
  - simpl app. rewrite lstrip_all_space; [reflexivity|].
    rewrite spaces_app. apply spaces_all_space.
  - rewrite lstrip_spaces, lstrip_trimmed_app by (congruence || auto).
    apply rstrip_trimmed_app; congruence.
Qed.

Lemma strip_ljust w s : trimmed s = true -> strip (ljust w s) = s.
Proof. intros. apply (strip_pad 0); auto. Qed.

Lemma strip_rjust w s : trimmed s = true -> strip (rjust w s) = s.
Proof.
  intros. unfold rjust. rewrite <- (app_nil_r s) at 2.
  now apply (strip_pad (w - List.length s) 0).
Qed.

Lemma strip_spaces n : strip (spaces n) = [].
Proof. rewrite <- (app_nil_r (spaces n)). now apply (strip_pad n 0 []). Qed.

Lemma lines_line l s :
  forallb (fun c => negb (Ascii.eqb c nl)) l = true ->
  lines (l ++ nl :: s) = (l ++ [nl]) :: lines s.
Proof.
  unfold lines. intros H.
  assert (G : forall cur, lines_aux cur (l ++ nl :: s) = (rev cur ++ l ++ [nl]) :: lines_aux [] s).
  { induction l as [|c l IH]; intros cur.
    - cbn [app lines_aux]. rewrite Ascii.eqb_refl. reflexivity.
    - cbn [forallb] in H. apply andb_true_iff in H as [H1 H2].
      cbn [app lines_aux]. apply negb_true_iff in H1. rewrite H1.
      rewrite IH by auto. simpl. now rewrite <- app_assoc. }
  apply G.
Qed.

Lemma lines_last l :
  forallb (fun c => negb (Ascii.eqb c nl)) l = true -> l <> [] -> lines l = [l].
Proof.
  unfold lines. intros H H0.
  assert (G : forall cur, (cur <> [] \/ l <> []) -> lines_aux cur l = [rev cur ++ l]).
  { clear H0. induction l as [|c l IH]; intros cur H0.
    - cbn. rewrite app_nil_r. destruct cur; auto. destruct H0; congruence.
    - cbn [forallb] in H. apply andb_true_iff in H as [H1 H2].
      cbn [lines_aux]. apply negb_true_iff in H1. rewrite H1.
      rewrite IH by (auto; left; congruence). simpl. now rewrite <- app_assoc. }
  rewrite G; auto.
Qed.
