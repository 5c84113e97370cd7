(** Decimal printing and parsing of integers (Python [str(int)], [int(str)]).
    Models of Python built-ins used throughout /repo, e.g.
    /repo/toughio/_io/input/tough/_helpers.py:236-253, _common.py:66-89. *)
From Coq Require Import List Ascii String ZArith Bool Lia.
From Verif Require Import Base.Str.
Import ListNotations.
Local Open Scope Z_scope.

Definition digit_char (d : Z) : ascii := ascii_of_N (Z.to_N (48 + d)).
Definition char_digit (c : ascii) : Z := code c - 48.

(** The [k] low decimal digits of [n], zero padded. *)
Fixpoint zpad (k : nat) (n : Z) : str :=
  match k with
  | O => []
  | S k' => zpad k' (n / 10) ++ [digit_char (n mod 10)]
  end.

Definition of_digits (s : str) : Z :=
  fold_left (fun acc c => acc * 10 + char_digit c) s 0.

(** floor (log_b n) for n >= 1. *)
Fixpoint ilog_fuel (fuel : nat) (b n : Z) : Z :=
  match fuel with
  | O => 0
  | S f => if n <? b then 0 else 1 + ilog_fuel f b (n / b)
  end.
Definition ilog (b n : Z) : Z := if b =? 2 then Z.log2 n else ilog_fuel (Z.to_nat (Z.log2 n + 1)) b n.

Definition ndigits (n : Z) : nat := S (Z.to_nat (ilog 10 n)).

(** [str(n)] for n >= 0. *)
Definition digits (n : Z) : str := zpad (ndigits n) n.

(** [str(z)] for any Python int. *)
Definition print_Z (z : Z) : str :=
  if z <? 0 then "-"%char :: digits (- z) else digits z.

(** Underscores in numeric literals: allowed only between two digits, then
    ignored (CPython [_Py_string_to_number_with_underscores]). *)
Fixpoint underscores_ok (prev_digit : bool) (s : str) : bool :=
  match s with
  | [] => true
  | c :: s' =>
      if Ascii.eqb c "_" then
        prev_digit && match s' with d :: _ => is_digit d | [] => false end
        && underscores_ok false s'
      else underscores_ok (is_digit c) s'
  end.
Definition is_underscore (c : ascii) : bool := Ascii.eqb c "_".
Definition no_underscores (s : str) : option str :=
  if existsb is_underscore s then
    if underscores_ok false s then Some (filter (fun c => negb (is_underscore c)) s)
    else None
  else Some s.

(** An optional leading sign: (negative?, rest). *)
Definition split_sign (s : str) : bool * str :=
  match s with
  | c :: s' => if Ascii.eqb c "-" then (true, s') else if Ascii.eqb c "+" then (false, s') else (false, s)
  | [] => (false, [])
  end.

(** [int(s)]; [None] models ValueError. *)
Definition parse_int (s : str) : option Z :=
  match no_underscores (strip s) with
  | None => None
  | Some s1 =>
      let (neg, ds) := split_sign s1 in
      if nonempty ds && forallb is_digit ds then
        Some (if neg then - of_digits ds else of_digits ds)
      else None
  end.

(* ------------------------------------------------------------------ *)

Lemma code_digit_char d : 0 <= d < 10 -> code (digit_char d) = 48 + d.
Proof.
  intros H. unfold code, digit_char. rewrite N_ascii_embedding by lia. lia.
Qed.

Lemma is_digit_digit_char d : 0 <= d < 10 -> is_digit (digit_char d) = true.
Proof.
  intros H. unfold is_digit. rewrite code_digit_char by auto.
  apply andb_true_iff; split; apply Z.leb_le; lia.
Qed.

Lemma char_digit_digit_char d : 0 <= d < 10 -> char_digit (digit_char d) = d.
Proof. intros. unfold char_digit. rewrite code_digit_char; lia. Qed.

Lemma zpad_length k n : List.length (zpad k n) = k.
Proof. revert n; induction k; intros; simpl; auto. rewrite app_length, IHk; simpl; lia. Qed.

Lemma zpad_digits k n : forallb is_digit (zpad k n) = true.
Proof.
  revert n; induction k; intros; simpl; auto.
  rewrite forallb_app, IHk. simpl.
  rewrite is_digit_digit_char; auto. apply Z.mod_pos_bound; lia.
Qed.

Lemma of_digits_app s t :
  of_digits (s ++ t) = of_digits s * 10 ^ Z.of_nat (List.length t) + of_digits t.
Proof.
  unfold of_digits. rewrite fold_left_app.
  generalize (fold_left (fun acc c => acc * 10 + char_digit c) s 0) as a.
  assert (G : forall l a, fold_left (fun acc c => acc * 10 + char_digit c) l a
     = a * 10 ^ Z.of_nat (List.length l) + fold_left (fun acc c => acc * 10 + char_digit c) l 0).
  { induction l as [|c l IH]; intros; cbn [fold_left List.length].
    - simpl. lia.
    - rewrite IH. rewrite (IH (0 * 10 + _)).
      rewrite Nat2Z.inj_succ, Z.pow_succ_r by lia. lia. }
  intros; apply G.
Qed.

Lemma of_digits_zpad k n : 0 <= n -> of_digits (zpad k n) = n mod 10 ^ Z.of_nat k.
Proof.
  revert n; induction k; intros n Hn.
  - simpl. now rewrite Z.mod_1_r.
  - cbn [zpad]. rewrite of_digits_app, IHk by (apply Z.div_pos; lia).
    change (of_digits [digit_char (n mod 10)]) with (0 * 10 + char_digit (digit_char (n mod 10))).
    rewrite char_digit_digit_char by (apply Z.mod_pos_bound; lia).
    simpl (10 ^ Z.of_nat (List.length [_])).
    rewrite Nat2Z.inj_succ, Z.pow_succ_r by lia.
    rewrite (Z.rem_mul_r n 10 (10 ^ Z.of_nat k)) by lia. lia.
Qed.

Lemma ilog_fuel_spec fuel b n :
  2 <= b -> 1 <= n -> n < 2 ^ Z.of_nat fuel ->
  0 <= ilog_fuel fuel b n /\ b ^ ilog_fuel fuel b n <= n < b ^ (ilog_fuel fuel b n + 1).
Proof.
  intros Hb. revert n; induction fuel as [|f IH]; intros n Hn Hlt.
  - simpl in Hlt. lia.
  - cbn [ilog_fuel]. destruct (Z.ltb_spec n b).
    + change (0+1) with 1. rewrite Z.pow_0_r, Z.pow_1_r. lia.
    + assert (1 <= n / b) by (apply Z.div_le_lower_bound; lia).
      assert (n / b < 2 ^ Z.of_nat f).
      { apply Z.div_lt_upper_bound; try lia.
        rewrite Nat2Z.inj_succ, Z.pow_succ_r in Hlt by lia.
        assert (0 < 2 ^ Z.of_nat f) by (apply Z.pow_pos_nonneg; lia). nia. }
      destruct (IH (n / b)) as [I1 [I2 I3]]; auto.
      split; [lia|].
      rewrite (Z.add_comm 1 (ilog_fuel f b (n / b))).
      rewrite !Z.pow_add_r, !Z.pow_1_r in * by lia.
      pose proof (Z.mul_div_le n b). pose proof (Z.mul_succ_div_gt n b).
      split.
      * nia.
      * assert (n < b * (n / b + 1)) by lia.
        assert (n/b + 1 <= b ^ ilog_fuel f b (n / b) * b) by lia. nia.
Qed.

Lemma ilog_spec b n :
  2 <= b -> 1 <= n -> 0 <= ilog b n /\ b ^ ilog b n <= n < b ^ (ilog b n + 1).
Proof.
  intros. unfold ilog. destruct (Z.eqb_spec b 2) as [->|_].
  { split; [apply Z.log2_nonneg|]. rewrite Z.add_1_r. apply Z.log2_spec; lia. }
  apply ilog_fuel_spec; auto.
  rewrite Z2Nat.id by (pose proof (Z.log2_nonneg n); lia).
  apply Z.log2_spec; lia.
Qed.

Lemma ilog_unique b n k : 2 <= b -> 1 <= n -> 0 <= k -> b ^ k <= n < b ^ (k + 1) -> ilog b n = k.
Proof.
  intros Hb Hn Hk [H1 H2]. destruct (ilog_spec b n) as [H0 [H3 H4]]; auto.
  assert (ilog b n < k + 1) by (apply (Z.pow_lt_mono_r_iff b); lia).
  assert (k < ilog b n + 1) by (apply (Z.pow_lt_mono_r_iff b); lia). lia.
Qed.

Lemma ilog_0 b : 2 <= b -> ilog b 0 = 0.
Proof. intros. unfold ilog. destruct (b =? 2); [reflexivity|]. simpl. destruct (Z.ltb_spec 0 b); lia. Qed.

Lemma ndigits_bound n : 0 <= n -> n < 10 ^ Z.of_nat (ndigits n).
Proof.
  intros H. unfold ndigits. destruct (Z.eq_dec n 0) as [->|].
  - rewrite ilog_0 by lia. simpl. lia.
  - destruct (ilog_spec 10 n) as [? [? ?]]; try lia.
    rewrite Nat2Z.inj_succ, Z2Nat.id by auto. unfold Z.succ. lia.
Qed.

Lemma ndigits_le n k : 0 <= n < 10 ^ Z.of_nat k -> (1 <= k)%nat -> (ndigits n <= k)%nat.
Proof.
  intros H Hk. unfold ndigits. destruct (Z.eq_dec n 0) as [->|].
  - rewrite ilog_0 by lia. simpl. lia.
  - destruct (ilog_spec 10 n) as [? [? ?]]; try lia.
    assert (ilog 10 n < Z.of_nat k) by (apply (Z.pow_lt_mono_r_iff 10); lia). lia.
Qed.

Lemma of_digits_digits n : 0 <= n -> of_digits (digits n) = n.
Proof.
  intros H. unfold digits. rewrite of_digits_zpad by auto.
  apply Z.mod_small. pose proof (ndigits_bound n). lia.
Qed.

Lemma digits_all n : forallb is_digit (digits n) = true.
Proof. apply zpad_digits. Qed.

Lemma digits_nonempty n : digits n <> [].
Proof.
  unfold digits. intros E. apply (f_equal (@List.length _)) in E.
  rewrite zpad_length in E. discriminate.
Qed.

Lemma digits_length n : List.length (digits n) = ndigits n.
Proof. apply zpad_length. Qed.

Lemma digit_not_space c : is_digit c = true -> is_space c = false.
Proof.
  unfold is_digit, is_space. intros H. apply andb_true_iff in H as [H1 H2].
  apply Z.leb_le in H1. apply Z.leb_le in H2.
  apply orb_false_iff; split; apply andb_false_iff.
  - right. apply Z.leb_gt. lia.
  - right. apply Z.leb_gt. lia.
Qed.

Lemma is_digit_neq c d : is_digit c = true -> is_digit d = false -> Ascii.eqb c d = false.
Proof.
  intros H1 H2. destruct (Ascii.eqb c d) eqn:E; auto.
  apply Ascii.eqb_eq in E. congruence.
Qed.

(** A string that contains no white space at all is trimmed. *)
Lemma no_space_trimmed s : forallb (fun c => negb (is_space c)) s = true -> trimmed s = true.
Proof.
  destruct s as [|c s]; auto. intros H. unfold trimmed.
  assert (G : forall x, In x (c :: s) -> negb (is_space x) = true).
  { now apply forallb_forall. }
  apply andb_true_iff; split.
  - apply G. now left.
  - apply G. rewrite (@app_removelast_last _ (c :: s) sp) at 2 by congruence.
    apply in_or_app. right. now left.
Qed.

Lemma digits_no_space s : forallb is_digit s = true -> forallb (fun c => negb (is_space c)) s = true.
Proof.
  intros H. apply forallb_forall. intros x Hx.
  rewrite forallb_forall in H. rewrite digit_not_space; auto.
Qed.

Lemma trimmed_strip s : trimmed s = true -> strip s = s.
Proof.
  intros. rewrite <- (strip_pad 0 0 s) at 2 by auto. simpl. now rewrite app_nil_r.
Qed.

Lemma no_underscores_none s : existsb is_underscore s = false -> no_underscores s = Some s.
Proof. unfold no_underscores. now intros ->. Qed.

Lemma digits_no_underscore s : forallb is_digit s = true -> existsb is_underscore s = false.
Proof.
  intros H. apply not_true_iff_false. intros E. apply existsb_exists in E as [x [Hx E]].
  rewrite forallb_forall in H. apply H in Hx. unfold is_underscore in E.
  apply Ascii.eqb_eq in E. subst. discriminate.
Qed.

(** Head of a non-empty digit string is not a sign. *)
Lemma split_sign_digits s : forallb is_digit s = true -> split_sign s = (false, s).
Proof.
  destruct s as [|c s]; auto. simpl. intros H. apply andb_true_iff in H as [H _].
  rewrite (is_digit_neq c "-") by auto. rewrite (is_digit_neq c "+") by auto. reflexivity.
Qed.

Lemma print_Z_no_space z : forallb (fun c => negb (is_space c)) (print_Z z) = true.
Proof.
  unfold print_Z. destruct (z <? 0); simpl; apply digits_no_space, digits_all.
Qed.

Lemma print_Z_trimmed z : trimmed (print_Z z) = true.
Proof. apply no_space_trimmed, print_Z_no_space. Qed.

Lemma print_Z_nonempty z : print_Z z <> [].
Proof. unfold print_Z. destruct (z <? 0); [discriminate|apply digits_nonempty]. Qed.

Lemma nonempty_digits n : nonempty (digits n) = true.
Proof. pose proof (digits_nonempty n). destruct (digits n); simpl; congruence. Qed.

Lemma parse_print_Z z : parse_int (print_Z z) = Some z.
Proof.
  unfold parse_int. rewrite trimmed_strip by apply print_Z_trimmed.
  unfold print_Z. destruct (Z.ltb_spec z 0) as [Hz|Hz].
  - rewrite no_underscores_none.
    2:{ cbn [existsb]. rewrite digits_no_underscore by apply digits_all. reflexivity. }
    cbn [split_sign]. rewrite Ascii.eqb_refl.
    rewrite nonempty_digits, digits_all. cbn [andb].
    rewrite of_digits_digits by lia. f_equal. lia.
  - rewrite no_underscores_none by apply digits_no_underscore, digits_all.
    rewrite split_sign_digits by apply digits_all.
    rewrite nonempty_digits, digits_all. cbn [andb].
    now rewrite of_digits_digits.
Qed.

Lemma print_Z_inj a b : print_Z a = print_Z b -> a = b.
Proof.
  intros E. apply (f_equal parse_int) in E. rewrite !parse_print_Z in E. congruence.
Qed.
