(** Integer powers as rationals, and correctness of the rounding functions of
    [Base.Flt] against rational arithmetic. *)
From Coq Require Import List ZArith QArith Qabs Bool Lia Lqa.
From Verif Require Import Base.Str Base.Digits Base.Flt.
Local Open Scope Q_scope.

Definition qpow (b k : Z) : Q :=
  if (0 <=? k)%Z then inject_Z (b ^ k) else / inject_Z (b ^ (- k)).

Definition qfrac (a d : Z) : Q := inject_Z a / inject_Z d.

Lemma inject_pos z : (0 < z)%Z -> 0 < inject_Z z.
Proof. intros. change 0 with (inject_Z 0). now rewrite <- Zlt_Qlt. Qed.

Lemma inject_le a b : (a <= b)%Z -> inject_Z a <= inject_Z b.
Proof. intros. now rewrite <- Zle_Qle. Qed.

Lemma inject_lt a b : (a < b)%Z -> inject_Z a < inject_Z b.
Proof. intros. now rewrite <- Zlt_Qlt. Qed.

Lemma inject_le_inv a b : inject_Z a <= inject_Z b -> (a <= b)%Z.
Proof. intros. now rewrite Zle_Qle. Qed.

Lemma inject_lt_inv a b : inject_Z a < inject_Z b -> (a < b)%Z.
Proof. intros. now rewrite Zlt_Qlt. Qed.

Lemma pow_pos b k : (0 < b)%Z -> (0 <= k)%Z -> (0 < b ^ k)%Z.
Proof. intros. now apply Z.pow_pos_nonneg. Qed.

Lemma qpow_pos b k : (0 < b)%Z -> 0 < qpow b k.
Proof.
  intros Hb. unfold qpow. destruct (Z.leb_spec 0 k).
  - apply inject_pos, pow_pos; auto.
  - apply Qinv_lt_0_compat, inject_pos, pow_pos; lia.
Qed.

Lemma qpow_nonneg b k : (0 <= k)%Z -> qpow b k = inject_Z (b ^ k).
Proof. intros. unfold qpow. destruct (Z.leb_spec 0 k); auto; lia. Qed.

Lemma qpow_0 b : qpow b 0 == 1.
Proof. reflexivity. Qed.

Lemma qpow_1 b : qpow b 1 == inject_Z b.
Proof. unfold qpow. simpl (0 <=? 1)%Z. cbv iota. now rewrite Z.pow_1_r. Qed.

Lemma qpow_opp b k : (0 < b)%Z -> qpow b (- k) == / qpow b k.
Proof.
  intros Hb. unfold qpow. destruct (Z.leb_spec 0 (-k)), (Z.leb_spec 0 k).
  - assert (k = 0)%Z by lia. subst. reflexivity.
  - rewrite Qinv_involutive. reflexivity.
  - rewrite Z.opp_involutive. reflexivity.
  - lia.
Qed.

Lemma qpow_succ b k : (0 < b)%Z -> qpow b (k + 1) == inject_Z b * qpow b k.
Proof.
  intros Hb. unfold qpow. destruct (Z.leb_spec 0 (k+1)), (Z.leb_spec 0 k); try lia.
  - rewrite Z.pow_add_r, Z.pow_1_r, inject_Z_mult by lia. ring.
  - assert (k = -1)%Z by lia. subst. change (b ^ (-1 + 1))%Z with 1%Z.
    change (- -1)%Z with 1%Z. rewrite Z.pow_1_r.
    pose proof (inject_pos b Hb). field. lra.
  - replace (- k)%Z with (- (k + 1) + 1)%Z by lia.
    rewrite Z.pow_add_r, Z.pow_1_r, inject_Z_mult by lia.
    pose proof (inject_pos b Hb).
    assert (0 < inject_Z (b ^ (- (k + 1)))) by (apply inject_pos, pow_pos; lia).
    field. split; lra.
Qed.

Lemma qpow_pred b k : (0 < b)%Z -> qpow b k == inject_Z b * qpow b (k - 1).
Proof. intros. rewrite <- qpow_succ by auto. now replace (k - 1 + 1)%Z with k by lia. Qed.

Lemma qpow_add_nat b k (n : nat) : (0 < b)%Z -> qpow b (k + Z.of_nat n) == qpow b k * inject_Z (b ^ Z.of_nat n).
Proof.
  intros Hb. induction n.
  - simpl. rewrite Z.add_0_r. change (inject_Z 1) with 1. ring.
  - rewrite Nat2Z.inj_succ. replace (k + Z.succ (Z.of_nat n))%Z with (k + Z.of_nat n + 1)%Z by lia.
    rewrite qpow_succ, IHn by auto. rewrite Z.pow_succ_r, inject_Z_mult by lia. ring.
Qed.

Lemma qpow_add_pos b k n : (0 < b)%Z -> (0 <= n)%Z -> qpow b (k + n) == qpow b k * inject_Z (b ^ n).
Proof. intros. rewrite <- (Z2Nat.id n) by auto. now apply qpow_add_nat. Qed.

Lemma qpow_add b k n : (0 < b)%Z -> qpow b (k + n) == qpow b k * qpow b n.
Proof.
  intros Hb. destruct (Z.le_gt_cases 0 n).
  - rewrite qpow_add_pos by auto. now rewrite (qpow_nonneg b n).
  - assert (E : qpow b k == qpow b (k + n) * inject_Z (b ^ (-n))).
    { rewrite <- qpow_add_pos by lia. now replace (k + n + - n)%Z with k by lia. }
    rewrite E. replace (qpow b n) with (qpow b (- - n)) by (f_equal; lia).
    rewrite (qpow_opp b (-n)) by auto. rewrite (qpow_nonneg b (-n)) by lia.
    assert (0 < inject_Z (b ^ (-n))) by (apply inject_pos, pow_pos; lia).
    field. lra.
Qed.

Lemma qpow_lt b k j : (2 <= b)%Z -> (k < j)%Z -> qpow b k < qpow b j.
Proof.
  intros Hb H. replace j with (k + (j - k))%Z by lia.
  rewrite qpow_add_pos by lia.
  pose proof (qpow_pos b k ltac:(lia)).
  assert (1 < inject_Z (b ^ (j - k))).
  { change 1 with (inject_Z 1). apply inject_lt. apply Z.pow_gt_1; lia. }
  nra.
Qed.

Lemma qpow_le b k j : (2 <= b)%Z -> (k <= j)%Z -> qpow b k <= qpow b j.
Proof.
  intros Hb H. destruct (Z.eq_dec k j) as [->|]; [lra|].
  apply Qlt_le_weak, qpow_lt; lia.
Qed.

Lemma qpow_lt_inv b k j : (2 <= b)%Z -> qpow b k < qpow b j -> (k < j)%Z.
Proof.
  intros Hb H. destruct (Z.lt_ge_cases k j); auto.
  pose proof (qpow_le b j k Hb H0). lra.
Qed.

(** Fractions *)
Lemma qfrac_pos a d : (0 < a)%Z -> (0 < d)%Z -> 0 < qfrac a d.
Proof.
  intros. unfold qfrac. apply Qlt_shift_div_l; [now apply inject_pos|].
  rewrite Qmult_0_l. now apply inject_pos.
Qed.

Lemma frac_spec b m k : (0 < b)%Z ->
  let '(a, d) := frac b m k in (0 < d)%Z /\ qfrac a d == inject_Z m * qpow b k
   /\ ((0 < m)%Z -> (0 < a)%Z) /\ ((0 <= m)%Z -> (0 <= a)%Z) /\ (m = 0 -> a = 0)%Z.
Proof.
  intros Hb. unfold frac, qfrac, qpow. destruct (Z.leb_spec 0 k).
  - pose proof (pow_pos b k Hb H). repeat split; try nia.
    rewrite inject_Z_mult. change (inject_Z 1) with 1. field.
  - assert (0 < b ^ (-k))%Z by (apply pow_pos; lia). repeat split; auto.
Qed.

Lemma scale_spec b k a d : (0 < b)%Z -> (0 < d)%Z ->
  let '(a', d') := scale b k a d in
  (0 < d')%Z /\ qfrac a d == qfrac a' d' * qpow b k /\ ((0 < a)%Z -> (0 < a')%Z).
Proof.
  intros Hb Hd. unfold scale, qfrac, qpow. destruct (Z.leb_spec 0 k).
  - pose proof (pow_pos b k Hb H). repeat split; auto; try nia.
    pose proof (inject_pos _ Hd). pose proof (inject_pos _ H0).
    rewrite inject_Z_mult. field. split; lra.
  - assert (0 < b ^ (-k))%Z by (apply pow_pos; lia). repeat split; auto; try nia.
    pose proof (inject_pos _ Hd). pose proof (inject_pos _ H0).
    rewrite inject_Z_mult. field. split; lra.
Qed.

Lemma qfrac_le_iff a d q : (0 < d)%Z -> qfrac a d <= q <-> inject_Z a <= q * inject_Z d.
Proof.
  intros Hd. pose proof (inject_pos _ Hd). unfold qfrac. split; intros.
  - setoid_replace (inject_Z a) with (inject_Z a / inject_Z d * inject_Z d) by (field; lra). nra.
  - apply Qle_shift_div_r; auto.
Qed.

Lemma qfrac_lt_iff a d q : (0 < d)%Z -> qfrac a d < q <-> inject_Z a < q * inject_Z d.
Proof.
  intros Hd. pose proof (inject_pos _ Hd). unfold qfrac. split; intros.
  - setoid_replace (inject_Z a) with (inject_Z a / inject_Z d * inject_Z d) by (field; lra). nra.
  - apply Qlt_shift_div_r; auto.
Qed.

Lemma qfrac_eq a d : (0 < d)%Z -> inject_Z a == qfrac a d * inject_Z d.
Proof. intros Hd. pose proof (inject_pos _ Hd). unfold qfrac. field. lra. Qed.

(** floor of the logarithm *)
Lemma ilogq_spec b a d : (2 <= b)%Z -> (0 < a)%Z -> (0 < d)%Z ->
  qpow b (ilogq b a d) <= qfrac a d /\ qfrac a d < qpow b (ilogq b a d + 1).
Proof.
  intros Hb Ha Hd. unfold ilogq.
  destruct (ilog_spec b a) as [A0 [A1 A2]]; try lia.
  destruct (ilog_spec b d) as [D0 [D1 D2]]; try lia.
  set (la := ilog b a) in *. set (ld := ilog b d) in *.
  pose proof (scale_spec b (la - ld) a d ltac:(lia) Hd) as S.
  destruct (scale b (la - ld) a d) as [a' d']. destruct S as (S1 & S2 & S3).
  specialize (S3 Ha).
  pose proof (qpow_pos b (la - ld) ltac:(lia)) as P.
  (* bounds in Q *)
  assert (B1 : qfrac a d < qpow b (la - ld + 1)).
  { apply qfrac_lt_iff; auto.
    apply inject_lt in A2. apply inject_le in D1.
    replace (la + 1)%Z with ((la - ld + 1) + ld)%Z in A2 by lia.
    assert (E : inject_Z (b ^ (la - ld + 1 + ld)) == qpow b (la - ld + 1) * inject_Z (b ^ ld)).
    { rewrite <- (qpow_nonneg b (la - ld + 1 + ld)) by lia. rewrite <- (qpow_nonneg b ld) by lia.
      apply qpow_add; lia. }
    rewrite E in A2. pose proof (qpow_pos b (la - ld + 1) ltac:(lia)). nra. }
  assert (B2 : qpow b (la - ld - 1) <= qfrac a d).
  { apply inject_le in A1. apply inject_lt in D2.
    rewrite (qfrac_eq a d Hd) in A1. pose proof (inject_pos d Hd).
    assert (E : inject_Z (b ^ la) == qpow b (la - ld - 1) * inject_Z (b ^ (ld + 1))).
    { rewrite <- (qpow_nonneg b la), <- (qpow_nonneg b (ld + 1)) by lia.
      rewrite <- qpow_add by lia. now replace (la - ld - 1 + (ld + 1))%Z with la by lia. }
    rewrite E in A1. pose proof (qpow_pos b (la - ld - 1) ltac:(lia)) as P'.
    assert (qpow b (la - ld - 1) * inject_Z d <= qfrac a d * inject_Z d) by nra.
    apply Qmult_le_r in H0; auto. }
  destruct (Z.leb_spec d' a') as [L|L].
  - split; auto. rewrite S2.
    apply inject_le in L. rewrite (qfrac_eq a' d' S1) in L. pose proof (inject_pos d' S1).
    assert (1 <= qfrac a' d'). { apply (Qmult_le_r _ _ (inject_Z d')); auto. lra. }
    nra.
  - split; auto. replace (la - ld - 1 + 1)%Z with (la - ld)%Z by lia. rewrite S2.
    apply inject_lt in L. rewrite (qfrac_eq a' d' S1) in L. pose proof (inject_pos d' S1).
    assert (qfrac a' d' < 1). { apply (Qmult_lt_r _ _ (inject_Z d')); auto. lra. }
    nra.
Qed.

Lemma qlog_unique b j k q : (2 <= b)%Z ->
  qpow b j <= q -> q < qpow b (j + 1) -> qpow b k <= q -> q < qpow b (k + 1) -> j = k.
Proof.
  intros Hb H1 H2 H3 H4.
  assert (j < k + 1)%Z by (apply (qpow_lt_inv b); auto; lra).
  assert (k < j + 1)%Z by (apply (qpow_lt_inv b); auto; lra). lia.
Qed.

(** rounding division *)
Lemma rne_div_spec a d : (0 < d)%Z ->
  (2 * Z.abs (a - rne_div a d * d) <= d)%Z /\
  ((2 * Z.abs (a - rne_div a d * d) = d)%Z -> Z.even (rne_div a d) = true).
Proof.
  intros Hd. unfold rne_div.
  pose proof (Z.div_mod a d ltac:(lia)) as E.
  pose proof (Z.mod_pos_bound a d Hd) as M.
  set (q := (a / d)%Z) in *. set (r := (a mod d)%Z) in *.
  destruct (Z.compare_spec (2 * r) d) as [C|C|C].
  - destruct (Z.even q) eqn:Ev.
    + split; auto. nia.
    + split; [nia|]. intros _. rewrite Z.even_add, Ev. reflexivity.
  - split; [nia|]. intros H. exfalso. nia.
  - split; [nia|]. intros H. exfalso. nia.
Qed.

Lemma rne_div_unique a d m : (0 < d)%Z -> (2 * Z.abs (a - m * d) < d)%Z -> rne_div a d = m.
Proof.
  intros Hd H. destruct (rne_div_spec a d Hd) as [S _].
  set (x := rne_div a d) in *. nia.
Qed.

Lemma rne_div_q a d : (0 < d)%Z ->
  Qabs (qfrac a d - inject_Z (rne_div a d)) <= 1 # 2.
Proof.
  intros Hd. destruct (rne_div_spec a d Hd) as [S _].
  pose proof (inject_pos d Hd) as P.
  apply Qabs_Qle_condition.
  assert (S1 : (-(d) <= 2 * (a - rne_div a d * d))%Z) by lia.
  assert (S2 : (2 * (a - rne_div a d * d) <= d)%Z) by lia.
  apply inject_le in S1. apply inject_le in S2.
  rewrite ?inject_Z_opp, ?inject_Z_mult in *. unfold Z.sub in *.
  rewrite inject_Z_plus, inject_Z_opp, inject_Z_mult in *.
  rewrite (qfrac_eq a d Hd) in S1, S2. change (inject_Z 2) with 2 in *.
  set (x := qfrac a d) in *. set (m := inject_Z (rne_div a d)) in *. set (D := inject_Z d) in *.
  split.
  - apply (Qmult_le_r _ _ D); auto. lra.
  - apply (Qmult_le_r _ _ D); auto. lra.
Qed.

Lemma rne_div_q_unique a d m : (0 < d)%Z ->
  Qabs (qfrac a d - inject_Z m) < 1 # 2 -> rne_div a d = m.
Proof.
  intros Hd H. apply Qabs_Qlt_condition in H as [H1 H2].
  pose proof (inject_pos d Hd) as P.
  apply rne_div_unique; auto.
  assert ((-(d) < 2 * (a - m * d))%Z /\ (2 * (a - m * d) < d)%Z); [|lia].
  set (x := qfrac a d) in *.
  assert (E : inject_Z (2 * (a - m * d)) == 2 * (x - inject_Z m) * inject_Z d).
  { rewrite inject_Z_mult. unfold Z.sub. rewrite inject_Z_plus, inject_Z_opp, inject_Z_mult.
    rewrite (qfrac_eq a d Hd). fold x. change (inject_Z 2) with 2. ring. }
  split; apply inject_lt_inv; rewrite E; rewrite ?inject_Z_opp; nra.
Qed.
