(** Integers through [g] and [.1f] formatting. *)
From Coq Require Import List Ascii String ZArith QArith Qabs Bool Lia Lqa.
From Verif Require Import Base.Str Base.Digits Base.Flt Base.QPow Base.FltRound Base.FltText.
Import ListNotations.
Local Open Scope Z_scope.

(** [int(float)]: truncation towards zero. *)
Definition int_of_flt (x : flt) : option Z :=
  match x with
  | Fin s m e => let (a, d) := frac 2 m e in Some (if s then - (a / d) else a / d)
  | _ => None
  end.

(** Rounding depends only on the rational value. *)
Lemma rne_div_scale a d c : 0 < d -> 0 < c -> rne_div (a * c) (d * c) = rne_div a d.
Proof.
  intros Hd Hc. unfold rne_div.
  rewrite Z.div_mul_cancel_r by lia. rewrite Z.mul_mod_distr_r by lia.
  replace (2 * (a mod d * c)) with (2 * (a mod d) * c) by lia.
  assert (E : (2 * (a mod d) * c ?= d * c) = (2 * (a mod d) ?= d)).
  { destruct (Z.compare_spec (2 * (a mod d)) d).
    - apply Z.compare_eq_iff. nia.
    - apply Z.compare_lt_iff. nia.
    - apply Z.compare_gt_iff. nia. }
  now rewrite E.
Qed.

Lemma rne_div_ratio a d a' d' : 0 < d -> 0 < d' -> a * d' = a' * d -> rne_div a d = rne_div a' d'.
Proof.
  intros. rewrite <- (rne_div_scale a d d'), <- (rne_div_scale a' d' d) by auto.
  rewrite H1. f_equal. lia.
Qed.

Lemma qfrac_eq_iff a d a' d' : 0 < d -> 0 < d' -> ((qfrac a d == qfrac a' d')%Q <-> a * d' = a' * d).
Proof.
  intros Hd Hd'. pose proof (inject_pos d Hd). pose proof (inject_pos d' Hd').
  split; intros E.
  - assert (X : (inject_Z (a * d') == inject_Z (a' * d))%Q).
    { rewrite !inject_Z_mult. rewrite (qfrac_eq a d Hd), (qfrac_eq a' d' Hd'), E. ring. }
    unfold Qeq in X. simpl in X. lia.
  - unfold qfrac. assert (X : (inject_Z a * inject_Z d' == inject_Z a' * inject_Z d)%Q).
    { rewrite <- !inject_Z_mult, E. reflexivity. }
    rewrite <- (Qmult_inj_r _ _ (inject_Z d * inject_Z d')) by nra.
    field_simplify; try lra; try exact X.
Qed.

Lemma round_prec_ratio b n em a d a' d' :
  2 <= b -> 0 < a -> 0 < d -> 0 < a' -> 0 < d' -> a * d' = a' * d ->
  round_prec b n em a d = round_prec b n em a' d'.
Proof.
  intros Hb Ha Hd Ha' Hd' E. unfold round_prec.
  assert (Q : (qfrac a d == qfrac a' d')%Q) by now apply qfrac_eq_iff.
  assert (EL : ilogq b a d = ilogq b a' d').
  { destruct (ilogq_spec b a d) as [A1 A2]; auto. destruct (ilogq_spec b a' d') as [B1 B2]; auto.
    apply (qlog_unique b _ _ (qfrac a d)); auto; rewrite Q; auto. }
  rewrite EL. set (k := match em with Some e => _ | None => _ end).
  pose proof (scale_spec b k a d ltac:(lia) Hd) as S1.
  pose proof (scale_spec b k a' d' ltac:(lia) Hd') as S2.
  destruct (scale b k a d) as [x y]. destruct (scale b k a' d') as [x' y'].
  destruct S1 as (P1 & P2 & _). destruct S2 as (P1' & P2' & _).
  assert (rne_div x y = rne_div x' y').
  { apply rne_div_ratio; auto. apply qfrac_eq_iff; auto.
    rewrite P2, P2' in Q. pose proof (qpow_pos b k ltac:(lia)).
    apply (Qmult_inj_r _ _ (qpow b k)); [lra|]. exact Q. }
  now rewrite H.
Qed.

Lemma round64_ratio s a d a' d' :
  0 <= a -> 0 < d -> 0 <= a' -> 0 < d' -> a * d' = a' * d -> round64 s a d = round64 s a' d'.
Proof.
  intros. unfold round64. destruct (Z.eqb_spec a 0), (Z.eqb_spec a' 0); try nia; auto.
  rewrite (round_prec_ratio 2 53 (Some (-1074)) a d a' d'); auto; lia.
Qed.

(** Exact conversion of integers below 2^53. *)
Lemma rne_div_exact a d m : 0 < d -> a = m * d -> rne_div a d = m.
Proof. intros Hd ->. apply rne_div_unique; auto. replace (m * d - m * d) with 0 by lia. simpl. lia. Qed.

Lemma round64_int s z : 0 < z < 2 ^ 53 ->
  exists m e, round64 s z 1 = Fin s m e /\ 0 < m /\ (qval 2 m e == inject_Z z)%Q /\ is_f64 (Fin s m e) = true.
Proof.
  intros Hz. unfold round64. destruct (Z.eqb_spec z 0); [lia|].
  set (L := ilogq 2 z 1).
  assert (Q : (qfrac z 1 == inject_Z z)%Q). { unfold qfrac. change (inject_Z 1) with 1%Q. field. }
  destruct (ilogq_spec 2 z 1) as [I1 I2]; try lia. fold L in I1, I2. rewrite Q in I1, I2.
  assert (HL : 0 <= L <= 52).
  { split.
    - cut (0 < L + 1); [lia|]. apply (qpow_lt_inv 2); [lia|].
      eapply Qle_lt_trans; [|exact I2]. rewrite qpow_0. change 1%Q with (inject_Z 1). apply inject_le. lia.
    - cut (L < 53); [lia|]. apply (qpow_lt_inv 2); [lia|].
      eapply Qle_lt_trans; [exact I1|]. rewrite qpow_nonneg by lia. apply inject_lt. lia. }
  rewrite qpow_nonneg in I1 by lia. rewrite qpow_nonneg in I2 by lia.
  apply inject_le_inv in I1. apply inject_lt_inv in I2.
  unfold round_prec. fold L. change (53 - 1) with 52. rewrite Z.max_l by lia.
  set (k := L - 52).
  set (m := z * 2 ^ (- k)).
  assert (Pk : 0 < 2 ^ (- k)) by (apply Z.pow_pos_nonneg; lia).
  assert (R : (let (a', d') := scale 2 k z 1 in rne_div a' d') = m).
  { unfold scale. destruct (Z.leb_spec 0 k).
    - assert (k = 0) by lia. unfold m. rewrite H0. apply rne_div_exact; [reflexivity|]. simpl. lia.
    - apply rne_div_exact; lia. }
  destruct (scale 2 k z 1) as [a' d'].
  rewrite R.
  assert (B : 2 ^ 52 <= m < 2 ^ 53).
  { unfold m. split.
    - replace 52 with (L + - k) at 1 by lia. rewrite Z.pow_add_r by lia. nia.
    - replace 53 with (L + 1 + - k) by lia. rewrite Z.pow_add_r by lia. nia. }
  destruct (Z.eqb_spec m (2 ^ 53)); [lia|].
  destruct (Z.ltb_spec 971 k); [lia|].
  exists m, k. split; [reflexivity|]. split; [nia|]. split.
  - unfold qval, m. rewrite inject_Z_mult, <- (qpow_nonneg 2 (-k)) by lia.
    rewrite qpow_opp by lia. pose proof (qpow_pos 2 k ltac:(lia)). field. lra.
  - unfold is_f64. rewrite !andb_true_iff, orb_true_iff, !Z.leb_le, Z.ltb_lt.
    assert (0 < 2 ^ 52) by reflexivity. lia.
Qed.

Lemma flt_of_Z_spec z : Z.abs z < 2 ^ 53 -> z <> 0 ->
  exists m e, flt_of_Z z = Fin (z <? 0) m e /\ 0 < m /\ (qval 2 m e == inject_Z (Z.abs z))%Q /\
     is_f64 (Fin (z <? 0) m e) = true.
Proof. intros. unfold flt_of_Z. apply round64_int. lia. Qed.

Lemma flt_of_Z_0 : flt_of_Z 0 = fzero false.
Proof. reflexivity. Qed.

(** digits with trailing zeros *)
Lemma zpad_0 k : zpad k 0 = repeat "0"%char k.
Proof.
  induction k; auto. cbn [zpad]. change (0 / 10) with 0. rewrite IHk.
  change [digit_char (0 mod 10)] with (repeat "0"%char 1). rewrite <- repeat_app.
  f_equal. lia.
Qed.

Lemma zpad_mul k j n : 0 <= n -> zpad (k + j) (n * 10 ^ Z.of_nat j) = zpad k n ++ zpad j 0.
Proof.
  revert n. induction j; intros n Hn.
  - simpl. rewrite Nat.add_0_r, app_nil_r, Z.mul_1_r. reflexivity.
  - replace (k + S j)%nat with (S (k + j)) by lia. cbn [zpad].
    replace (n * 10 ^ Z.of_nat (S j)) with (n * 10 ^ Z.of_nat j * 10).
    2:{ rewrite Nat2Z.inj_succ, Z.pow_succ_r by lia. lia. }
    rewrite Z.div_mul, Z.mod_mul by lia. rewrite IHj by auto.
    rewrite <- app_assoc. reflexivity.
Qed.

Lemma drop_while_repeat0 j : drop_while is_zero_c (repeat "0"%char j) = [].
Proof. induction j; auto. Qed.

Lemma rev_repeat {A} (x : A) n : rev (repeat x n) = repeat x n.
Proof.
  induction n; auto. cbn [repeat rev]. rewrite IHn.
  change [x] with (repeat x 1). rewrite <- repeat_app.
  replace (n + 1)%nat with (S n) by lia. reflexivity.
Qed.

Lemma rstrip0_zeros j : rstrip0 (zpad j 0) = [].
Proof. unfold rstrip0. now rewrite zpad_0, rev_repeat, drop_while_repeat0. Qed.

Lemma firstn_app_exact {A} (a b : list A) n : n = List.length a -> firstn n (a ++ b) = a.
Proof. intros ->. rewrite firstn_app, Nat.sub_diag, firstn_all. simpl. now rewrite app_nil_r. Qed.

Lemma skipn_app_exact {A} (a b : list A) n : n = List.length a -> skipn n (a ++ b) = b.
Proof. intros ->. rewrite skipn_app, Nat.sub_diag, skipn_all. reflexivity. Qed.

(** An exactly representable integer of at most [p] digits printed by [.pg]. *)
Lemma dec_round_int p m e z :
  0 < m -> 0 < z < 10 ^ p -> 1 <= p -> (qval 2 m e == inject_Z z)%Q ->
  dec_round p m e = (z * 10 ^ (p - 1 - ilog 10 z), ilog 10 z - (p - 1)).
Proof.
  intros Hm Hz Hp Q. destruct (ilog_spec 10 z) as (L0 & L1 & L2); try lia.
  assert (HL : ilog 10 z < p) by (apply (Z.pow_lt_mono_r_iff 10); lia).
  set (L := ilog 10 z) in *.
  apply dec_round_near; auto; try lia.
  - split.
    + replace (p - 1) with (L + (p - 1 - L)) at 1 by lia. rewrite Z.pow_add_r by lia.
      apply Z.mul_le_mono_nonneg_r; auto. apply Z.pow_nonneg; lia.
    + replace p with (L + 1 + (p - 1 - L)) at 2 by lia. rewrite (Z.pow_add_r 10 (L+1)) by lia.
      apply Z.mul_lt_mono_pos_r; auto. apply Z.pow_pos_nonneg; lia.
  - assert (X : (qval 10 (z * 10 ^ (p - 1 - L)) (L - (p - 1)) == inject_Z z)%Q).
    { unfold qval. rewrite inject_Z_mult, <- (qpow_nonneg 10 (p - 1 - L)) by lia.
      replace (L - (p - 1)) with (- (p - 1 - L)) by lia. rewrite (qpow_opp 10 (p - 1 - L)) by lia.
      pose proof (qpow_pos 10 (p - 1 - L) ltac:(lia)). field. lra. }
    rewrite X, Q. setoid_replace (inject_Z z - inject_Z z)%Q with 0%Q by ring.
    change (Qabs 0) with 0%Q. pose proof (qpow_pos 10 (L - (p - 1) - 1) ltac:(lia)). lra.
Qed.

Lemma fmt_g_int (p : nat) z : (1 <= p)%nat -> Z.abs z < 10 ^ Z.of_nat p -> Z.abs z < 2 ^ 53 ->
  fmt_g p (flt_of_Z z) = print_Z z.
Proof.
  intros Hp Hz Hz2. destruct (Z.eq_dec z 0) as [->|Hz0].
  - rewrite flt_of_Z_0. reflexivity.
  - destruct (flt_of_Z_spec z Hz2 Hz0) as (m & e & E & Hm & Q & _).
    rewrite E. cbn [fmt_g]. destruct (Z.eqb_spec m 0) as [?|_]; [lia|].
    rewrite (dec_round_int (Z.of_nat p) m e (Z.abs z)) by (auto; lia).
    set (n := Z.abs z) in *.
    destruct (ilog_spec 10 n) as (L0 & L1 & L2); try lia.
    assert (HL : ilog 10 n < Z.of_nat p) by (apply (Z.pow_lt_mono_r_iff 10); lia).
    set (L := ilog 10 n) in *.
    replace (L - (Z.of_nat p - 1) + Z.of_nat p - 1) with L by lia.
    destruct (Z.leb_spec (-4) L); [|lia]. destruct (Z.ltb_spec L (Z.of_nat p)); [|lia].
    cbn [andb]. destruct (Z.leb_spec 0 L); [|lia].
    assert (EZ : zpad p (n * 10 ^ (Z.of_nat p - 1 - L)) = digits n ++ zpad (p - 1 - Z.to_nat L) 0).
    { replace (Z.of_nat p - 1 - L) with (Z.of_nat (p - 1 - Z.to_nat L)) by lia.
      replace p with (S (Z.to_nat L) + (p - 1 - Z.to_nat L))%nat at 1 by lia.
      rewrite zpad_mul by lia. reflexivity. }
    rewrite EZ. rewrite firstn_app_exact, skipn_app_exact.
    2,3: rewrite digits_length; unfold ndigits; fold L; lia.
    unfold with_point. rewrite rstrip0_zeros.
    unfold print_Z, n. destruct (Z.ltb_spec z 0); cbn [sign_str app]; do 2 f_equal; lia.
Qed.

(** [.1f] of an integer. *)
Lemma fmt_f1_int z : Z.abs z < 2 ^ 53 ->
  fmt_f 1 (flt_of_Z z) = print_Z z ++ $".0".
Proof.
  intros Hz. destruct (Z.eq_dec z 0) as [->|Hz0].
  - vm_compute. reflexivity.
  - destruct (flt_of_Z_spec z Hz Hz0) as (m & e & E & Hm & Q & _).
    rewrite E. cbn [fmt_f].
    pose proof (frac_spec 2 m e ltac:(lia)) as F. destruct (frac 2 m e) as [a d].
    destruct F as (F1 & F2 & F3 & _). fold (qval 2 m e) in F2. rewrite Q in F2.
    assert (X : a = Z.abs z * d).
    { assert (qfrac a d == qfrac (Z.abs z) 1)%Q. { rewrite F2. unfold qfrac. change (inject_Z 1) with 1%Q. field. }
      apply (proj1 (qfrac_eq_iff _ _ _ _ F1 Z.lt_0_1)) in H. lia. }
    rewrite (rne_div_exact _ d (Z.abs z * 10)) by (auto; subst; simpl; lia).
    change (10 ^ Z.of_nat 1) with 10. rewrite Z.div_mul, Z.mod_mul by lia.
    change (Nat.eqb 1 0) with false. change (zpad 1 0) with ["0"%char].
    unfold print_Z. destruct (Z.ltb_spec z 0); cbn [sign_str app]; f_equal; f_equal; try lia.
    all: f_equal; lia.
Qed.

Lemma parse_f1_int z : Z.abs z < 2 ^ 53 ->
  exists x, parse_float (fmt_f 1 (flt_of_Z z)) = Some x /\ int_of_flt x = Some z.
Proof.
  intros Hz. rewrite fmt_f1_int by auto.
  assert (P : parse_float (print_Z z ++ $".0") = Some (flt_of_dec (z <? 0) (Z.abs z * 10) (-1))).
  { assert (G : forall s n, 0 <= n -> parse_float (sign_str s ++ (digits n ++ $".0")) = Some (flt_of_dec s (n * 10) (-1))).
    { intros s n Hn. destruct (zpad_S_cons (Z.to_nat (ilog 10 n)) n) as (c & r & Ez & Hc & Hr & _).
      assert (Ed : digits n = c :: r) by exact Ez.
      apply (parse_float_signed s _ _ _ c (r ++ $".0")).
      - rewrite forallb_app, digits_clean by apply digits_all. reflexivity.
      - rewrite Ed. reflexivity.
      - auto.
      - unfold parse_udec. rewrite span_digits_app; [|apply digits_all|reflexivity].
        change ($".0") with (["."%char] ++ ["0"%char]). cbn [app]. rewrite Ascii.eqb_refl.
        cbn [span_digits]. change (is_digit "0") with true. cbv iota.
        assert (Hne : nonempty (digits n ++ ["0"%char]) = true) by (rewrite Ed; reflexivity).
        rewrite Hne. cbn [parse_exp]. rewrite of_digits_app, of_digits_digits by auto.
        cbn [List.length]. f_equal. f_equal. change (10 ^ Z.of_nat 1) with 10.
        change (of_digits ["0"%char]) with 0. lia. }
    unfold print_Z. destruct (Z.ltb_spec z 0).
    - change ("-"%char :: digits (- z)) with (sign_str true ++ digits (-z)). rewrite <- app_assoc.
      rewrite G by lia. do 2 f_equal. lia.
    - change (digits z ++ $".0") with (sign_str false ++ (digits z ++ $".0")).
      rewrite G by lia. do 2 f_equal. lia. }
  rewrite P. eexists; split; [reflexivity|].
  assert (R : flt_of_dec (z <? 0) (Z.abs z * 10) (-1) = round64 (z <? 0) (Z.abs z) 1).
  { unfold flt_of_dec, frac. change (0 <=? -1) with false. cbv iota.
    apply round64_ratio; simpl; lia. }
  rewrite R. destruct (Z.eq_dec z 0) as [->|Hz0]; [reflexivity|].
  destruct (flt_of_Z_spec z Hz Hz0) as (m & e & E & Hm & Q & _).
  unfold flt_of_Z in E. rewrite E. cbn [int_of_flt].
  pose proof (frac_spec 2 m e ltac:(lia)) as F. destruct (frac 2 m e) as [a d].
  destruct F as (F1 & F2 & F3 & _). fold (qval 2 m e) in F2. rewrite Q in F2.
  assert (X : a = Z.abs z * d).
  { assert (qfrac a d == qfrac (Z.abs z) 1)%Q. { rewrite F2. unfold qfrac. change (inject_Z 1) with 1%Q. field. }
    apply (proj1 (qfrac_eq_iff _ _ _ _ F1 Z.lt_0_1)) in H. lia. }
  rewrite X, Z.div_mul by lia. destruct (Z.ltb_spec z 0); f_equal; lia.
Qed.

Lemma fmt_f1_int_length z : Z.abs z < 10 ^ 7 -> (List.length (fmt_f 1 (flt_of_Z z)) <= 10)%nat.
Proof.
  intros H. rewrite fmt_f1_int by lia. rewrite app_length. unfold print_Z.
  destruct (Z.ltb_spec z 0); cbn [List.length]; rewrite digits_length.
  - pose proof (ndigits_le (-z) 7 ltac:(simpl; lia) ltac:(lia)). change (List.length ($".0")) with 2%nat. lia.
  - pose proof (ndigits_le z 7 ltac:(simpl; lia) ltac:(lia)). change (List.length ($".0")) with 2%nat. lia.
Qed.
