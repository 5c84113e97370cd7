(** Correctness of [round_prec] and of the decimal/binary conversions. *)
From Coq Require Import List ZArith QArith Qabs Bool Lia Lqa.
From Verif Require Import Base.Str Base.Digits Base.Flt Base.QPow.
Local Open Scope Q_scope.

(** value of (m, k) in base b *)
Definition qval (b m k : Z) : Q := inject_Z m * qpow b k.

Lemma Qabs_mult_pos a c : 0 <= c -> Qabs (a * c) == Qabs a * c.
Proof. intros. rewrite Qabs_Qmult. rewrite (Qabs_pos c) by auto. reflexivity. Qed.

Section RP.
Variables (b n a d : Z).
Hypothesis Hb : (2 <= b)%Z.
Hypothesis Hn : (1 <= n)%Z.
Hypothesis Ha : (0 < a)%Z.
Hypothesis Hd : (0 < d)%Z.
Let q := qfrac a d.
Let L := ilogq b a d.

Lemma q_pos : 0 < q.
Proof. now apply qfrac_pos. Qed.

(** Without clamping. *)
Lemma round_prec_spec_gen em :
  (match em with Some e => (e <= L - (n - 1))%Z | None => True end) ->
  let '(m, k) := round_prec b n em a d in
  (b ^ (n - 1) <= m < b ^ n)%Z /\
  (L - (n - 1) <= k <= L - (n - 1) + 1)%Z /\
  Qabs (q - qval b m k) <= qpow b (L - (n - 1)) * (1 # 2).
Proof.
  intros Hem. unfold round_prec. fold L.
  assert (Ek : match em with Some e => Z.max (L - (n - 1)) e | None => (L - (n - 1))%Z end = (L - (n - 1))%Z).
  { destruct em; auto. lia. }
  rewrite Ek. set (k := (L - (n - 1))%Z).
  pose proof (scale_spec b k a d ltac:(lia) Hd) as S.
  destruct (scale b k a d) as [a' d']. destruct S as (S1 & S2 & S3). specialize (S3 Ha).
  pose proof (rne_div_q a' d' S1) as R.
  set (m := rne_div a' d') in *.
  destruct (ilogq_spec b a d) as [I1 I2]; auto. fold L in I1, I2.
  fold q in I1, I2, S2.
  pose proof (qpow_pos b k ltac:(lia)) as P.
  assert (E1 : qpow b L == qpow b k * inject_Z (b ^ (n - 1))).
  { rewrite <- qpow_add_pos by lia. unfold k. now replace (L - (n - 1) + (n - 1))%Z with L by lia. }
  assert (E2 : qpow b (L + 1) == qpow b k * inject_Z (b ^ n)).
  { rewrite <- qpow_add_pos by lia. unfold k. now replace (L - (n - 1) + n)%Z with (L + 1)%Z by lia. }
  rewrite E1, S2 in I1. rewrite E2, S2 in I2.
  assert (J1 : inject_Z (b ^ (n - 1)) <= qfrac a' d').
  { apply (Qmult_le_r _ _ (qpow b k)); auto. lra. }
  assert (J2 : qfrac a' d' < inject_Z (b ^ n)).
  { apply (Qmult_lt_r _ _ (qpow b k)); auto. lra. }
  apply Qabs_Qle_condition in R as [R1 R2].
  assert (M1 : (b ^ (n - 1) <= m)%Z).
  { cut (b ^ (n - 1) < m + 1)%Z; [lia|]. apply inject_lt_inv. rewrite inject_Z_plus.
    change (inject_Z 1) with 1. lra. }
  assert (M2 : (m <= b ^ n)%Z).
  { cut (m < b ^ n + 1)%Z; [lia|]. apply inject_lt_inv. rewrite inject_Z_plus.
    change (inject_Z 1) with 1. lra. }
  assert (Err : Qabs (q - qval b m k) <= qpow b k * (1 # 2)).
  { unfold qval. rewrite S2.
    setoid_replace (qfrac a' d' * qpow b k - inject_Z m * qpow b k)
      with ((qfrac a' d' - inject_Z m) * qpow b k) by ring.
    rewrite Qabs_mult_pos by lra.
    assert (Qabs (qfrac a' d' - inject_Z m) <= 1 # 2) by (apply Qabs_Qle_condition; auto).
    nra. }
  destruct (Z.eqb_spec m (b ^ n)) as [C|C].
  - split; [|split].
    + split; [lia|]. apply Z.pow_lt_mono_r; lia.
    + lia.
    + fold k. unfold qval in *. rewrite C in Err.
      rewrite qpow_succ by lia.
      assert (inject_Z (b ^ n) == inject_Z (b ^ (n - 1)) * inject_Z b) as X.
      { rewrite <- inject_Z_mult. replace n with (n - 1 + 1)%Z at 1 by lia.
        rewrite Z.pow_add_r, Z.pow_1_r by lia. reflexivity. }
      rewrite X in Err.
      setoid_replace (inject_Z (b ^ (n - 1)) * (inject_Z b * qpow b k))
        with (inject_Z (b ^ (n - 1)) * inject_Z b * qpow b k) by ring. exact Err.
  - split; [|split]; auto; lia.
Qed.

Lemma round_prec_rel em :
  (match em with Some e => (e <= L - (n - 1))%Z | None => True end) ->
  let '(m, k) := round_prec b n em a d in
  Qabs (q - qval b m k) <= q * qpow b (- (n - 1)) * (1 # 2).
Proof.
  intros Hem. pose proof (round_prec_spec_gen em Hem) as S.
  destruct (round_prec b n em a d) as [m k]. destruct S as (_ & _ & S).
  eapply Qle_trans; [exact S|].
  destruct (ilogq_spec b a d) as [I1 _]; auto. fold L q in I1.
  replace (L - (n - 1))%Z with (L + (- (n - 1)))%Z by lia.
  rewrite qpow_add by lia. pose proof (qpow_pos b (-(n-1)) ltac:(lia)). nra.
Qed.

(** A value very close to an n-digit number rounds to it. *)
Lemma round_prec_near D k em :
  (match em with Some e => (e <= L - (n - 1))%Z | None => True end) ->
  (b ^ (n - 1) <= D < b ^ n)%Z ->
  Qabs (q - qval b D k) < qpow b (k - 1) * (1 # 2) ->
  round_prec b n em a d = (D, k).
Proof.
  intros Hem [HD1 HD2] Herr. unfold qval in Herr.
  apply Qabs_Qlt_condition in Herr as [H1 H2].
  pose proof (qpow_pos b (k-1) ltac:(lia)) as P1.
  pose proof (qpow_pos b k ltac:(lia)) as Pk.
  assert (Ek1 : qpow b k == inject_Z b * qpow b (k - 1)) by (apply qpow_pred; lia).
  pose proof (inject_le 2 b Hb) as HbQ. change (inject_Z 2) with 2 in HbQ.
  assert (E1 : qpow b (k + (n - 1)) == qpow b k * inject_Z (b ^ (n - 1))) by (apply qpow_add_pos; lia).
  assert (E2 : qpow b (k + (n - 1) + 1) == qpow b k * inject_Z (b ^ n)).
  { rewrite <- qpow_add_pos by lia. now replace (k + (n - 1) + 1)%Z with (k + n)%Z by lia. }
  destruct (ilogq_spec b a d) as [I1 I2]; auto. fold L in I1, I2. fold q in I1, I2.
  assert (HD2' : inject_Z D <= inject_Z (b ^ n) - 1).
  { assert (D <= b ^ n - 1)%Z by lia. apply inject_le in H. unfold Z.sub in H.
    rewrite inject_Z_plus, inject_Z_opp in H. change (inject_Z 1) with 1 in H. lra. }
  pose proof (inject_le _ _ HD1) as HD1'.
  destruct (Qlt_le_dec q (qpow b (k + (n - 1)))) as [C|C].
  - (* just below the power: carry case *)
    assert (HD : D = (b ^ (n - 1))%Z).
    { cut (D < b ^ (n - 1) + 1)%Z; [lia|]. apply inject_lt_inv. rewrite inject_Z_plus.
      change (inject_Z 1) with 1.
      apply (Qmult_lt_r _ _ (qpow b k)); auto. rewrite E1 in C. nra. }
    assert (HL : L = (k + (n - 1) - 1)%Z).
    { apply (qlog_unique b L (k + (n - 1) - 1) q); auto.
      - rewrite HD in H1.
        assert (E3 : inject_Z (b ^ (n-1)) * qpow b k == inject_Z b * qpow b (k + (n - 1) - 1)).
        { rewrite Qmult_comm, <- E1. replace (k + (n-1))%Z with (k + (n-1) - 1 + 1)%Z at 1 by lia.
          apply qpow_succ; lia. }
        rewrite E3 in H1.
        pose proof (qpow_pos b (k + (n - 1) - 1) ltac:(lia)).
        pose proof (qpow_le b (k - 1) (k + (n - 1) - 1) Hb ltac:(lia)). nra.
      - replace (k + (n - 1) - 1 + 1)%Z with (k + (n - 1))%Z by lia. auto. }
    unfold round_prec. fold L.
    assert (Ek : match em with Some e => Z.max (L - (n - 1)) e | None => (L - (n - 1))%Z end = (k - 1)%Z).
    { destruct em; lia. }
    rewrite Ek.
    pose proof (scale_spec b (k - 1) a d ltac:(lia) Hd) as S.
    destruct (scale b (k - 1) a d) as [a' d']. destruct S as (S1 & S2 & S3).
    assert (R : rne_div a' d' = (b ^ n)%Z).
    { apply rne_div_q_unique; auto. apply Qabs_Qlt_condition.
      fold q in S2. rewrite S2, HD in H1, H2. rewrite Ek1 in H1, H2.
      assert (X : inject_Z (b ^ n) == inject_Z (b ^ (n - 1)) * inject_Z b).
      { rewrite <- inject_Z_mult. replace n with (n - 1 + 1)%Z at 1 by lia.
        rewrite Z.pow_add_r, Z.pow_1_r by lia. reflexivity. }
      rewrite X. split; apply (Qmult_lt_r _ _ (qpow b (k-1))); auto; nra. }
    rewrite R, Z.eqb_refl, HD. f_equal. lia.
  - (* same decade *)
    assert (HL : L = (k + (n - 1))%Z).
    { apply (qlog_unique b L (k + (n - 1)) q); auto. rewrite E2. nra. }
    unfold round_prec. fold L.
    assert (Ek : match em with Some e => Z.max (L - (n - 1)) e | None => (L - (n - 1))%Z end = k).
    { destruct em; lia. }
    rewrite Ek.
    pose proof (scale_spec b k a d ltac:(lia) Hd) as S.
    destruct (scale b k a d) as [a' d']. destruct S as (S1 & S2 & S3).
    assert (R : rne_div a' d' = D).
    { apply rne_div_q_unique; auto. apply Qabs_Qlt_condition.
      fold q in S2. rewrite S2 in H1, H2.
      split; apply (Qmult_lt_r _ _ (qpow b k)); auto; nra. }
    rewrite R. destruct (Z.eqb_spec D (b ^ n)); [lia|reflexivity].
Qed.
End RP.

(** Absolute value of a finite float. *)
Definition fabs (x : flt) : Q := match x with Fin _ m e => qval 2 m e | _ => 0 end.

(** Signed value. *)
Definition fval (x : flt) : Q :=
  match x with Fin s m e => if s then - qval 2 m e else qval 2 m e | _ => 0 end.

(** Correct rounding to binary64 in the normal range. *)
Lemma round64_spec s a d :
  (0 < a)%Z -> (0 < d)%Z ->
  qpow 2 (-1022) <= qfrac a d -> qfrac a d < qpow 2 1023 ->
  exists m e, round64 s a d = Fin s m e /\ (0 < m)%Z /\ is_f64 (Fin s m e) = true /\
    Qabs (qfrac a d - qval 2 m e) <= qfrac a d * qpow 2 (-52) * (1 # 2).
Proof.
  intros Ha Hd H1 H2.
  assert (HL : (-1022 <= ilogq 2 a d <= 1022)%Z).
  { destruct (ilogq_spec 2 a d) as [I1 I2]; try lia.
    split.
    - cut (-1022 < ilogq 2 a d + 1)%Z; [lia|]. apply (qpow_lt_inv 2); [lia|lra].
    - cut (ilogq 2 a d < 1023)%Z; [lia|]. apply (qpow_lt_inv 2); [lia|lra]. }
  unfold round64. destruct (Z.eqb_spec a 0); [lia|].
  assert (Hem : (-1074 <= ilogq 2 a d - (53 - 1))%Z) by lia.
  pose proof (round_prec_spec_gen 2 53 a d ltac:(lia) ltac:(lia) Ha Hd (Some (-1074)%Z) Hem) as S.
  pose proof (round_prec_rel 2 53 a d ltac:(lia) ltac:(lia) Ha Hd (Some (-1074)%Z) Hem) as R.
  destruct (round_prec 2 53 (Some (-1074)%Z) a d) as [m e].
  destruct S as ((M1 & M2) & (K1 & K2) & S).
  change (53 - 1)%Z with 52%Z in *. 
  assert (P52 : (0 < 2 ^ 52)%Z) by (apply Z.pow_pos_nonneg; lia).
  destruct (Z.ltb_spec 971 e); [lia|].
  exists m, e. split; [reflexivity|]. split; [lia|]. split.
  - unfold is_f64. rewrite !andb_true_iff, orb_true_iff.
    rewrite !Z.leb_le, Z.ltb_lt. repeat split; try lia.
  - exact R.
Qed.

Lemma qpow_inject b k : (0 <= k)%Z -> qpow b k == inject_Z (b ^ k).
Proof. intros. now rewrite qpow_nonneg. Qed.

Lemma ten_pow_bounds : qpow 2 (-1022) <= qpow 10 (-200) /\ qpow 10 200 < qpow 2 1023.
Proof. split; vm_compute; congruence. Qed.

(** Parsing a decimal in range. *)
Lemma flt_of_dec_spec s D E :
  (0 < D)%Z -> qpow 10 (-200) <= qval 10 D E -> qval 10 D E < qpow 10 200 ->
  exists m e, flt_of_dec s D E = Fin s m e /\ (0 < m)%Z /\ is_f64 (Fin s m e) = true /\
    Qabs (qval 10 D E - qval 2 m e) <= qval 10 D E * qpow 2 (-52) * (1 # 2).
Proof.
  intros HD H1 H2. unfold flt_of_dec.
  pose proof (frac_spec 10 D E ltac:(lia)) as F.
  destruct (frac 10 D E) as [a d]. destruct F as (F1 & F2 & F3 & _ & _). specialize (F3 HD).
  fold (qval 10 D E) in F2.
  destruct ten_pow_bounds as [T1 T2].
  destruct (round64_spec s a d) as (m & e & R1 & R2 & R3 & R4); auto; try (rewrite F2; lra).
  exists m, e. repeat split; auto. rewrite F2 in R4. exact R4.
Qed.

(** Decimal rounding of a positive binary value. *)
Lemma dec_round_spec n m e :
  (1 <= n)%Z -> (0 < m)%Z ->
  let '(D, E) := dec_round n m e in
  (10 ^ (n - 1) <= D < 10 ^ n)%Z /\
  Qabs (qval 2 m e - qval 10 D E) <= qpow 10 E * (1 # 2) /\
  Qabs (qval 2 m e - qval 10 D E) <= qval 2 m e * qpow 10 (- (n - 1)) * (1 # 2).
Proof.
  intros Hn Hm. unfold dec_round.
  pose proof (frac_spec 2 m e ltac:(lia)) as F.
  destruct (frac 2 m e) as [a d]. destruct F as (F1 & F2 & F3 & _). specialize (F3 Hm).
  fold (qval 2 m e) in F2.
  pose proof (round_prec_spec_gen 10 n a d ltac:(lia) Hn F3 F1 None I) as S.
  pose proof (round_prec_rel 10 n a d ltac:(lia) Hn F3 F1 None I) as R.
  destruct (round_prec 10 n None a d) as [D E].
  rewrite F2 in S, R. destruct S as (S1 & S2 & S3). repeat split; auto; try lia.
  eapply Qle_trans; [exact S3|].
  pose proof (qpow_le 10 (ilogq 10 a d - (n - 1)) E ltac:(lia) ltac:(lia)). lra.
Qed.

Lemma dec_round_near n m e D E :
  (1 <= n)%Z -> (0 < m)%Z -> (10 ^ (n - 1) <= D < 10 ^ n)%Z ->
  Qabs (qval 2 m e - qval 10 D E) < qpow 10 (E - 1) * (1 # 2) ->
  dec_round n m e = (D, E).
Proof.
  intros Hn Hm HD H. unfold dec_round.
  pose proof (frac_spec 2 m e ltac:(lia)) as F.
  destruct (frac 2 m e) as [a d]. destruct F as (F1 & F2 & F3 & _). specialize (F3 Hm).
  fold (qval 2 m e) in F2.
  apply round_prec_near; auto; try lia. rewrite F2. exact H.
Qed.

(** Parsing an n-digit decimal (n <= 14) and printing it with n digits gives
    the decimal back. *)
Lemma dec_round_of_dec s n D E :
  (1 <= n <= 14)%Z -> (10 ^ (n - 1) <= D < 10 ^ n)%Z ->
  qpow 10 (-200) <= qval 10 D E -> qval 10 D E < qpow 10 200 ->
  exists m e, flt_of_dec s D E = Fin s m e /\ (0 < m)%Z /\ is_f64 (Fin s m e) = true /\
    dec_round n m e = (D, E).
Proof.
  intros Hn HD H1 H2.
  assert (D0 : (0 < D)%Z). { assert (0 < 10 ^ (n - 1))%Z by (apply Z.pow_pos_nonneg; lia). lia. }
  destruct (flt_of_dec_spec s D E D0 H1 H2) as (m & e & R1 & R2 & R3 & R4).
  exists m, e. repeat split; auto.
  apply dec_round_near; auto; try lia.
  setoid_replace (qval 2 m e - qval 10 D E) with (- (qval 10 D E - qval 2 m e)) by ring.
  rewrite Qabs_opp.
  eapply Qle_lt_trans; [exact R4|].
  unfold qval. rewrite (qpow_pred 10 E) by lia.
  pose proof (qpow_pos 10 (E - 1) ltac:(lia)) as P.
  assert (HD' : inject_Z D < inject_Z (10 ^ 14)).
  { apply inject_lt. assert (10 ^ n <= 10 ^ 14)%Z by (apply Z.pow_le_mono_r; lia). lia. }
  assert (C : inject_Z (10 ^ 14) * inject_Z 10 * qpow 2 (-52) < 1) by (vm_compute; reflexivity).
  assert (P2 : 0 < qpow 2 (-52)) by (apply qpow_pos; lia).
  change (inject_Z 10) with 10 in *.
  assert (inject_Z D * 10 * qpow 2 (-52) < 1) by nra.
  nra.
Qed.
