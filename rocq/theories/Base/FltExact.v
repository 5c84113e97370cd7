(** Seventeen significant digits determine a binary64 value. *)
From Coq Require Import List Ascii String ZArith QArith Qabs Bool Lia Lqa.
From Verif Require Import Base.Str Base.Digits Base.Flt Base.QPow Base.FltRound Base.FltText.
Import ListNotations.
Local Open Scope Q_scope.

Lemma near_int a b : (Qabs (inject_Z a - inject_Z b) < 1) -> a = b.
Proof.
  intros H. apply Qabs_Qlt_condition in H as [H1 H2].
  assert (a < b + 1)%Z by (apply inject_lt_inv; rewrite inject_Z_plus; change (inject_Z 1) with 1; lra).
  assert (b < a + 1)%Z by (apply inject_lt_inv; rewrite inject_Z_plus; change (inject_Z 1) with 1; lra). lia.
Qed.

Lemma rne_near a d k w m :
  (0 < a)%Z -> (0 < d)%Z -> qfrac a d == w -> Qabs (w - qval 2 m k) < qpow 2 k * (1 # 2) ->
  let (a', d') := scale 2 k a d in rne_div a' d' = m.
Proof.
  intros Ha Hd W H. pose proof (scale_spec 2 k a d ltac:(lia) Hd) as S.
  destruct (scale 2 k a d) as [a' d']. destruct S as (S1 & S2 & S3). specialize (S3 Ha).
  pose proof (rne_div_q a' d' S1) as R. apply near_int. rewrite W in S2. rewrite S2 in H. unfold qval in H.
  setoid_replace (qfrac a' d' * qpow 2 k - inject_Z m * qpow 2 k) with ((qfrac a' d' - inject_Z m) * qpow 2 k) in H by ring.
  pose proof (qpow_pos 2 k ltac:(lia)) as P. rewrite Qabs_mult_pos in H by lra.
  assert (X : Qabs (qfrac a' d' - inject_Z m) < 1 # 2).
  { apply (Qmult_lt_r _ _ (qpow 2 k)); auto. lra. }
  apply Qabs_Qle_condition in R as [R1 R2]. apply Qabs_Qlt_condition in X as [X1 X2].
  apply Qabs_Qlt_condition. split; lra.
Qed.

Lemma half_ulp : inject_Z (2 ^ 53) * qpow 10 (-16) * (1 # 2) < 46 # 100.
Proof. vm_compute. reflexivity. Qed.

Lemma round64_exact s m e a d :
  is_f64 (Fin s m e) = true -> (0 < m)%Z -> (0 < a)%Z -> (0 < d)%Z ->
  Qabs (qval 2 m e - qfrac a d) <= qval 2 m e * qpow 10 (-16) * (1 # 2) ->
  round64 s a d = Fin s m e.
Proof.
  intros F Hm Ha Hd H. unfold is_f64 in F. rewrite !andb_true_iff, orb_true_iff in F.
  rewrite !Z.leb_le, Z.ltb_lt, Z.eqb_eq in F. destruct F as ((((_ & F1) & F2) & F3) & F4).
  set (w := qfrac a d) in *. pose proof (qpow_pos 2 e ltac:(lia)) as P.
  pose proof half_ulp as HU. pose proof (qpow_pos 10 (-16) ltac:(lia)) as P10.
  assert (M : inject_Z m + 1 <= inject_Z (2 ^ 53)).
  { change 1 with (inject_Z 1). rewrite <- inject_Z_plus. apply inject_le. lia. }
  assert (M0 : 0 < inject_Z m) by now apply inject_pos.
  assert (C : inject_Z m * qpow 10 (-16) * (1 # 2) < 46 # 100).
  { set (p := qpow 10 (-16)) in *. set (B := inject_Z (2 ^ 53)) in *. nra. }
  set (p := qpow 10 (-16)) in *.
  assert (D : Qabs (w - qval 2 m e) < qpow 2 e * (46 # 100)).
  { setoid_replace (w - qval 2 m e) with (- (qval 2 m e - w)) by ring. rewrite Qabs_opp.
    eapply Qle_lt_trans; [exact H|]. unfold qval.
    setoid_replace (inject_Z m * qpow 2 e * p * (1 # 2)) with (inject_Z m * p * (1 # 2) * qpow 2 e) by ring. nra. }
  pose proof D as D'. apply Qabs_Qlt_condition in D' as [D1 D2]. unfold qval in D1, D2.
  destruct (ilogq_spec 2 a d) as [I1 I2]; auto; try lia. fold w in I1, I2.
  set (L := ilogq 2 a d) in *.
  assert (HL : (L <= e + 52)%Z).
  { cut (L < e + 53)%Z; [lia|]. apply (qpow_lt_inv 2); [lia|]. rewrite qpow_add_pos by lia.
    eapply Qle_lt_trans; [exact I1|]. set (B := inject_Z (2 ^ 53)) in *. nra. }
  unfold round64. destruct (Z.eqb_spec a 0); [lia|]. unfold round_prec. fold L.
  change (53 - 1)%Z with 52%Z.
  destruct (Z.eq_dec (Z.max (L - 52) (-1074)) e) as [K|K].
  - rewrite K. pose proof (rne_near a d e w m Ha Hd (Qeq_refl _)) as N.
    destruct (scale 2 e a d) as [a' d']. rewrite N by lra.
    destruct (Z.eqb_spec m (2 ^ 53)); [lia|]. destruct (Z.ltb_spec 971 e); [lia|]. reflexivity.
  - assert (E1 : (2 ^ 52 <= m)%Z) by lia.
    assert (L1 : (L < e + 52)%Z) by lia.
    assert (W1 : w < inject_Z (2 ^ 52) * qpow 2 e).
    { eapply Qlt_le_trans; [exact I2|]. rewrite Qmult_comm, <- qpow_add_pos by lia. apply qpow_le; lia. }
    assert (E2 : m = (2 ^ 52)%Z).
    { cut (m < 2 ^ 52 + 1)%Z; [lia|]. apply inject_lt_inv. rewrite inject_Z_plus. change (inject_Z 1) with 1.
      set (B := inject_Z (2 ^ 52)) in *. nra. }
    assert (L2 : (e + 51 <= L)%Z).
    { cut (e + 51 < L + 1)%Z; [lia|]. apply (qpow_lt_inv 2); [lia|]. rewrite qpow_add_pos by lia.
      eapply Qle_lt_trans; [|exact I2]. subst m.
      assert (T : inject_Z (2 ^ 51) + 1 <= inject_Z (2 ^ 52)) by (vm_compute; congruence).
      set (B := inject_Z (2 ^ 52)) in *. set (B' := inject_Z (2 ^ 51)) in *. nra. }
    replace (Z.max (L - 52) (-1074))%Z with (e - 1)%Z by lia.
    assert (V : qval 2 (2 ^ 53) (e - 1) == qval 2 m e).
    { unfold qval. rewrite (qpow_pred 2 e) by lia. subst m.
      setoid_replace (inject_Z (2 ^ 53)) with (inject_Z (2 ^ 52) * inject_Z 2) by (vm_compute; reflexivity). ring. }
    pose proof (rne_near a d (e - 1) w (2 ^ 53) Ha Hd (Qeq_refl _)) as N.
    destruct (scale 2 (e - 1) a d) as [a' d']. rewrite N.
    2:{ rewrite V. eapply Qle_lt_trans.
        - setoid_replace (w - qval 2 m e) with (- (qval 2 m e - w)) by ring. rewrite Qabs_opp. exact H.
        - unfold qval. rewrite (qpow_pred 2 e) by lia. subst m.
          pose proof (qpow_pos 2 (e - 1) ltac:(lia)) as P1. change (inject_Z 2) with 2.
          assert (T : inject_Z (2 ^ 52) * 2 * p < 1) by (vm_compute; reflexivity).
          set (B := inject_Z (2 ^ 52)) in *. set (r := qpow 2 (e - 1)) in *.
          setoid_replace (B * (2 * r) * p * (1 # 2)) with ((B * 2 * p) * (r * (1 # 2))) by ring. nra. }
    rewrite Z.eqb_refl. replace (e - 1 + 1)%Z with e by lia.
    destruct (Z.ltb_spec 971 e); [lia|]. now rewrite E2.
Qed.

(** Every value printed with seventeen digits is read back unchanged. *)
Lemma rnd_e_exact x : is_f64 x = true -> rnd_e 16 x = x.
Proof.
  destruct x as [s m e|s|]; auto. intros F. cbn [rnd_e].
  assert (F' := F). unfold is_f64 in F'. rewrite !andb_true_iff, orb_true_iff in F'.
  rewrite !Z.leb_le, Z.ltb_lt, Z.eqb_eq in F'. destruct F' as ((((F0 & F1) & F2) & F3) & F4).
  destruct (Z.eqb_spec m 0) as [->|Hm].
  - destruct F4 as [F4| ->]; [exfalso; clear -F4; cbn in F4; lia|reflexivity].
  - pose proof (dec_round_spec 17 m e ltac:(lia) ltac:(lia)) as S.
    change (Z.of_nat 16 + 1)%Z with 17%Z. destruct (dec_round 17 m e) as [D E]. destruct S as (S1 & _ & S3).
    unfold flt_of_dec. pose proof (frac_spec 10 D E ltac:(lia)) as Fr.
    destruct (frac 10 D E) as [a d]. destruct Fr as (Q1 & Q2 & Q3 & _ & _).
    assert (D0 : (0 < D)%Z) by (change (10 ^ (17 - 1))%Z with 10000000000000000%Z in S1; lia).
    specialize (Q3 D0). fold (qval 10 D E) in Q2.
    apply round64_exact; auto; try lia. rewrite Q2. exact S3.
Qed.

Lemma parse_fmt_16 x : is_f64 x = true -> parse_float (fmt_e 16 x) = Some x.
Proof. intros F. rewrite parse_fmt_e by now apply is_f64_nonneg. now rewrite rnd_e_exact. Qed.
