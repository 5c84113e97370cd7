(** Text of formatted floats: shape, width, and what [float()] makes of it. *)
From Coq Require Import List Ascii String ZArith QArith Qabs Bool Lia Lqa.
From Verif Require Import Base.Str Base.Digits Base.Flt Base.QPow Base.FltRound.
Import ListNotations.
Local Open Scope Z_scope.

(** The decimal rounding of a float, read back as a float.  This is the value
    a user gets after one trip through a text field with [k] decimals. *)
Definition rnd_e (k : nat) (x : flt) : flt :=
  match x with
  | Fin s m e =>
      if m =? 0 then fzero s
      else let (D, E) := dec_round (Z.of_nat k + 1) m e in flt_of_dec s D E
  | _ => x
  end.

(** Zero, or a normal number with decimal exponent between -99 and 98. *)
Definition flt_rng (x : flt) : bool :=
  match x with
  | Fin s m e =>
      is_f64 x &&
      ((m =? 0) || (Qle_bool (qpow 10 (-99)) (qval 2 m e)
                    && negb (Qle_bool (qpow 10 99) (qval 2 m e))))
  | _ => false
  end.

Definition no_space_str (s : str) : bool := forallb (fun c => negb (is_space c)) s.

Lemma no_space_app a b : no_space_str (a ++ b) = no_space_str a && no_space_str b.
Proof. apply forallb_app. Qed.

Lemma zpad_no_space k n : no_space_str (zpad k n) = true.
Proof. apply digits_no_space, zpad_digits. Qed.

Lemma forallb_firstn {A} (p : A -> bool) n l : forallb p l = true -> forallb p (firstn n l) = true.
Proof.
  intros H. rewrite forallb_forall in *. intros x Hx. apply H.
  rewrite <- (firstn_skipn n l). apply in_or_app. now left.
Qed.

Lemma forallb_skipn {A} (p : A -> bool) n l : forallb p l = true -> forallb p (skipn n l) = true.
Proof.
  intros H. rewrite forallb_forall in *. intros x Hx. apply H.
  rewrite <- (firstn_skipn n l). apply in_or_app. now right.
Qed.

Lemma zpad_S_cons k n : exists c r, zpad (S k) n = c :: r /\ is_digit c = true /\ forallb is_digit r = true /\ List.length r = k.
Proof.
  pose proof (zpad_length (S k) n). pose proof (zpad_digits (S k) n).
  destruct (zpad (S k) n) as [|c r] eqn:E; [discriminate|].
  exists c, r. cbn [forallb] in H0. apply andb_true_iff in H0 as [? ?].
  simpl in H. injection H as H. auto.
Qed.

Lemma span_digits_app ds r :
  forallb is_digit ds = true ->
  match r with c :: _ => is_digit c = false | [] => True end ->
  span_digits (ds ++ r) = (ds, r).
Proof.
  induction ds as [|c ds IH]; intros H Hr.
  - destruct r as [|c r]; auto. cbn [app span_digits]. now rewrite Hr.
  - cbn [forallb] in H. apply andb_true_iff in H as [H1 H2].
    cbn [app span_digits]. rewrite H1, IH; auto.
Qed.

Lemma parse_exp_exp_str x : parse_exp (exp_str x) = Some x.
Proof.
  unfold parse_exp, exp_str. unfold is_e. rewrite Ascii.eqb_refl. cbn [orb].
  set (n := Nat.max 2 (ndigits (Z.abs x))).
  assert (Hn : of_digits (zpad n (Z.abs x)) = Z.abs x).
  { rewrite of_digits_zpad by lia. apply Z.mod_small. split; [lia|].
    pose proof (ndigits_bound (Z.abs x) ltac:(lia)).
    assert (10 ^ Z.of_nat (ndigits (Z.abs x)) <= 10 ^ Z.of_nat n) by (apply Z.pow_le_mono_r; lia). lia. }
  assert (Hne : nonempty (zpad n (Z.abs x)) = true).
  { pose proof (zpad_length n (Z.abs x)). destruct (zpad n (Z.abs x)); auto.
    simpl in H. lia. }
  destruct (Z.ltb_spec x 0); cbn [split_sign].
  - rewrite Ascii.eqb_refl. rewrite Hne, zpad_digits. cbn [andb]. rewrite Hn. f_equal. lia.
  - change (Ascii.eqb "+" "-") with false. rewrite Ascii.eqb_refl. cbv iota.
    rewrite Hne, zpad_digits. cbn [andb]. rewrite Hn. f_equal. lia.
Qed.

Lemma parse_udec_mantissa k D x :
  0 <= D < 10 ^ Z.of_nat (S k) ->
  parse_udec (mantissa_str k D ++ exp_str x) = Some (D, x - Z.of_nat k).
Proof.
  intros HD. unfold parse_udec, mantissa_str.
  destruct (zpad_S_cons k D) as (c & r & E & Hc & Hr & Hlen).
  rewrite E. cbn [firstn skipn].
  assert (Hall : of_digits ([c] ++ r) = D).
  { change ([c] ++ r) with (c :: r). rewrite <- E, of_digits_zpad by lia.
    apply Z.mod_small; lia. }
  destruct (Nat.eqb_spec k 0) as [->|Hk].
  - rewrite app_nil_r. rewrite span_digits_app; [|cbn [forallb]; now rewrite Hc|reflexivity].
    unfold exp_str at 1. change (Ascii.eqb "e" ".") with false. cbv iota.
    destruct r; [|discriminate]. cbn [app nonempty].
    fold (exp_str x). rewrite parse_exp_exp_str. cbn [List.length].
    simpl in Hall. rewrite Hall. reflexivity.
  - rewrite <- app_assoc. rewrite span_digits_app; [|cbn [forallb]; now rewrite Hc|reflexivity].
    cbn [app]. rewrite Ascii.eqb_refl. rewrite span_digits_app; [|auto|reflexivity].
    cbn [nonempty]. rewrite parse_exp_exp_str.
    change (c :: r) with ([c] ++ r). rewrite Hall, Hlen. reflexivity.
Qed.

(** mantissa and exponent texts contain neither blanks nor underscores *)
Definition clean_c (c : ascii) : bool := negb (is_space c) && negb (is_underscore c).

Lemma digit_clean c : is_digit c = true -> clean_c c = true.
Proof.
  intros H. unfold clean_c. rewrite digit_not_space by auto.
  unfold is_underscore. now rewrite (is_digit_neq c "_").
Qed.

Lemma digits_clean s : forallb is_digit s = true -> forallb clean_c s = true.
Proof.
  intros H. rewrite forallb_forall in *. intros x Hx. apply digit_clean; auto.
Qed.

Lemma clean_no_space s : forallb clean_c s = true -> no_space_str s = true.
Proof.
  intros H. unfold no_space_str. rewrite forallb_forall in *. intros x Hx.
  apply H in Hx. unfold clean_c in Hx. now apply andb_true_iff in Hx as [? _].
Qed.

Lemma clean_no_underscore s : forallb clean_c s = true -> existsb is_underscore s = false.
Proof.
  intros H. apply not_true_iff_false. intros E. apply existsb_exists in E as [x [Hx E]].
  rewrite forallb_forall in H. apply H in Hx. unfold clean_c in Hx.
  rewrite E in Hx. rewrite andb_false_r in Hx. discriminate.
Qed.

Lemma exp_str_clean x : forallb clean_c (exp_str x) = true.
Proof.
  unfold exp_str. cbn [forallb]. rewrite digits_clean by apply zpad_digits.
  destruct (x <? 0); reflexivity.
Qed.

Lemma mantissa_clean k D : forallb clean_c (mantissa_str k D) = true.
Proof.
  unfold mantissa_str. rewrite forallb_app.
  pose proof (zpad_digits (S k) D) as H.
  rewrite digits_clean by now apply forallb_firstn.
  destruct (Nat.eqb k 0); auto. cbn [forallb andb].
  rewrite digits_clean by now apply forallb_skipn. reflexivity.
Qed.

Lemma sign_clean s : forallb clean_c (sign_str s) = true.
Proof. destruct s; reflexivity. Qed.

Lemma fmt_e_clean k x : forallb clean_c (fmt_e k x) = true.
Proof.
  destruct x as [s m e|s|]; cbn [fmt_e].
  - destruct (m =? 0).
    + now rewrite !forallb_app, sign_clean, mantissa_clean, exp_str_clean.
    + destruct (dec_round _ _ _). now rewrite !forallb_app, sign_clean, mantissa_clean, exp_str_clean.
  - now destruct s.
  - reflexivity.
Qed.

Lemma mantissa_head k D : exists c r, mantissa_str k D = c :: r /\ is_digit c = true.
Proof.
  unfold mantissa_str. destruct (zpad_S_cons k D) as (c & r & E & Hc & _).
  rewrite E. cbn [firstn app]. eauto.
Qed.

Lemma fmt_e_nonempty k x : fmt_e k x <> [].
Proof.
  destruct x as [s m e|s|]; cbn [fmt_e].
  - destruct (m =? 0); [|destruct (dec_round _ _ _) as [D E]];
      (destruct s; [discriminate|]);
      cbn [sign_str app]; unfold mantissa_str;
      destruct (zpad_S_cons k (if m =? 0 then 0 else 0)) as (c & r & _).
    + destruct (mantissa_head k 0) as (c' & r' & E & _). unfold mantissa_str in E. rewrite E. discriminate.
    + destruct (mantissa_head k D) as (c' & r' & E' & _). unfold mantissa_str in E'. rewrite E'. discriminate.
  - destruct s; discriminate.
  - discriminate.
Qed.

Lemma fmt_e_trimmed k x : trimmed (fmt_e k x) = true.
Proof. apply no_space_trimmed, clean_no_space, fmt_e_clean. Qed.

(** parse a clean numeric literal with sign *)
Lemma is_name_digit c r : is_digit c = true ->
  is_inf_name (c :: r) = false /\ is_nan_name (c :: r) = false.
Proof.
  intros H. unfold is_inf_name, is_nan_name. cbn [lower map].
  assert (L : lower_c c = c).
  { unfold lower_c. destruct (is_upper c) eqn:E; auto.
    unfold is_upper, is_digit in *. apply andb_true_iff in E as [E1 E2]. apply andb_true_iff in H as [H1 H2].
    apply Z.leb_le in E1, E2, H1, H2. lia. }
  rewrite L. cbn [streqb lit list_ascii_of_string].
  rewrite (is_digit_neq c "i"), (is_digit_neq c "n") by auto. split; reflexivity.
Qed.

Lemma parse_float_signed s u D E c r :
  forallb clean_c u = true -> u = c :: r -> is_digit c = true ->
  parse_udec u = Some (D, E) ->
  parse_float (sign_str s ++ u) = Some (flt_of_dec s D E).
Proof.
  intros Hu Eu Hc Hp. unfold parse_float.
  assert (C : forallb clean_c (sign_str s ++ u) = true).
  { now rewrite forallb_app, sign_clean, Hu. }
  rewrite trimmed_strip by (apply no_space_trimmed, clean_no_space; auto).
  rewrite no_underscores_none by (apply clean_no_underscore; auto).
  assert (S : split_sign (sign_str s ++ u) = (s, u)).
  { destruct s; cbn [sign_str app].
    - reflexivity.
    - rewrite Eu. cbn [split_sign]. rewrite (is_digit_neq c "-"), (is_digit_neq c "+") by auto.
      reflexivity. }
  rewrite S. destruct (is_name_digit c r Hc) as [N1 N2].
  rewrite Eu in *. now rewrite N1, N2, Hp.
Qed.

Lemma flt_of_dec_0 s E : flt_of_dec s 0 E = fzero s.
Proof. unfold flt_of_dec, frac. destruct (0 <=? E); reflexivity. Qed.

Definition nonneg_m (x : flt) : Prop := match x with Fin _ m _ => 0 <= m | _ => True end.

Lemma is_f64_nonneg x : is_f64 x = true -> nonneg_m x.
Proof.
  destruct x; simpl; auto. rewrite !andb_true_iff. intros H.
  destruct H as ((((H & _) & _) & _) & _). now apply Z.leb_le.
Qed.

Lemma parse_fmt_e k x : nonneg_m x -> parse_float (fmt_e k x) = Some (rnd_e k x).
Proof.
  destruct x as [s m e|s|]; intros Hx; cbn [fmt_e rnd_e].
  - destruct (Z.eqb_spec m 0) as [->|Hm].
    + destruct (mantissa_head k 0) as (c & r & E & Hc).
      erewrite (parse_float_signed s _ _ _ c (r ++ exp_str 0)).
      * now rewrite flt_of_dec_0.
      * now rewrite forallb_app, mantissa_clean, exp_str_clean.
      * rewrite E. reflexivity.
      * auto.
      * apply parse_udec_mantissa. split; [lia|]. apply Z.pow_pos_nonneg; lia.
    + simpl in Hx. pose proof (dec_round_spec (Z.of_nat k + 1) m e ltac:(lia) ltac:(lia)) as S.
      destruct (dec_round (Z.of_nat k + 1) m e) as [D E]. destruct S as (S & _ & _).
      destruct (mantissa_head k D) as (c & r & Eq & Hc).
      erewrite (parse_float_signed s _ _ _ c (r ++ exp_str (E + Z.of_nat k))).
      * reflexivity.
      * now rewrite forallb_app, mantissa_clean, exp_str_clean.
      * rewrite Eq. reflexivity.
      * auto.
      * rewrite parse_udec_mantissa.
        -- f_equal. f_equal. lia.
        -- rewrite Nat2Z.inj_succ. unfold Z.succ. split; [|lia].
           assert (0 < 10 ^ (Z.of_nat k + 1 - 1)) by (apply Z.pow_pos_nonneg; lia). lia.
  - destruct s; reflexivity.
  - reflexivity.
Qed.

(** Width. *)
Lemma exp_str_length x : Z.abs x < 100 -> List.length (exp_str x) = 4%nat.
Proof.
  intros H. unfold exp_str. cbn [List.length]. rewrite zpad_length.
  pose proof (ndigits_le (Z.abs x) 2 ltac:(simpl; lia) ltac:(lia)).
  rewrite Nat.max_l by lia. reflexivity.
Qed.

Lemma exp_str_length_3 x : 100 <= Z.abs x < 1000 -> List.length (exp_str x) = 5%nat.
Proof.
  intros H. unfold exp_str. cbn [List.length]. rewrite zpad_length.
  assert (ilog 10 (Z.abs x) = 2) by (apply ilog_unique; simpl; lia).
  unfold ndigits. rewrite H0. reflexivity.
Qed.

Lemma mantissa_length k D : (1 <= k)%nat -> List.length (mantissa_str k D) = (k + 2)%nat.
Proof.
  intros Hk. unfold mantissa_str. destruct (zpad_S_cons k D) as (c & r & E & _ & _ & L).
  rewrite E. destruct (Nat.eqb_spec k 0); [lia|]. simpl. rewrite L. lia.
Qed.

Lemma flt_rng_dec s m e : flt_rng (Fin s m e) = true -> m <> 0 ->
  is_f64 (Fin s m e) = true /\ 0 < m /\ (qpow 10 (-99) <= qval 2 m e /\ qval 2 m e < qpow 10 99)%Q.
Proof.
  intros H Hm. unfold flt_rng in H. apply andb_true_iff in H as [H0 H1].
  destruct (Z.eqb_spec m 0); [lia|]. cbn [orb] in H1.
  apply andb_true_iff in H1 as [H1 H2]. apply Qle_bool_iff in H1.
  apply negb_true_iff in H2.
  split; auto. split.
  - apply is_f64_nonneg in H0. simpl in H0. lia.
  - split; auto. apply Qnot_le_lt. intros C. apply Qle_bool_iff in C. congruence.
Qed.

(** Exponent bounds of the rounded decimal. *)
Lemma dec_round_exp n m e lo hi :
  1 <= n -> 0 < m ->
  (qpow 10 lo <= qval 2 m e)%Q -> (qval 2 m e < qpow 10 hi)%Q ->
  let '(D, E) := dec_round n m e in lo <= E + (n - 1) <= hi.
Proof.
  intros Hn Hm H1 H2. unfold dec_round.
  pose proof (frac_spec 2 m e ltac:(lia)) as F.
  destruct (frac 2 m e) as [a d]. destruct F as (F1 & F2 & F3 & _). specialize (F3 Hm).
  fold (qval 2 m e) in F2.
  pose proof (round_prec_spec_gen 10 n a d ltac:(lia) Hn F3 F1 None I) as S.
  destruct (round_prec 10 n None a d) as [D E]. destruct S as (_ & S & _).
  destruct (ilogq_spec 10 a d) as [I1 I2]; try lia.
  assert (lo < ilogq 10 a d + 1) by (apply (qpow_lt_inv 10); [lia|lra]).
  assert (ilogq 10 a d < hi) by (apply (qpow_lt_inv 10); [lia|lra]).
  lia.
Qed.

Lemma fmt_e_length k x : (1 <= k)%nat -> flt_rng x = true ->
  List.length (fmt_e k x) = ((match x with Fin true _ _ => 1 | _ => 0 end) + k + 6)%nat.
Proof.
  intros Hk H. destruct x as [s m e|s|]; try discriminate.
  cbn [fmt_e]. destruct (Z.eqb_spec m 0) as [->|Hm].
  - rewrite !app_length, mantissa_length, exp_str_length by (auto; lia).
    destruct s; simpl; lia.
  - destruct (flt_rng_dec s m e H Hm) as (_ & Hm' & R1 & R2).
    pose proof (dec_round_exp (Z.of_nat k + 1) m e (-99) 99 ltac:(lia) Hm' R1 R2) as X.
    destruct (dec_round (Z.of_nat k + 1) m e) as [D E].
    rewrite !app_length, mantissa_length, exp_str_length by (auto; lia).
    destruct s; simpl; lia.
Qed.

(** Stability: the value read back prints the same text. *)
Lemma rnd_e_spec k s m e :
  (k <= 13)%nat -> flt_rng (Fin s m e) = true -> m <> 0 ->
  exists m' e', rnd_e k (Fin s m e) = Fin s m' e' /\ 0 < m' /\ is_f64 (Fin s m' e') = true /\
    dec_round (Z.of_nat k + 1) m' e' = dec_round (Z.of_nat k + 1) m e.
Proof.
  intros Hk H Hm. cbn [rnd_e]. destruct (Z.eqb_spec m 0); [lia|].
  destruct (flt_rng_dec s m e H Hm) as (_ & Hm' & R1 & R2).
  pose proof (dec_round_exp (Z.of_nat k + 1) m e (-99) 99 ltac:(lia) Hm' R1 R2) as X.
  pose proof (dec_round_spec (Z.of_nat k + 1) m e ltac:(lia) ltac:(lia)) as S.
  destruct (dec_round (Z.of_nat k + 1) m e) as [D E]. destruct S as (S & _ & _).
  apply dec_round_of_dec; auto; try lia.
  - eapply Qle_trans; [apply (qpow_le 10 (-200) (E + (Z.of_nat k + 1 - 1))); lia|].
    rewrite qpow_add_pos by lia. unfold qval. destruct S as [S _]. apply inject_le in S.
    pose proof (qpow_pos 10 E ltac:(lia)). nra.
  - eapply Qlt_le_trans; [|apply (qpow_le 10 (E + (Z.of_nat k + 1)) 200); lia].
    rewrite qpow_add_pos by lia. unfold qval. destruct S as [_ S]. apply inject_lt in S.
    pose proof (qpow_pos 10 E ltac:(lia)). nra.
Qed.

Lemma fmt_e_rnd_e k x :
  (k <= 13)%nat -> flt_rng x = true -> fmt_e k (rnd_e k x) = fmt_e k x.
Proof.
  intros Hk H. destruct x as [s m e|s|]; auto.
  destruct (Z.eq_dec m 0) as [->|Hm].
  - reflexivity.
  - destruct (rnd_e_spec k s m e Hk H Hm) as (m' & e' & E & Hm' & _ & Ed).
    rewrite E. cbn [fmt_e]. destruct (Z.eqb_spec m' 0); [lia|].
    destruct (Z.eqb_spec m 0); [lia|]. now rewrite Ed.
Qed.

Lemma rnd_e_idem k x :
  (k <= 13)%nat -> flt_rng x = true -> rnd_e k (rnd_e k x) = rnd_e k x.
Proof.
  intros Hk H. destruct x as [s m e|s|]; auto.
  destruct (Z.eq_dec m 0) as [->|Hm].
  - reflexivity.
  - destruct (rnd_e_spec k s m e Hk H Hm) as (m' & e' & E & Hm' & _ & Ed).
    rewrite E at 1. cbn [rnd_e]. destruct (Z.eqb_spec m' 0); [lia|].
    destruct (Z.eqb_spec m 0); [lia|]. now rewrite Ed.
Qed.

Lemma rnd_e_f64 k x : (k <= 13)%nat -> flt_rng x = true -> is_f64 (rnd_e k x) = true.
Proof.
  intros Hk H. destruct x as [s m e|s|]; auto.
  destruct (Z.eq_dec m 0) as [->|Hm].
  - reflexivity.
  - destruct (rnd_e_spec k s m e Hk H Hm) as (m' & e' & E & Hm' & F & Ed).
    now rewrite E.
Qed.

(** Accuracy of one trip. *)
Lemma rnd_e_accuracy k s m e :
  (k <= 13)%nat -> flt_rng (Fin s m e) = true -> m <> 0 ->
  exists m' e', rnd_e k (Fin s m e) = Fin s m' e' /\
   (Qabs (qval 2 m e - qval 2 m' e') <= qval 2 m e * (qpow 10 (- Z.of_nat k) * (1#2) + qpow 2 (-52)))%Q.
Proof.
  intros Hk H Hm.
  destruct (flt_rng_dec s m e H Hm) as (_ & Hm' & R1 & R2).
  cbn [rnd_e]. destruct (Z.eqb_spec m 0); [lia|].
  pose proof (dec_round_exp (Z.of_nat k + 1) m e (-99) 99 ltac:(lia) Hm' R1 R2) as X.
  pose proof (dec_round_spec (Z.of_nat k + 1) m e ltac:(lia) ltac:(lia)) as S.
  destruct (dec_round (Z.of_nat k + 1) m e) as [D E]. destruct S as (S & _ & S3).
  replace (Z.of_nat k + 1 - 1) with (Z.of_nat k) in * by lia.
  assert (D0 : 0 < D). { assert (0 < 10 ^ Z.of_nat k) by (apply Z.pow_pos_nonneg; lia). lia. }
  destruct (flt_of_dec_spec s D E D0) as (m' & e' & E1 & P1 & P2 & P3).
  - eapply Qle_trans; [apply (qpow_le 10 (-200) (E + Z.of_nat k)); lia|].
    rewrite qpow_add_pos by lia. unfold qval. destruct S as [S _]. apply inject_le in S.
    pose proof (qpow_pos 10 E ltac:(lia)). nra.
  - eapply Qlt_le_trans; [|apply (qpow_le 10 (E + (Z.of_nat k + 1)) 200); lia].
    rewrite qpow_add_pos by lia. unfold qval. destruct S as [_ S]. apply inject_lt in S.
    pose proof (qpow_pos 10 E ltac:(lia)). nra.
  - exists m', e'. split; auto.
    assert (V : (0 < qval 2 m e)%Q).
    { unfold qval. pose proof (qpow_pos 2 e ltac:(lia)). pose proof (inject_pos m Hm'). nra. }
    set (v := qval 2 m e) in *. set (w := qval 10 D E) in *. set (u := qval 2 m' e') in *.
    assert (T : (Qabs (v - u) <= Qabs (v - w) + Qabs (w - u))%Q).
    { setoid_replace (v - u)%Q with ((v - w) + (w - u))%Q by ring. apply Qabs_triangle. }
    assert (P10 : (0 < qpow 10 (- Z.of_nat k) <= 1)%Q).
    { split; [apply qpow_pos; lia|]. rewrite <- (qpow_0 10). apply qpow_le; lia. }
    assert (W : (w <= v * 2)%Q).
    { apply Qabs_Qle_condition in S3. nra. }
    assert (P52 : (0 < qpow 2 (-52))%Q) by (apply qpow_pos; lia).
    assert (Wp : (0 < w)%Q).
    { unfold w, qval. pose proof (qpow_pos 10 E ltac:(lia)). pose proof (inject_pos D D0). nra. }
    nra.
Qed.
