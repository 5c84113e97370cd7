(** Proofs about the capillarity models with powers and logarithms. *)
From Coq Require Import ZArith QArith Qreals Reals Lra Lia Bool List.
From Verif Require Import Model.Py Model.Curves Spec.Curves Proofs.CurveProof.
Import ListNotations.
Local Open Scope R_scope.

Section Rounded.
Context (rd : R -> R) (rep : R -> Prop) (HR : rounding rd rep) (HG : gentle rd rep).
Let A := rounded rd.
Let rd_mono' := rd_mono _ _ HR.

Lemma c1' : c1 A = 1. Proof. exact (c1_1 _ _ HR). Qed.
Lemma c0' : c0 A = 0. Proof. exact (c0_0 _ _ HR). Qed.
Lemma div' : forall x y, y <> 0 -> div A x y = Ok (rd (x / y)). Proof. exact (div_ok rd). Qed.
Lemma cst_eq : forall q r, Q2R q = r -> cst A q = rd r.
Proof. intros q r <-. reflexivity. Qed.
Lemma q999 : Q2R (Qmake 999 1000) = 999 / 1000. Proof. unfold Q2R; cbn; lra. Qed.
Lemma q001 : Q2R (Qmake 1 1000) = 1 / 1000. Proof. unfold Q2R; cbn; lra. Qed.

Lemma ramp_range : forall s, rep s -> s <= 1 -> exists f, ramp A s = Ok f /\ fraction f.
Proof.
  intros s P L. destruct HG as [G0 G]. unfold ramp. rewrite (cst_eq _ _ q999), (cst_eq _ _ q001), c1'. change (ltb A (rd (999 / 1000)) s) with (Rltb (rd (999 / 1000)) s).
  destruct (Rltb (rd (999 / 1000)) s) eqn:E; [|exists 1; split; [reflexivity | apply fraction_1]].
  apply Rltb_iff in E. rewrite div' by lra. eexists; split; [reflexivity|]. apply (rd_fraction _ _ HR). cbn.
  assert (H := G s P E). assert (0 <= rd (1 - s)) by (apply (rd_nonneg _ _ HR); lra). split.
  - apply Rmult_le_pos; [easy|]. left. now apply Rinv_0_lt_compat.
  - apply (Rmult_le_reg_r (rd (1 / 1000))); [lra|]. unfold Rdiv at 1. rewrite Rmult_assoc, Rinv_l by lra. lra.
Qed.
Lemma ramp_anti : forall s t f f', rep s -> rep t -> t <= 1 -> s <= t -> ramp A s = Ok f -> ramp A t = Ok f' -> f' <= f.
Proof.
  intros s t f f' P P' L ST E E'. destruct (ramp_range t P' L) as (z & Z & F). rewrite Z in E'; injection E' as <-.
  destruct HG as [G0 G]. unfold ramp in E, Z. rewrite (cst_eq _ _ q999), (cst_eq _ _ q001), c1' in E, Z.
  change (ltb A (rd (999 / 1000)) s) with (Rltb (rd (999 / 1000)) s) in E. change (ltb A (rd (999 / 1000)) t) with (Rltb (rd (999 / 1000)) t) in Z.
  destruct (Rltb (rd (999 / 1000)) s) eqn:H; [|injection E as <-; apply F].
  apply Rltb_iff in H. rewrite Rltb_true in Z by lra. rewrite div' in E, Z by lra. apply ok_inj in E, Z. subst f z.
  apply rd_mono'. unfold Rdiv. apply Rmult_le_compat_r; [left; now apply Rinv_0_lt_compat|]. apply rd_mono'. lra.
Qed.
(** cutting at [- P] and ramping *)
Definition finish (P sl pcap : R) : res R := let* f := ramp A sl in Ok (mul A (pymax A pcap (- P)) f).
Lemma pymax_max : forall x y, pymax A x y = Rmax x y.
Proof.
  intros x y. unfold pymax. change (ltb A x y) with (Rltb x y). destruct (Rltb x y) eqn:E.
  - apply Rltb_iff in E. rewrite Rmax_right; lra.
  - apply Rltb_niff in E. rewrite Rmax_left; lra.
Qed.
Lemma finish_range : forall P sl pcap, rep P -> rep sl -> sl <= 1 -> 0 <= P -> pcap <= 0 -> suction P (finish P sl pcap).
Proof.
  intros P sl pcap PP Ps L HP H. unfold finish. destruct (ramp_range sl Ps L) as (f & -> & F0 & F1). cbn [bind]. eexists; split; [reflexivity|].
  rewrite pymax_max. assert (- P <= Rmax pcap (- P)) by apply Rmax_r. assert (Rmax pcap (- P) <= 0) by (apply Rmax_lub; lra). cbn. split.
  - apply (rd_ge _ _ HR); [now apply (rep_opp _ _ HR)|]. nra.
  - apply (rd_nonpos _ _ HR). nra.
Qed.
Lemma finish_mono : forall P s t p q, rep s -> rep t -> t <= 1 -> s <= t -> 0 <= P -> p <= q -> q <= 0 -> rising (finish P s p) (finish P t q).
Proof.
  intros P s t p q Ps Pt L ST HP PQ Q. unfold finish. destruct (ramp_range s Ps ltac:(lra)) as (f & E & F0 & F1). destruct (ramp_range t Pt L) as (f' & E' & F0' & F1').
  assert (M := ramp_anti s t f f' Ps Pt L ST E E'). rewrite E, E'. cbn [bind]. eexists _, _. split; [reflexivity|]. split; [reflexivity|].
  rewrite !pymax_max. cbn. apply rd_mono'.
  assert (Rmax p (- P) <= Rmax q (- P)) by (apply Rle_max_compat_r; lra). assert (Rmax q (- P) <= 0) by (apply Rmax_lub; lra). nra.
Qed.
Lemma pyabs_abs : forall x, pyabs A x = Rabs x.
Proof.
  intros x. unfold pyabs. rewrite c0'. change (ltb A x 0) with (Rltb x 0). destruct (Rltb x 0) eqn:E.
  - apply Rltb_iff in E. rewrite Rabs_left; [reflexivity | lra].
  - apply Rltb_niff in E. rewrite Rabs_right; [reflexivity | lra].
Qed.
Lemma rep_abs : forall x, rep x -> rep (Rabs x).
Proof. intros x P. unfold Rabs. destruct (Rcase_abs x); [now apply (rep_opp _ _ HR) | easy]. Qed.

(** ** TRUST *)
Definition trust_raw (sl p0 slr eta pe pmax : R) : res R :=
  if Rltb slr sl then
    let* q := div A (sub A (c1 A) sl) (sub A sl slr) in
    let* ie := div A (c1 A) eta in
    let* p := pow A q ie in
    Ok (sub A (- pe) (mul A p0 p))
  else Ok (- Rabs pmax).
Lemma trust_eq : forall sl p0 slr eta pe pmax,
  cp_trust A sl p0 slr eta pe pmax = (let* p := trust_raw sl p0 slr eta pe pmax in finish (Rabs pmax) sl p).
Proof.
  intros. unfold cp_trust, trust_raw, finish. rewrite !pyabs_abs. reflexivity.
Qed.
Lemma trust_quot : forall sl slr, rep sl -> rep slr -> slr < sl -> sl <= 1 -> exists q, div A (sub A (c1 A) sl) (sub A sl slr) = Ok q /\ 0 <= q.
Proof.
  intros sl slr P Pr L L'. assert (D := sub_pos _ _ HR slr sl Pr P L). rewrite div' by (cbn; lra). eexists; split; [reflexivity|].
  apply (rd_nonneg _ _ HR). rewrite c1'. cbn. apply Rmult_le_pos; [apply (rd_nonneg _ _ HR); lra|]. left. now apply Rinv_0_lt_compat.
Qed.
Lemma trust_raw_range : forall sl p0 slr eta pe pmax, rep sl -> rep slr -> sl <= 1 -> 0 <= p0 -> 0 <= pe -> 0 < eta ->
  exists p, trust_raw sl p0 slr eta pe pmax = Ok p /\ p <= 0.
Proof.
  intros sl p0 slr eta pe pmax P Pr L H0 He Ht. unfold trust_raw. destruct (Rltb slr sl) eqn:E.
  - apply Rltb_iff in E. destruct (trust_quot sl slr P Pr E L) as (q & -> & Q). destruct (inv_nonneg _ _ HR eta Ht) as (i & Ei & I0). fold A in Ei.
    cbn [bind]. rewrite Ei. cbn [bind]. destruct (pow_range _ _ HR q i Q I0) as (p & Ep & P0 & _). fold A in Ep. rewrite Ep. cbn [bind].
    eexists; split; [reflexivity|]. cbn. apply (rd_nonpos _ _ HR). assert (0 <= rd (p0 * p)) by (apply (rd_nonneg _ _ HR); nra). lra.
  - eexists; split; [reflexivity|]. assert (H := Rabs_pos pmax). lra.
Qed.
Lemma trust_range : forall sl p0 slr eta pe pmax, rep sl -> rep slr -> rep pmax -> sl <= 1 -> 0 <= p0 -> 0 <= pe -> 0 < eta ->
  suction (Rabs pmax) (cp_trust A sl p0 slr eta pe pmax).
Proof.
  intros sl p0 slr eta pe pmax P Pr Pm L H0 He Ht. rewrite trust_eq. destruct (trust_raw_range sl p0 slr eta pe pmax) as (p & -> & N); auto. cbn [bind].
  apply finish_range; auto; [now apply rep_abs | apply Rabs_pos].
Qed.
Lemma trust_mono : forall s t p0 slr eta pe pmax, rep s -> rep t -> rep slr -> s <= t -> t <= 1 -> 0 <= p0 -> 0 <= pe -> 0 < eta ->
  rising (cp_trust A s p0 slr eta pe pmax) (cp_trust A t p0 slr eta pe pmax).
Proof.
  intros s t p0 slr eta pe pmax P P' Pr ST L H0 He Ht. rewrite !trust_eq.
  destruct (trust_raw_range s p0 slr eta pe pmax) as (p & E & N); auto; [lra|]. destruct (trust_raw_range t p0 slr eta pe pmax) as (q & E' & N'); auto.
  destruct (Rltb slr s) eqn:H.
  - rewrite E, E'; cbn [bind]. apply finish_mono; auto; [apply Rabs_pos|]. unfold trust_raw in E, E'. rewrite H in E. apply Rltb_iff in H. rewrite Rltb_true in E' by lra.
    destruct (trust_quot s slr P Pr H ltac:(lra)) as (x & X & X0). destruct (trust_quot t slr P' Pr ltac:(lra) L) as (y & Y & Y0).
    destruct (inv_nonneg _ _ HR eta Ht) as (i & Ei & I0). fold A in Ei. rewrite X, Ei in E. rewrite Y, Ei in E'. cbn [bind] in E, E'.
    assert (XY : y <= x).
    { assert (D := sub_pos _ _ HR slr s Pr P H). assert (D' := sub_pos _ _ HR slr t Pr P' ltac:(lra)). rewrite div' in X, Y by (cbn; lra). apply ok_inj in X, Y. subst x y.
      apply rd_mono'. rewrite c1'. cbn. assert (rd (1 - t) <= rd (1 - s)) by (apply rd_mono'; lra). assert (rd (s - slr) <= rd (t - slr)) by (apply rd_mono'; lra).
      assert (0 <= rd (1 - t)) by (apply (rd_nonneg _ _ HR); lra). unfold Rdiv. apply Rmult_le_compat; auto; [left; now apply Rinv_0_lt_compat|]. now apply Rinv_le_contravar. }
    destruct (pow_range _ _ HR x i X0 I0) as (u & U & U0 & _). destruct (pow_range _ _ HR y i Y0 I0) as (v & V & V0 & _). fold A in U, V.
    rewrite U in E; rewrite V in E'; cbn [bind] in E, E'. apply ok_inj in E, E'. subst p q. cbn. apply rd_mono'.
    assert (UV : v <= u) by (apply (pow_mono _ _ HR y x i); auto). assert (rd (p0 * v) <= rd (p0 * u)) by (apply rd_mono'; nra). lra.
  - rewrite E'. unfold trust_raw. rewrite H. cbn [bind]. unfold finish. rewrite !pymax_max, Rmax_left by lra.
    destruct (ramp_range s P ltac:(lra)) as (f & F & F0 & F1). destruct (ramp_range t P' L) as (f' & F' & F0' & F1'). assert (M := ramp_anti s t f f' P P' L ST F F').
    rewrite F, F'. cbn [bind]. eexists _, _. split; [reflexivity|]. split; [reflexivity|]. cbn. apply rd_mono'.
    assert (- Rabs pmax <= Rmax q (- Rabs pmax)) by apply Rmax_r. assert (A0 := Rabs_pos pmax). assert (Rmax q (- Rabs pmax) <= 0) by (apply Rmax_lub; lra). nra.
Qed.
End Rounded.

(** ** Exact arithmetic *)
Lemma exact_gentle : gentle (fun x => x) (fun _ => True).
Proof. split; [lra|]. intros s _ H. lra. Qed.

(** ** van Genuchten *)
Definition vg_raw (sl m slr alpha pmax sls : R) : res R :=
  if Rltb slr sl then
    let* Seff := div exact (sub exact sl slr) (sub exact sls slr) in
    let* ia := div exact (- (1)) (Rabs alpha) in
    let* im := div exact (- (1)) m in
    let* p := pow exact Seff im in
    let* q := pow exact (sub exact p 1) (sub exact 1 m) in
    Ok (mul exact ia q)
  else Ok (- Rabs pmax).
Lemma vg_eq : forall sl m slr alpha pmax sls, sl <> 1 ->
  cp_genuchten exact sl m slr alpha pmax sls = (let* p := vg_raw sl m slr alpha pmax sls in finish (fun x => x) (Rabs pmax) sl p).
Proof.
  intros sl m slr alpha pmax sls N. unfold cp_genuchten, equal. rewrite !ex1. change (leb exact sl 1 && leb exact 1 sl)%bool with (Rleb sl 1 && Rleb 1 sl)%bool.
  assert (E : (Rleb sl 1 && Rleb 1 sl)%bool = false).
  { destruct (Rleb sl 1) eqn:E; [|reflexivity]. apply Rleb_iff in E. rewrite Rleb_false by lra. reflexivity. }
  rewrite E. unfold vg_raw, finish. assert (Pa := pyabs_abs _ _ exact_rounding). fold exact in Pa. change (rounded (fun x => x)) with exact in *. rewrite !Pa. reflexivity.
Qed.
Lemma vg_one : forall m slr alpha pmax sls, cp_genuchten exact 1 m slr alpha pmax sls = Ok 0.
Proof.
  intros. unfold cp_genuchten, equal. rewrite ex1, ex0. change (leb exact 1 1 && leb exact 1 1)%bool with (Rleb 1 1 && Rleb 1 1)%bool. rewrite Rleb_true by lra. reflexivity.
Qed.
Lemma pow_down : forall x y, 0 < x -> y <= 0 -> exists z, pow exact x y = Ok z /\ 0 < z /\ (x <= 1 -> 1 <= z).
Proof. intros x y Hx Hy. destruct (real_pow_down x y Hx Hy) as (z & E & P). cbn. rewrite E. now exists z. Qed.
Lemma pow_anti : forall x x' y z z', 0 < x -> x <= x' -> y <= 0 -> pow exact x y = Ok z -> pow exact x' y = Ok z' -> z' <= z.
Proof.
  intros x x' y z z' Hx L Hy E E'. destruct (real_pow_down x y Hx Hy) as (w & W & _). destruct (real_pow_down x' y ltac:(lra) Hy) as (w' & W' & _).
  cbn in E, E'. rewrite W in E. rewrite W' in E'. injection E as <-. injection E' as <-. now apply (real_pow_anti x x' y).
Qed.
Lemma vg_eff : forall sl slr sls, slr < sl -> sl <= sls -> exists e, div exact (sub exact sl slr) (sub exact sls slr) = Ok e /\ 0 < e <= 1 /\ e = (sl - slr) / (sls - slr).
Proof.
  intros sl slr sls L L'. rewrite exact_div by (cbn; lra). eexists; split; [reflexivity|]. cbn. split; [|reflexivity]. split.
  - apply Rmult_lt_0_compat; [lra|]. apply Rinv_0_lt_compat. lra.
  - apply (Rmult_le_reg_r (sls - slr)); [lra|]. unfold Rdiv. rewrite Rmult_assoc, Rinv_l by lra. lra.
Qed.
Lemma minus_inv : forall x, 0 < x -> - (1) / x < 0.
Proof. intros x H. unfold Rdiv. assert (0 < / x) by now apply Rinv_0_lt_compat. lra. Qed.
Lemma vg_raw_range : forall sl m slr alpha pmax sls, 0 < m <= 1 -> alpha <> 0 -> sl <= sls -> exists p, vg_raw sl m slr alpha pmax sls = Ok p /\ p <= 0.
Proof.
  intros sl m slr alpha pmax sls M N L. unfold vg_raw. destruct (Rltb slr sl) eqn:E.
  - apply Rltb_iff in E. destruct (vg_eff sl slr sls E L) as (e & -> & [E0 E1] & _). cbn [bind]. assert (Pa := Rabs_pos_lt alpha N).
    rewrite !exact_div by lra. cbn [bind]. assert (I1 := minus_inv m ltac:(lra)). assert (I2 := minus_inv _ Pa).
    destruct (pow_down e (- (1) / m) E0 ltac:(lra)) as (p & -> & P0 & P1). cbn [bind].
    destruct (pow_range _ _ exact_rounding (sub exact p 1) (sub exact 1 m)) as (q & Q & Q0 & _); [cbn; specialize (P1 E1); lra | cbn; lra|].
    change (rounded (fun x => x)) with exact in Q. rewrite Q. cbn [bind]. eexists; split; [reflexivity|]. cbn. nra.
  - eexists; split; [reflexivity|]. assert (H := Rabs_pos pmax). lra.
Qed.
Lemma vg_range : forall sl m slr alpha pmax sls, 0 < m <= 1 -> alpha <> 0 -> sl <= 1 -> (sl <= sls \/ sl = 1) ->
  suction (Rabs pmax) (cp_genuchten exact sl m slr alpha pmax sls).
Proof.
  intros sl m slr alpha pmax sls M N L1 D. assert (A0 := Rabs_pos pmax). destruct (Req_dec sl 1) as [->|NE]; [rewrite vg_one; exists 0; split; [reflexivity | lra]|].
  destruct D as [L|]; [|contradiction]. rewrite vg_eq by easy. destruct (vg_raw_range sl m slr alpha pmax sls M N L) as (p & -> & H). cbn [bind].
  apply (finish_range _ _ exact_rounding exact_gentle); auto.
Qed.
Lemma vg_mono : forall s t m slr alpha pmax sls, 0 < m <= 1 -> alpha <> 0 -> s <= t -> t <= 1 -> (t <= sls \/ (t = 1 /\ (s <= sls \/ s = 1))) ->
  rising (cp_genuchten exact s m slr alpha pmax sls) (cp_genuchten exact t m slr alpha pmax sls).
Proof.
  intros s t m slr alpha pmax sls M N ST L1 D. assert (A0 := Rabs_pos pmax).
  assert (Ds : s <= sls \/ s = 1) by (destruct D as [D|[D D']]; [left; lra | easy]).
  destruct (vg_range s m slr alpha pmax sls M N ltac:(lra) Ds) as (ps & Es & Rs). destruct (Req_dec t 1) as [->|NE].
  - rewrite vg_one, Es. exists ps, 0. repeat split. lra.
  - destruct D as [D|[D _]]; [|contradiction]. rewrite !vg_eq by lra.
    destruct (vg_raw_range s m slr alpha pmax sls M N ltac:(lra)) as (p & E & H). destruct (vg_raw_range t m slr alpha pmax sls M N D) as (q & E' & H').
    destruct (Rltb slr s) eqn:K.
    + rewrite E, E'. cbn [bind]. apply (finish_mono _ _ exact_rounding exact_gentle); auto. unfold vg_raw in E, E'. rewrite K in E. apply Rltb_iff in K. rewrite Rltb_true in E' by lra.
      destruct (vg_eff s slr sls K ltac:(lra)) as (e & Ee & [E0 E1] & V). destruct (vg_eff t slr sls ltac:(lra) D) as (e' & Ee' & [E0' E1'] & V'). rewrite Ee in E; rewrite Ee' in E'. cbn [bind] in E, E'.
      assert (Me : e <= e') by (subst e e'; unfold Rdiv; apply Rmult_le_compat_r; [left; apply Rinv_0_lt_compat; lra | lra]).
      assert (Pa := Rabs_pos_lt alpha N). rewrite !exact_div in E, E' by lra. cbn [bind] in E, E'. assert (I1 := minus_inv m ltac:(lra)). assert (I2 := minus_inv _ Pa).
      destruct (pow_down e (- (1) / m) E0 ltac:(lra)) as (u & U & U0 & U1). destruct (pow_down e' (- (1) / m) E0' ltac:(lra)) as (v & V0 & V1 & V2).
      assert (UV := pow_anti e e' (- (1) / m) u v E0 Me ltac:(lra) U V0). rewrite U in E; rewrite V0 in E'. cbn [bind] in E, E'. specialize (U1 E1). specialize (V2 E1').
      destruct (pow_range _ _ exact_rounding (sub exact u 1) (sub exact 1 m)) as (x & X & X0 & _); [cbn; lra | cbn; lra|].
      destruct (pow_range _ _ exact_rounding (sub exact v 1) (sub exact 1 m)) as (y & Y & Y0 & _); [cbn; lra | cbn; lra|].
      assert (XY : y <= x) by (apply (pow_mono _ _ exact_rounding (sub exact v 1) (sub exact u 1) (sub exact 1 m)); auto; cbn; lra).
      change (rounded (fun x => x)) with exact in X, Y. rewrite X in E; rewrite Y in E'. cbn [bind] in E, E'. apply ok_inj in E, E'. subst p q. cbn. nra.
    + rewrite E. unfold vg_raw in E. rewrite K in E. injection E as <-. rewrite E'. cbn [bind]. unfold finish. rewrite !pymax_max, Rmax_left by lra.
      destruct (ramp_range _ _ exact_rounding exact_gentle s) as (f & F & F0 & F1); [easy | lra|]. destruct (ramp_range _ _ exact_rounding exact_gentle t) as (f' & F' & F0' & F1'); [easy | lra|].
      assert (Mf := ramp_anti _ _ exact_rounding exact_gentle s t f f' ltac:(easy) ltac:(easy) L1 ST F F'). rewrite F, F'. cbn [bind]. eexists _, _. split; [reflexivity|]. split; [reflexivity|]. cbn.
      assert (- Rabs pmax <= Rmax q (- Rabs pmax)) by apply Rmax_r. assert (Rmax q (- Rabs pmax) <= 0) by (apply Rmax_lub; lra). nra.
Qed.

(** ** Pickens *)
(** the saturation the curve is evaluated at *)
Definition held (slr sl0 sl : R) : R := Rmin (Rmax sl (1001 / 1000 * slr)) (999 / 1000 * sl0).
(** the curve at [s], before the logarithm *)
Definition pk_a (slr sl0 s : R) : R := (1 + s / sl0) * (sl0 - slr) / (sl0 + slr).
Definition pk_b (sl0 s : R) : R := 1 - s / sl0.
Definition pk_arg (slr sl0 s : R) : res R :=
  let a := pk_a slr sl0 s in let b := pk_b sl0 s in
  let* root := real_pow (1 - b ^ 2 / a ^ 2) (1 / 2) in Ok (a / b * (1 + root)).
Section Pickens.
Context (slr sl0 : R) (H0 : 0 < slr) (H1 : slr < 999 / 1000 * sl0).
Lemma held_bounds : forall sl, slr < held slr sl0 sl /\ held slr sl0 sl <= 999 / 1000 * sl0.
Proof.
  intros sl. unfold held. split; [|apply Rmin_r]. apply Rmin_glb_lt; [|easy]. apply Rlt_le_trans with (1001 / 1000 * slr); [lra | apply Rmax_r].
Qed.
Lemma held_mono : forall s t, s <= t -> held slr sl0 s <= held slr sl0 t.
Proof. intros s t L. unfold held. apply Rle_min_compat_r, Rle_max_compat_r, L. Qed.
Lemma sl0_pos : 0 < sl0. Proof. lra. Qed.
Lemma div_le : forall a b c, 0 < c -> a <= b -> a / c <= b / c.
Proof. intros a b c C L. unfold Rdiv. apply Rmult_le_compat_r; [left; now apply Rinv_0_lt_compat | easy]. Qed.
Lemma div_lt : forall a b c, 0 < c -> a < b -> a / c < b / c.
Proof. intros a b c C L. unfold Rdiv. apply Rmult_lt_compat_r; [now apply Rinv_0_lt_compat | easy]. Qed.
Lemma b_pos : forall s, s <= 999 / 1000 * sl0 -> 0 < pk_b sl0 s.
Proof.
  intros s L. unfold pk_b. assert (P := sl0_pos). assert (s / sl0 <= 999 / 1000).
  { apply (Rmult_le_reg_r sl0); [easy|]. unfold Rdiv. rewrite Rmult_assoc, Rinv_l by lra. lra. }
  lra.
Qed.
Lemma a_gt_b : forall s, slr < s -> pk_b sl0 s < pk_a slr sl0 s.
Proof.
  intros s L. assert (P := sl0_pos). unfold pk_a, pk_b. apply (Rmult_lt_reg_r ((sl0 + slr) * sl0)); [apply Rmult_lt_0_compat; lra|].
  replace ((1 + s / sl0) * (sl0 - slr) / (sl0 + slr) * ((sl0 + slr) * sl0)) with ((sl0 + s) * (sl0 - slr)) by (field; lra).
  replace ((1 - s / sl0) * ((sl0 + slr) * sl0)) with ((sl0 - s) * (sl0 + slr)) by (field; lra). nra.
Qed.
Lemma a_mono : forall s t, s < t -> pk_a slr sl0 s < pk_a slr sl0 t.
Proof.
  intros s t L. assert (P := sl0_pos). unfold pk_a. apply div_lt; [lra|]. apply Rmult_lt_compat_r; [lra|]. assert (s / sl0 < t / sl0) by now apply div_lt. lra.
Qed.
Lemma b_anti : forall s t, s < t -> pk_b sl0 t < pk_b sl0 s.
Proof. intros s t L. assert (P := sl0_pos). unfold pk_b. assert (s / sl0 < t / sl0) by now apply div_lt. lra. Qed.
Lemma ba_bounds : forall a b, 0 < b -> b < a -> 0 < b ^ 2 / a ^ 2 <= 1.
Proof.
  intros a b B L. split.
  - apply Rmult_lt_0_compat; [apply pow_lt; lra|]. apply Rinv_0_lt_compat. apply pow_lt. lra.
  - apply (Rmult_le_reg_r (a ^ 2)); [apply pow_lt; lra|]. unfold Rdiv. rewrite Rmult_assoc, Rinv_l by (apply pow_nonzero; lra). nra.
Qed.
Lemma arg_ok : forall s, slr < s -> s <= 999 / 1000 * sl0 -> exists x, pk_arg slr sl0 s = Ok x /\ 1 < x.
Proof.
  intros s L L'. assert (B := b_pos s L'). assert (G := a_gt_b s L). unfold pk_arg. destruct (ba_bounds _ _ B G) as [Q0 Q1].
  destruct (real_pow_up (1 - pk_b sl0 s ^ 2 / pk_a slr sl0 s ^ 2) (1 / 2)) as (r & -> & R0 & _); [lra | lra|]. cbn [bind]. eexists; split; [reflexivity|].
  assert (1 < pk_a slr sl0 s / pk_b sl0 s).
  { apply (Rmult_lt_reg_r (pk_b sl0 s)); [easy|]. unfold Rdiv. rewrite Rmult_assoc, Rinv_l by lra. lra. }
  nra.
Qed.
Lemma arg_mono : forall s t x y, slr < s -> s < t -> t <= 999 / 1000 * sl0 -> pk_arg slr sl0 s = Ok x -> pk_arg slr sl0 t = Ok y -> x < y.
Proof.
  intros s t x y L ST L' X Y. assert (B := b_pos s ltac:(lra)). assert (B' := b_pos t L'). assert (G := a_gt_b s L). assert (G' := a_gt_b t ltac:(lra)).
  assert (Ma := a_mono s t ST). assert (Mb := b_anti s t ST). destruct (ba_bounds _ _ B G) as [Q0 Q1]. destruct (ba_bounds _ _ B' G') as [Q0' Q1'].
  unfold pk_arg in X, Y. set (a := pk_a slr sl0 s) in *. set (a' := pk_a slr sl0 t) in *. set (b := pk_b sl0 s) in *. set (b' := pk_b sl0 t) in *.
  destruct (real_pow_up (1 - b ^ 2 / a ^ 2) (1 / 2)) as (r & Er & R0 & _); [lra | lra|].
  destruct (real_pow_up (1 - b' ^ 2 / a' ^ 2) (1 / 2)) as (r' & Er' & R0' & _); [lra | lra|].
  rewrite Er in X; rewrite Er' in Y. cbn [bind] in X, Y. apply ok_inj in X, Y. subst x y.
  assert (Mq : b' ^ 2 / a' ^ 2 <= b ^ 2 / a ^ 2).
  { unfold Rdiv. apply Rmult_le_compat; [apply pow_le; lra | left; apply Rinv_0_lt_compat, pow_lt; lra | apply pow_incr; lra |]. apply Rinv_le_contravar; [apply pow_lt; lra | apply pow_incr; lra]. }
  assert (Mr : r <= r') by (apply (real_pow_mono (1 - b ^ 2 / a ^ 2) (1 - b' ^ 2 / a' ^ 2) (1 / 2)); auto; lra).
  assert (Mab : a / b < a' / b').
  { unfold Rdiv. apply Rle_lt_trans with (a * / b'); [apply Rmult_le_compat_l; [lra | apply Rinv_le_contravar; lra] | apply Rmult_lt_compat_r; [now apply Rinv_0_lt_compat | easy]]. }
  assert (0 < a / b) by (apply Rmult_lt_0_compat; [lra | now apply Rinv_0_lt_compat]). nra.
Qed.
Lemma arg_mono_le : forall s t x y, slr < s -> s <= t -> t <= 999 / 1000 * sl0 -> pk_arg slr sl0 s = Ok x -> pk_arg slr sl0 t = Ok y -> x <= y.
Proof.
  intros s t x y L ST L' X Y. destruct (Req_dec s t) as [->|N]; [rewrite X in Y; injection Y as ->; lra|]. left. apply (arg_mono s t); auto. lra.
Qed.
Lemma pk_eq : forall sl p0 x, x <> 0 ->
  cp_pickens exact sl p0 slr sl0 x =
  (let* y := pk_arg slr sl0 (held slr sl0 sl) in let* p := real_pow (ln y) (1 / x) in Ok (- p0 * p)).
Proof.
  intros sl p0 x N. unfold cp_pickens. assert (P := sl0_pos).
  assert (C1 : cst exact (Qmake 1001 1000) = 1001 / 1000) by (cbn; unfold Q2R; cbn; lra). assert (C2 : cst exact (Qmake 999 1000) = 999 / 1000) by (cbn; unfold Q2R; cbn; lra).
  assert (C3 : cst exact (Qmake 1 2) = 1 / 2) by (cbn; unfold Q2R; cbn; lra). rewrite C1, C2, C3, !ex1. assert (M := pymax_max (fun x => x)). change (rounded (fun x => x)) with exact in M. rewrite !M.
  change (num exact) with R in *. change (mul exact) with Rmult. change (add exact) with Rplus. change (sub exact) with Rminus. change (opp exact) with Ropp. change (pown exact) with (fun (x : R) n => x ^ n). cbv beta.
  assert (Hd : (if ltb exact (999 / 1000 * sl0) (Rmax sl (1001 / 1000 * slr)) then 999 / 1000 * sl0 else Rmax sl (1001 / 1000 * slr)) = held slr sl0 sl).
  { change (ltb exact (999 / 1000 * sl0) (Rmax sl (1001 / 1000 * slr))) with (Rltb (999 / 1000 * sl0) (Rmax sl (1001 / 1000 * slr))). unfold held.
    destruct (Rltb (999 / 1000 * sl0) (Rmax sl (1001 / 1000 * slr))) eqn:E; [apply Rltb_iff in E; rewrite Rmin_right; lra | apply Rltb_niff in E; rewrite Rmin_left; lra]. }
  change (rounded (fun x => x)) with exact in *. rewrite Hd. destruct (held_bounds sl) as [L L']. set (s := held slr sl0 sl) in *.
  rewrite (exact_div s sl0) by lra. cbn [bind]. rewrite exact_div by lra. cbn [bind]. fold (pk_a slr sl0 s). fold (pk_b sl0 s).
  assert (B := b_pos s L'). assert (G := a_gt_b s L). rewrite (exact_div _ (pk_b sl0 s)) by lra. cbn [bind]. rewrite exact_div by (apply pow_nonzero; lra). cbn [bind].
  destruct (arg_ok s L L') as (y & Y & Y1). unfold pk_arg in *. change (pow exact) with (fun x y => let* z := real_pow x y in Ok z). cbv beta. destruct (real_pow (1 - pk_b sl0 s ^ 2 / pk_a slr sl0 s ^ 2) (1 / 2)) as [r|]; [|discriminate].
  cbn [bind] in *. apply ok_inj in Y. rewrite Y. change (log exact) with (fun x => if Rltb 0 x then Ok (ln x) else Err Unmodelled). cbv beta. rewrite Rltb_true by lra. cbn [bind]. rewrite exact_div by easy. cbn [bind].
  destruct (real_pow (ln y) (1 / x)); reflexivity.
Qed.
Lemma ln_gt : forall y, 1 < y -> 0 < ln y.
Proof. intros y L. rewrite <- ln_1. apply ln_increasing; lra. Qed.
Lemma ln_le' : forall x y, 0 < x -> x <= y -> ln x <= ln y.
Proof. intros x y P L. destruct (Req_dec x y) as [->|N]; [lra|]. left. apply ln_increasing; lra. Qed.
Lemma real_pow_pos : forall x y, 0 < x -> exists z, real_pow x y = Ok z /\ 0 < z.
Proof.
  intros x y H. unfold real_pow. destruct (Req_EM_T y 0); [exists 1; split; [reflexivity | lra]|]. destruct (Req_EM_T x 0); [lra|]. rewrite Rltb_true by lra.
  eexists; split; [reflexivity|]. apply exp_pos.
Qed.
Lemma pk_nonpos : forall sl p0 x, x <> 0 -> 0 <= p0 -> not_positive (cp_pickens exact sl p0 slr sl0 x).
Proof.
  intros sl p0 x N P. rewrite pk_eq by easy. destruct (held_bounds sl) as [L L']. destruct (arg_ok _ L L') as (y & -> & Y1). cbn [bind].
  destruct (real_pow_pos (ln y) (1 / x) (ln_gt y Y1)) as (z & -> & Z). cbn [bind]. eexists; split; [reflexivity|]. nra.
Qed.
Lemma pk_rising : forall s t p0 x, x < 0 -> 0 <= p0 -> s <= t -> rising (cp_pickens exact s p0 slr sl0 x) (cp_pickens exact t p0 slr sl0 x).
Proof.
  intros s t p0 x N P ST. rewrite !pk_eq by lra. destruct (held_bounds s) as [L L']. destruct (held_bounds t) as [K K'].
  destruct (arg_ok _ L L') as (y & Y & Y1). destruct (arg_ok _ K K') as (z & Z & Z1). assert (M := arg_mono_le _ _ y z L (held_mono s t ST) K' Y Z).
  rewrite Y, Z. cbn [bind]. destruct (real_pow_pos (ln y) (1 / x) (ln_gt y Y1)) as (u & U & U0). destruct (real_pow_pos (ln z) (1 / x) (ln_gt z Z1)) as (v & V & V0).
  rewrite U, V. cbn [bind]. eexists _, _. split; [reflexivity|]. split; [reflexivity|].
  assert (I : 1 / x <= 0) by (unfold Rdiv; rewrite Rmult_1_l; left; now apply Rinv_lt_0_compat).
  assert (v <= u) by (apply (real_pow_anti (ln y) (ln z) (1 / x)); auto; [now apply ln_gt | apply ln_le'; lra]). nra.
Qed.
(** with a positive exponent the pressure falls *)
Lemma pk_falling : forall s t p0 x, 0 < x -> 0 < p0 -> 1001 / 1000 * slr <= s -> s < t -> t <= 999 / 1000 * sl0 ->
  exists p q, cp_pickens exact s p0 slr sl0 x = Ok p /\ cp_pickens exact t p0 slr sl0 x = Ok q /\ q < p.
Proof.
  intros s t p0 x N P B ST B'. rewrite !pk_eq by lra.
  assert (Hs : held slr sl0 s = s) by (unfold held; rewrite Rmax_left, Rmin_left; lra). assert (Ht : held slr sl0 t = t) by (unfold held; rewrite Rmax_left, Rmin_left; lra).
  rewrite Hs, Ht. destruct (arg_ok s ltac:(lra) ltac:(lra)) as (y & Y & Y1). destruct (arg_ok t ltac:(lra) B') as (z & Z & Z1). assert (M := arg_mono s t y z ltac:(lra) ST B' Y Z).
  rewrite Y, Z. cbn [bind]. assert (I : 0 < 1 / x) by (unfold Rdiv; rewrite Rmult_1_l; now apply Rinv_0_lt_compat). assert (Ly := ln_gt y Y1). assert (Lz := ln_gt z Z1).
  unfold real_pow. destruct (Req_EM_T (1 / x) 0); [lra|]. destruct (Req_EM_T (ln y) 0); [lra|]. destruct (Req_EM_T (ln z) 0); [lra|]. rewrite !Rltb_true by lra. cbn [bind].
  eexists _, _. split; [reflexivity|]. split; [reflexivity|].
  assert (Rpower (ln y) (1 / x) < Rpower (ln z) (1 / x)) by (apply Rlt_Rpower_l; [easy | split; [easy | apply ln_increasing; lra]]). nra.
Qed.
End Pickens.

(** ** Milly *)
Definition milly_d (sl slr : R) : R := Rmax sl (1001 / 1000 * slr) - slr.
Definition milly_f (d : R) : R := Rpower 10 (226 / 100 * Rpower (371 / 1000 / d - 1) (1 / 4) - 2).
Lemma milly_eq : forall sl slr, 0 < milly_d sl slr ->
  cp_milly exact sl slr = Ok (- (97783 / 1000) * (if Rleb (371 / 1000) (milly_d sl slr) then 1 else milly_f (milly_d sl slr))).
Proof.
  intros sl slr D. unfold cp_milly.
  assert (C1 : cst exact (Qmake 1001 1000) = 1001 / 1000) by (cbn; unfold Q2R; cbn; lra). assert (C2 : cst exact (Qmake 371 1000) = 371 / 1000) by (cbn; unfold Q2R; cbn; lra).
  assert (C3 : cst exact (Qmake 1 4) = 1 / 4) by (cbn; unfold Q2R; cbn; lra). assert (C4 : cst exact (Qmake 226 100) = 226 / 100) by (cbn; unfold Q2R; cbn; lra).
  assert (C5 : cst exact (Qmake 10 1) = 10) by (cbn; unfold Q2R; cbn; lra). assert (C6 : cst exact (Qmake 2 1) = 2) by (cbn; unfold Q2R; cbn; lra).
  assert (C7 : cst exact (Qmake 97783 1000) = 97783 / 1000) by (cbn; unfold Q2R; cbn; lra).
  rewrite C1, C2, C3, C4, C5, C6, C7, !ex1. assert (M := pymax_max (fun x => x)). change (rounded (fun x => x)) with exact in M. rewrite M.
  change (num exact) with R in *. change (mul exact) with Rmult. change (add exact) with Rplus. change (sub exact) with Rminus. change (opp exact) with Ropp. fold (milly_d sl slr). change (leb exact (371 / 1000) (milly_d sl slr)) with (Rleb (371 / 1000) (milly_d sl slr)).
  change (rounded (fun x => x)) with exact. set (d := milly_d sl slr) in *. destruct (Rleb (371 / 1000) d) eqn:E; [reflexivity|]. apply Rleb_niff in E. rewrite exact_div by lra. cbn [bind]. change (pow exact) with (fun x y => let* z := real_pow x y in Ok z). cbv beta.
  assert (Q : 1 < 371 / 1000 / d) by (apply (Rmult_lt_reg_r d); [easy|]; unfold Rdiv at 1; rewrite Rmult_assoc, Rinv_l by lra; lra).
  unfold real_pow at 1. destruct (Req_EM_T (1 / 4) 0); [lra|]. destruct (Req_EM_T (371 / 1000 / d - 1) 0); [lra|]. rewrite Rltb_true by lra. cbn [bind].
  fold (milly_f d). unfold milly_f. set (y := 226 / 100 * Rpower (371 / 1000 / d - 1) (1 / 4) - 2). unfold real_pow. destruct (Req_EM_T y 0) as [Y|Y].
  - cbn [bind]. rewrite Y. unfold Rpower. rewrite Rmult_0_l, exp_0. reflexivity.
  - destruct (Req_EM_T 10 0); [lra|]. rewrite Rltb_true by lra. reflexivity.
Qed.
Lemma milly_d_pos : forall sl slr, 0 <= slr -> slr < sl \/ 0 < slr -> 0 < milly_d sl slr.
Proof.
  intros sl slr P D. unfold milly_d. assert (M1 := Rmax_l sl (1001 / 1000 * slr)). assert (M2 := Rmax_r sl (1001 / 1000 * slr)). destruct D; lra.
Qed.
Lemma milly_f_pos : forall d, 0 < milly_f d. Proof. intros d. apply exp_pos. Qed.
Lemma milly_nonpos : forall sl slr, 0 <= slr -> slr < sl \/ 0 < slr -> not_positive (cp_milly exact sl slr).
Proof.
  intros sl slr P D. rewrite milly_eq by now apply milly_d_pos. eexists; split; [reflexivity|]. assert (F := milly_f_pos (milly_d sl slr)). destruct (Rleb _ _); lra.
Qed.
Lemma milly_f_anti : forall d e, 0 < d -> d <= e -> e < 371 / 1000 -> milly_f e <= milly_f d.
Proof.
  intros d e D L E. unfold milly_f. apply Rle_Rpower; [lra|]. assert (Q : 1 < 371 / 1000 / e) by (apply (Rmult_lt_reg_r e); [lra|]; unfold Rdiv at 1; rewrite Rmult_assoc, Rinv_l by lra; lra).
  assert (Q' : 371 / 1000 / e <= 371 / 1000 / d) by (unfold Rdiv; apply Rmult_le_compat_l; [lra | now apply Rinv_le_contravar]).
  assert (Rpower (371 / 1000 / e - 1) (1 / 4) <= Rpower (371 / 1000 / d - 1) (1 / 4)) by (apply Rle_Rpower_l; lra). lra.
Qed.
Lemma milly_d_mono : forall s t slr, s <= t -> milly_d s slr <= milly_d t slr.
Proof. intros s t slr L. unfold milly_d. assert (Rmax s (1001 / 1000 * slr) <= Rmax t (1001 / 1000 * slr)) by now apply Rle_max_compat_r. lra. Qed.
Lemma milly_rising : forall s t slr, 0 <= slr -> slr < s \/ 0 < slr -> s <= t -> milly_d t slr < 371 / 1000 \/ 371 / 1000 <= milly_d s slr ->
  rising (cp_milly exact s slr) (cp_milly exact t slr).
Proof.
  intros s t slr P D ST B. assert (Ds := milly_d_pos s slr P D). assert (M := milly_d_mono s t slr ST). rewrite !milly_eq by lra.
  eexists _, _. split; [reflexivity|]. split; [reflexivity|]. destruct B as [B|B].
  - rewrite !Rleb_false by lra. assert (F := milly_f_anti (milly_d s slr) (milly_d t slr) Ds M B). lra.
  - rewrite !Rleb_true by lra. lra.
Qed.
