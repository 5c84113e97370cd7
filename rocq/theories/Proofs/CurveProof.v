(** Proofs about the relative permeability and capillarity models. *)
From Coq Require Import ZArith QArith Qreals Reals Lra Lia Bool List.
From Verif Require Import Model.Py Model.Curves Spec.Curves.
Import ListNotations.
Local Open Scope R_scope.

Lemma Rleb_true : forall x y, x <= y -> Rleb x y = true.
Proof. intros x y H. unfold Rleb. destruct (Rle_dec x y); [reflexivity | contradiction]. Qed.
Lemma Rleb_false : forall x y, y < x -> Rleb x y = false.
Proof. intros x y H. unfold Rleb. destruct (Rle_dec x y); [lra | reflexivity]. Qed.
Lemma Rltb_true : forall x y, x < y -> Rltb x y = true.
Proof. intros x y H. unfold Rltb. destruct (Rlt_dec x y); [reflexivity | contradiction]. Qed.
Lemma Rltb_false : forall x y, y <= x -> Rltb x y = false.
Proof. intros x y H. unfold Rltb. destruct (Rlt_dec x y); [lra | reflexivity]. Qed.
Lemma Rleb_iff : forall x y, Rleb x y = true -> x <= y.
Proof. intros x y. unfold Rleb. destruct (Rle_dec x y); [easy | discriminate]. Qed.
Lemma Rltb_iff : forall x y, Rltb x y = true -> x < y.
Proof. intros x y. unfold Rltb. destruct (Rlt_dec x y); [easy | discriminate]. Qed.
Lemma Rleb_niff : forall x y, Rleb x y = false -> y < x.
Proof. intros x y. unfold Rleb. destruct (Rle_dec x y); [discriminate | lra]. Qed.
Lemma Rltb_niff : forall x y, Rltb x y = false -> y <= x.
Proof. intros x y. unfold Rltb. destruct (Rlt_dec x y); [discriminate | lra]. Qed.

Lemma bind_ext : forall {X Y} (x : res X) (f g : X -> res Y), (forall a, f a = g a) -> bind x f = bind x g.
Proof. intros X Y [a|e] f g H; [apply H | reflexivity]. Qed.

Lemma ok_inj : forall {X} (x y : X), Ok x = Ok y -> x = y.
Proof. congruence. Qed.

(** ** Powers *)
Lemma real_pow_up : forall x y, 0 <= x -> 0 <= y -> exists z, real_pow x y = Ok z /\ 0 <= z /\ (x <= 1 -> z <= 1).
Proof.
  intros x y Hx Hy. unfold real_pow. destruct (Req_EM_T y 0) as [E|E]; [exists 1; repeat split; lra|].
  destruct (Req_EM_T x 0) as [F|F].
  - rewrite Rltb_false by lra. exists 0. repeat split; lra.
  - rewrite Rltb_true by lra. exists (Rpower x y). split; [reflexivity|]. split.
    + left. apply exp_pos.
    + intros L. replace 1 with (Rpower 1 y); [apply Rle_Rpower_l; lra|].
      unfold Rpower. rewrite ln_1, Rmult_0_r. apply exp_0.
Qed.
Lemma real_pow_mono : forall x x' y z z', 0 <= x -> x <= x' -> 0 <= y -> real_pow x y = Ok z -> real_pow x' y = Ok z' -> z <= z'.
Proof.
  intros x x' y z z' Hx L Hy. unfold real_pow. destruct (Req_EM_T y 0) as [E|E].
  - intros H H0; injection H as <-; injection H0 as <-; lra.
  - destruct (Req_EM_T x 0) as [F|F].
    + rewrite Rltb_false by lra. intros H; injection H as <-. destruct (Req_EM_T x' 0) as [F'|F'].
      * intros H; injection H as <-; lra.
      * rewrite Rltb_true by lra. intros H; injection H as <-. left. apply exp_pos.
    + rewrite Rltb_true by lra. intros H; injection H as <-.
      destruct (Req_EM_T x' 0) as [F'|F']; [lra|]. rewrite Rltb_true by lra.
      intros H; injection H as <-. apply Rle_Rpower_l; lra.
Qed.
(** negative exponents *)
Lemma real_pow_down : forall x y, 0 < x -> y <= 0 -> exists z, real_pow x y = Ok z /\ 0 < z /\ (x <= 1 -> 1 <= z).
Proof.
  intros x y Hx Hy. unfold real_pow. destruct (Req_EM_T y 0) as [E|E]; [exists 1; repeat split; lra|].
  destruct (Req_EM_T x 0) as [F|F]; [lra|]. rewrite Rltb_true by lra.
  exists (Rpower x y). split; [reflexivity|]. split; [apply exp_pos|]. intros L.
  unfold Rpower. rewrite <- exp_0. destruct (Req_dec x 1) as [->|N].
  - rewrite ln_1, Rmult_0_r. lra.
  - left. apply exp_increasing. assert (ln x < 0) by (rewrite <- ln_1; apply ln_increasing; lra). nra.
Qed.
Lemma real_pow_anti : forall x x' y z z', 0 < x -> x <= x' -> y <= 0 -> real_pow x y = Ok z -> real_pow x' y = Ok z' -> z' <= z.
Proof.
  intros x x' y z z' Hx L Hy. unfold real_pow. destruct (Req_EM_T y 0) as [E|E].
  - intros H H0; injection H as <-; injection H0 as <-; lra.
  - destruct (Req_EM_T x 0); [lra|]. destruct (Req_EM_T x' 0); [lra|]. rewrite !Rltb_true by lra.
    intros H H0; injection H as <-; injection H0 as <-.
    unfold Rpower. destruct (Req_dec x x') as [->|N]; [lra|]. left. apply exp_increasing.
    assert (ln x < ln x') by (apply ln_increasing; lra). nra.
Qed.

Section Rounded.
Context (rd : R -> R) (rep : R -> Prop) (HR : rounding rd rep).
Let A := rounded rd.

Lemma rd0 : rd 0 = 0. Proof. apply (rd_rep _ _ HR), (rep_0 _ _ HR). Qed.
Lemma rd1 : rd 1 = 1. Proof. apply (rd_rep _ _ HR), (rep_1 _ _ HR). Qed.
Lemma rd_nonneg : forall x, 0 <= x -> 0 <= rd x.
Proof. intros x H. rewrite <- rd0. now apply (rd_mono _ _ HR). Qed.
Lemma rd_le1 : forall x, x <= 1 -> rd x <= 1.
Proof. intros x H. rewrite <- rd1. now apply (rd_mono _ _ HR). Qed.
Lemma rd_nonpos : forall x, x <= 0 -> rd x <= 0.
Proof. intros x H. rewrite <- rd0. now apply (rd_mono _ _ HR). Qed.
Lemma rd_ge : forall x y, rep x -> x <= y -> x <= rd y.
Proof. intros x y P H. rewrite <- (rd_rep _ _ HR x P). now apply (rd_mono _ _ HR). Qed.
Lemma rd_le : forall x y, rep y -> x <= y -> rd x <= y.
Proof. intros x y P H. rewrite <- (rd_rep _ _ HR y P). now apply (rd_mono _ _ HR). Qed.
Lemma sub_pos : forall x y, rep x -> rep y -> x < y -> 0 < rd (y - x).
Proof.
  intros x y Px Py L. assert (0 <= rd (y - x)) by (apply rd_nonneg; lra). assert (N := rd_sub _ _ HR x y Px Py ltac:(lra)). lra.
Qed.
Lemma rd_fraction : forall x, fraction x -> fraction (rd x).
Proof. intros x [H H']. split; [now apply rd_nonneg | now apply rd_le1]. Qed.
Lemma c0_0 : c0 A = 0. Proof. unfold c0, A; cbn. rewrite RMicromega.Q2R_0. apply rd0. Qed.
Lemma c1_1 : c1 A = 1. Proof. unfold c1, A; cbn. rewrite RMicromega.Q2R_1. apply rd1. Qed.
Lemma fraction_0 : fraction 0. Proof. unfold fraction; lra. Qed.
Lemma fraction_1 : fraction 1. Proof. unfold fraction; lra. Qed.

(** A ratio of two differences, the smaller over the larger *)
Lemma ratio : forall a b c, rep a -> rep b -> rep c -> a <= b -> b <= c -> a < c ->
  exists q, div A (sub A b a) (sub A c a) = Ok q /\ fraction q.
Proof.
  intros a b c Pa Pb Pc L L' L''. cbn. assert (D := sub_pos a c Pa Pc L'').
  destruct (Req_EM_T (rd (c - a)) 0) as [E|E]; [lra|]. exists (rd (rd (b - a) / rd (c - a))). split; [reflexivity|].
  apply rd_fraction. assert (0 <= rd (b - a)) by (apply rd_nonneg; lra). assert (rd (b - a) <= rd (c - a)) by (apply (rd_mono _ _ HR); lra).
  split.
  - apply Rmult_le_pos; [lra|]. left. now apply Rinv_0_lt_compat.
  - apply (Rmult_le_reg_r (rd (c - a))); [lra|]. unfold Rdiv. rewrite Rmult_assoc, Rinv_l by lra. lra.
Qed.
(** and the ratio is monotone *)
Lemma ratio_mono : forall a b b' d q q', b <= b' -> 0 < d ->
  div A (sub A b a) d = Ok q -> div A (sub A b' a) d = Ok q' -> q <= q'.
Proof.
  intros a b b' d q q' L D. cbn. destruct (Req_EM_T d 0) as [E|E]; [lra|].
  intros H H'; injection H as <-; injection H' as <-. apply (rd_mono _ _ HR). unfold Rdiv.
  apply Rmult_le_compat_r; [left; now apply Rinv_0_lt_compat|]. apply (rd_mono _ _ HR). lra.
Qed.

(** ** Relative permeabilities *)
(** one branch of the linear model *)
Definition lin (s lo hi : R) : res R :=
  if Rleb hi s then Ok (c1 A) else if Rleb s lo then Ok (c0 A) else div A (sub A s lo) (sub A hi lo).
Lemma lin_range : forall s lo hi, rep s -> rep lo -> rep hi -> lo < hi -> exists q, lin s lo hi = Ok q /\ fraction q.
Proof.
  intros s lo hi Ps Pl Ph L. unfold lin. destruct (Rleb hi s) eqn:E; [exists 1; rewrite c1_1; split; [reflexivity | apply fraction_1]|].
  destruct (Rleb s lo) eqn:F; [exists 0; rewrite c0_0; split; [reflexivity | apply fraction_0]|].
  apply Rleb_niff in E, F. apply ratio; auto; lra.
Qed.
Lemma lin_mono : forall s t lo hi q q', rep s -> rep t -> rep lo -> rep hi -> lo < hi -> s <= t -> lin s lo hi = Ok q -> lin t lo hi = Ok q' -> q <= q'.
Proof.
  intros s t lo hi q q' Ps Pt Pl Ph L M E E'.
  destruct (lin_range s lo hi) as (z & Z & Rz); auto. destruct (lin_range t lo hi) as (z' & Z' & Rz'); auto.
  rewrite Z in E; injection E as <-. rewrite Z' in E'; injection E' as <-.
  unfold lin in Z, Z'. rewrite c1_1, c0_0 in *. destruct (Rleb hi t) eqn:H1; [injection Z' as <-; destruct Rz; lra|].
  apply Rleb_niff in H1. rewrite Rleb_false in Z by lra. destruct (Rleb s lo) eqn:H2; [injection Z as <-; destruct Rz'; lra|].
  apply Rleb_niff in H2. rewrite Rleb_false in Z' by lra.
  apply (ratio_mono lo s t (sub A hi lo)); auto. cbn. now apply sub_pos.
Qed.
Lemma linear_eq : forall sl a b c d,
  rp_linear A sl a b c d = (let* kl := lin sl a c in let* kg := lin (rd (1 - sl)) b d in Ok (kl, kg)).
Proof. intros. unfold rp_linear, lin. rewrite !c1_1. reflexivity. Qed.
Lemma linear_range : forall sl a b c d, rep sl -> rep a -> rep b -> rep c -> rep d -> a < c -> b < d -> fractions (rp_linear A sl a b c d).
Proof.
  intros. rewrite linear_eq. destruct (lin_range sl a c) as (q & -> & Q); auto.
  destruct (lin_range (rd (1 - sl)) b d) as (q' & E & Q'); auto; [apply (rd_in _ _ HR)|]. cbn [bind]. rewrite E. exists q, q'. auto.
Qed.
Lemma linear_mono : forall s t a b c d, rep s -> rep t -> rep a -> rep b -> rep c -> rep d -> a < c -> b < d -> s <= t ->
  ordered (rp_linear A s a b c d) (rp_linear A t a b c d).
Proof.
  intros s t a b c d Ps Pt Pa Pb Pc Pd L L' M. rewrite !linear_eq.
  destruct (lin_range s a c) as (q & E & Q); auto. destruct (lin_range t a c) as (q' & E' & Q'); auto.
  destruct (lin_range (rd (1 - s)) b d) as (z & F & Z); auto; [apply (rd_in _ _ HR)|].
  destruct (lin_range (rd (1 - t)) b d) as (z' & F' & Z'); auto; [apply (rd_in _ _ HR)|].
  exists q, z, q', z'. rewrite E, E'; cbn [bind]. rewrite F, F'. repeat split.
  - apply (lin_mono s t a c); auto.
  - apply (lin_mono (rd (1 - t)) (rd (1 - s)) b d); auto; try apply (rd_in _ _ HR). apply (rd_mono _ _ HR). lra.
Qed.

Lemma pow_range : forall x y, 0 <= x -> 0 <= y -> exists z, pow A x y = Ok z /\ 0 <= z /\ (x <= 1 -> z <= 1).
Proof.
  intros x y Hx Hy. destruct (real_pow_up x y Hx Hy) as (z & E & P & Q). cbn. rewrite E. exists (rd z).
  split; [reflexivity|]. split; [now apply rd_nonneg|]. intros L. now apply rd_le1, Q.
Qed.
Lemma pow_mono : forall x x' y z z', 0 <= x -> x <= x' -> 0 <= y -> pow A x y = Ok z -> pow A x' y = Ok z' -> z <= z'.
Proof.
  intros x x' y z z' Hx L Hy. destruct (real_pow_up x y Hx Hy) as (w & E & _). destruct (real_pow_up x' y ltac:(lra) Hy) as (w' & E' & _).
  cbn. rewrite E, E'. cbn. intros H H'; injection H as <-; injection H' as <-. apply (rd_mono _ _ HR). now apply (real_pow_mono x x' y).
Qed.
Lemma pickens_range : forall sl x, fraction sl -> 0 <= x -> fractions (rp_pickens A sl x).
Proof.
  intros sl x F H. destruct (pow_range sl x) as (z & E & P & Q); [apply F | easy|]. unfold rp_pickens. rewrite E. exists z, 1.
  rewrite c1_1. cbn. repeat split; try lra. apply Q, F.
Qed.
Lemma pickens_mono : forall s t x, 0 <= s -> s <= t -> 0 <= x -> ordered (rp_pickens A s x) (rp_pickens A t x).
Proof.
  intros s t x S L X. destruct (pow_range s x S X) as (z & E & _). destruct (pow_range t x ltac:(lra) X) as (z' & E' & _).
  unfold rp_pickens. rewrite E, E'. exists z, 1, z', 1. rewrite c1_1. cbn. repeat split; try lra. now apply (pow_mono s t x).
Qed.

Lemma pown_fraction : forall x n, fraction x -> fraction (pown A x n).
Proof.
  intros x n [H H']. cbn. apply rd_fraction. split; [now apply pow_le|]. rewrite <- (pow1 n). apply pow_incr. lra.
Qed.
Lemma pown_mono : forall x y n, 0 <= x -> x <= y -> pown A x n <= pown A y n.
Proof. intros x y n H L. cbn. apply (rd_mono _ _ HR). apply pow_incr. lra. Qed.
Lemma compl_fraction : forall x, fraction x -> fraction (rd (1 - x)).
Proof. intros x [H H']. apply rd_fraction. split; lra. Qed.
Lemma compl_mono : forall x y, x <= y -> rd (1 - y) <= rd (1 - x).
Proof. intros x y L. apply (rd_mono _ _ HR). lra. Qed.

Definition fk_eff (sl slr : R) : res R := if Rltb slr sl then div A (sub A sl slr) (sub A (c1 A) slr) else Ok (c0 A).
Lemma fk_eq : forall sl slr, rp_fatt_klikoff A sl slr = (let* Seff := fk_eff sl slr in Ok (pown A Seff 3, pown A (sub A (c1 A) Seff) 3)).
Proof. reflexivity. Qed.
Lemma fk_eff_range : forall sl slr, rep sl -> rep slr -> sl <= 1 -> slr < 1 -> exists q, fk_eff sl slr = Ok q /\ fraction q.
Proof.
  intros sl slr Ps Pr L L'. unfold fk_eff. rewrite c0_0, c1_1. destruct (Rltb slr sl) eqn:E; [|exists 0; split; [reflexivity | apply fraction_0]].
  apply Rltb_iff in E. apply ratio; auto; try lra. apply (rep_1 _ _ HR).
Qed.
Lemma fk_eff_mono : forall s t slr q q', rep s -> rep t -> rep slr -> s <= t -> t <= 1 -> slr < 1 -> fk_eff s slr = Ok q -> fk_eff t slr = Ok q' -> q <= q'.
Proof.
  intros s t slr q q' Ps Pt Pr L L1 L' E E'. destruct (fk_eff_range t slr Pt Pr L1 L') as (z & Z & F). rewrite Z in E'; injection E' as <-.
  unfold fk_eff in E, Z. rewrite c0_0, c1_1 in *. destruct (Rltb slr s) eqn:H.
  - apply Rltb_iff in H. rewrite Rltb_true in Z by lra. apply (ratio_mono slr s t (sub A 1 slr)); auto. cbn.
    apply sub_pos; auto. apply (rep_1 _ _ HR).
  - injection E as <-. apply F.
Qed.
Lemma fk_range : forall sl slr, rep sl -> rep slr -> sl <= 1 -> slr < 1 -> fractions (rp_fatt_klikoff A sl slr).
Proof.
  intros sl slr Ps Pr L L'. destruct (fk_eff_range sl slr Ps Pr L L') as (q & E & F). rewrite fk_eq, E. cbn [bind]. eexists _, _. split; [reflexivity|]. split; [now apply pown_fraction|]. apply pown_fraction. rewrite c1_1. now apply compl_fraction.
Qed.
Lemma fk_mono : forall s t slr, rep s -> rep t -> rep slr -> s <= t -> t <= 1 -> slr < 1 -> ordered (rp_fatt_klikoff A s slr) (rp_fatt_klikoff A t slr).
Proof.
  intros s t slr Ps Pt Pr L L1 L'. destruct (fk_eff_range s slr Ps Pr ltac:(lra) L') as (q & E & F). destruct (fk_eff_range t slr Pt Pr L1 L') as (q' & E' & F').
  assert (M := fk_eff_mono s t slr q q' Ps Pt Pr L L1 L' E E').
  exists (pown A q 3), (pown A (sub A (c1 A) q) 3), (pown A q' 3), (pown A (sub A (c1 A) q') 3).
  rewrite !fk_eq, E, E'. split; [reflexivity|]. split; [reflexivity|].
  split; [apply pown_mono; [apply F | easy]|]. rewrite c1_1. apply pown_mono; [apply (compl_fraction q' F') | now apply compl_mono].
Qed.

(** clamping *)
Lemma clamp_fraction : forall x, fraction (pymin A (pymax A x (c0 A)) (c1 A)).
Proof.
  intros x. unfold pymin, pymax. rewrite c0_0, c1_1. cbn. destruct (Rltb x 0) eqn:E.
  - rewrite Rltb_false by lra. apply fraction_0.
  - apply Rltb_niff in E. destruct (Rltb 1 x) eqn:F; [apply fraction_1|]. apply Rltb_niff in F. now split.
Qed.
Lemma clamp_mono : forall x y, x <= y -> pymin A (pymax A x (c0 A)) (c1 A) <= pymin A (pymax A y (c0 A)) (c1 A).
Proof.
  intros x y L. unfold pymin, pymax. rewrite c0_0, c1_1. cbn.
  destruct (Rltb x 0) eqn:E; destruct (Rltb y 0) eqn:F; try apply Rltb_iff in E; try apply Rltb_iff in F; try apply Rltb_niff in E; try apply Rltb_niff in F; try lra.
  - rewrite (Rltb_false 1 0) by lra. destruct (Rltb 1 y); [apply Rle_0_1 | exact F].
  - destruct (Rltb 1 x) eqn:G; destruct (Rltb 1 y) eqn:H; try apply Rltb_iff in G; try apply Rltb_iff in H; try apply Rltb_niff in G; try apply Rltb_niff in H; lra.
Qed.
(** the gas curve shared by Corey and van Genuchten-Mualem *)
Lemma gas_fraction : forall x, fraction x -> fraction (mul A (sub A (c1 A) (pown A x 2)) (pown A (sub A (c1 A) x) 2)).
Proof.
  intros x F. rewrite c1_1. assert (F1 := compl_fraction _ (pown_fraction x 2 F)). assert (F2 := pown_fraction _ 2 (compl_fraction x F)).
  cbn in *. apply rd_fraction. destruct F1, F2. split; [now apply Rmult_le_pos|].
  apply Rle_trans with (1 * 1); [now apply Rmult_le_compat | lra].
Qed.
Lemma gas_mono : forall x y, fraction x -> fraction y -> x <= y ->
  mul A (sub A (c1 A) (pown A y 2)) (pown A (sub A (c1 A) y) 2) <= mul A (sub A (c1 A) (pown A x 2)) (pown A (sub A (c1 A) x) 2).
Proof.
  intros x y Fx Fy L. rewrite c1_1. assert (F1 := compl_fraction _ (pown_fraction y 2 Fy)). assert (F2 := pown_fraction _ 2 (compl_fraction y Fy)).
  assert (M1 := compl_mono _ _ (pown_mono x y 2 (proj1 Fx) L)).
  assert (M2 := pown_mono (rd (1 - y)) (rd (1 - x)) 2 (proj1 (compl_fraction y Fy)) (compl_mono x y L)).
  cbn [mul sub A rounded]. apply (rd_mono _ _ HR). apply Rmult_le_compat; try apply F1; try apply F2; easy.
Qed.

Lemma verma_range : forall sl slr sls a b c, rep slr -> rep sls -> slr <> sls -> fractions (rp_verma A sl slr sls a b c).
Proof.
  intros sl slr sls a b c Pr Ps N. unfold rp_verma.
  assert (D : exists q, div A (sub A sl slr) (sub A sls slr) = Ok q).
  { cbn. destruct (Req_EM_T (rd (sls - slr)) 0) as [E|E]; [|eauto]. exfalso.
    exact (rd_sub _ _ HR slr sls Pr Ps N E). }
  destruct D as (q & E). rewrite E. cbn [bind]. eexists _, _. split; [reflexivity|]. split; [apply pown_fraction|]; apply clamp_fraction.
Qed.
Lemma sub_nonzero : forall x y, rep x -> rep y -> x <> y -> sub A y x <> 0.
Proof. intros x y Px Py N. cbn. now apply (rd_sub _ _ HR). Qed.
Lemma div_ok : forall x y, y <> 0 -> div A x y = Ok (rd (x / y)).
Proof. intros x y N. cbn. destruct (Req_EM_T y 0); [contradiction | reflexivity]. Qed.

(** the liquid curve of van Genuchten-Mualem as a function of the effective saturation *)
Definition klm (m S : R) : res R :=
  if ltb A (c0 A) S then
    let* root := pow A S (cst A (Qmake 1 2)) in
    let* im := div A (c1 A) m in
    let* p := pow A S im in
    let* q := pow A (sub A (c1 A) p) m in
    Ok (mul A root (pown A (sub A (c1 A) q) 2))
  else Ok (c0 A).
Lemma half_nonneg : 0 <= cst A (Qmake 1 2).
Proof. cbn. apply rd_nonneg. unfold Q2R; cbn. lra. Qed.
Lemma inv_nonneg : forall m, 0 < m -> exists i, div A (c1 A) m = Ok i /\ 0 <= i.
Proof.
  intros m H. rewrite div_ok by lra. eexists; split; [reflexivity|]. apply rd_nonneg. rewrite c1_1. unfold Rdiv. rewrite Rmult_1_l. left. now apply Rinv_0_lt_compat.
Qed.
Lemma klm_range : forall m S, 0 < m -> S <= 1 -> exists k, klm m S = Ok k /\ fraction k.
Proof.
  intros m S M L. unfold klm. rewrite !c1_1, c0_0. destruct (ltb A 0 S) eqn:E; [|exists 0; split; [reflexivity | apply fraction_0]].
  apply Rltb_iff in E. destruct (pow_range S (cst A (Qmake 1 2))) as (r & Er & R0 & R1); [lra | apply half_nonneg|].
  destruct (inv_nonneg m M) as (i & Ei & I0). rewrite c1_1 in Ei.
  destruct (pow_range S i) as (p & Ep & P0 & P1); [lra | easy |].
  assert (Fp : fraction (sub A 1 p)) by (apply compl_fraction; split; auto).
  destruct (pow_range (sub A 1 p) m) as (q & Eq & Q0 & Q1); [apply Fp | lra |].
  rewrite Er, Ei; cbn [bind]. rewrite Ep; cbn [bind]. rewrite Eq; cbn [bind]. eexists; split; [reflexivity|].
  assert (Fq : fraction (pown A (sub A 1 q) 2)) by (apply pown_fraction, compl_fraction; split; [easy | apply Q1, Fp]).
  cbn [mul A rounded]. apply rd_fraction. destruct Fq. split; [now apply Rmult_le_pos|]. apply Rle_trans with (1 * 1); [|lra]. apply Rmult_le_compat; auto.
Qed.
Lemma klm_mono : forall m S T k k', 0 < m -> T <= 1 -> S <= T -> klm m S = Ok k -> klm m T = Ok k' -> k <= k'.
Proof.
  intros m S T k k' M L ST E E'. destruct (klm_range m T M L) as (z & Z & Fz). rewrite Z in E'; injection E' as <-.
  unfold klm in E, Z. rewrite !c1_1, c0_0 in *. destruct (ltb A 0 S) eqn:H; [|injection E as <-; apply Fz].
  apply Rltb_iff in H. change (ltb A 0 T) with (Rltb 0 T) in Z. rewrite Rltb_true in Z by lra.
  destruct (pow_range S (cst A (Qmake 1 2))) as (r & Er & R0 & R1); [lra | apply half_nonneg|].
  destruct (pow_range T (cst A (Qmake 1 2))) as (r' & Er' & R0' & R1'); [lra | apply half_nonneg|].
  assert (Mr : r <= r') by (apply (pow_mono S T (cst A (Qmake 1 2))); auto; [lra | apply half_nonneg]).
  destruct (inv_nonneg m M) as (i & Ei & I0). rewrite c1_1 in Ei.
  destruct (pow_range S i) as (p & Ep & P0 & P1); [lra | easy |]. destruct (pow_range T i) as (p' & Ep' & P0' & P1'); [lra | easy |].
  assert (Mp : p <= p') by (apply (pow_mono S T i); auto; lra).
  assert (Fp : fraction (sub A 1 p)) by (apply compl_fraction; split; [easy | apply P1; lra]).
  assert (Fp' : fraction (sub A 1 p')) by (apply compl_fraction; split; auto).
  destruct (pow_range (sub A 1 p) m) as (q & Eq & Q0 & Q1); [apply Fp | lra |].
  destruct (pow_range (sub A 1 p') m) as (q' & Eq' & Q0' & Q1'); [apply Fp' | lra |].
  assert (Mq : q' <= q) by (apply (pow_mono (sub A 1 p') (sub A 1 p) m); auto; [apply Fp' | now apply compl_mono | lra]).
  rewrite Er, Ei in E; cbn [bind] in E. rewrite Ep in E; cbn [bind] in E. rewrite Eq in E; cbn [bind] in E. injection E as <-.
  rewrite Er', Ei in Z; cbn [bind] in Z. rewrite Ep' in Z; cbn [bind] in Z. rewrite Eq' in Z; cbn [bind] in Z. injection Z as <-.
  assert (Fq : fraction (sub A 1 q)) by (apply compl_fraction; split; [easy | apply Q1, Fp]).
  assert (Mq2 : pown A (sub A 1 q) 2 <= pown A (sub A 1 q') 2) by (apply pown_mono; [apply Fq | now apply compl_mono]).
  assert (Fq2 := pown_fraction _ 2 Fq).
  cbn [mul A rounded]. apply (rd_mono _ _ HR). apply Rmult_le_compat; auto. apply Fq2.
Qed.

Definition kgm (slr sgr sl kl : R) : res R :=
  let* Shat := div A (sub A sl slr) (sub A (sub A (c1 A) slr) sgr) in
  let Shat := pymin A (pymax A Shat (c0 A)) (c1 A) in
  Ok (if leb A sgr (c0 A) then sub A (c1 A) kl else mul A (sub A (c1 A) (pown A Shat 2)) (pown A (sub A (c1 A) Shat) 2)).
Lemma mualem_eq : forall sl m slr sls sgr,
  rp_mualem A sl m slr sls sgr =
  if Rleb sls sl then Ok (c1 A, c0 A)
  else let* Se := div A (sub A sl slr) (sub A sls slr) in let* kl := klm m Se in let* kg := kgm slr sgr sl kl in Ok (kl, kg).
Proof.
  intros. unfold rp_mualem. change (leb A sls sl) with (Rleb sls sl). destruct (Rleb sls sl); [reflexivity|].
  apply bind_ext; intros a. apply bind_ext; intros kl. unfold kgm.
  destruct (div A (sub A sl slr) (sub A (sub A (c1 A) slr) sgr)); reflexivity.
Qed.

Lemma mualem_eff : forall sl slr sls, rep sl -> rep slr -> rep sls -> slr < sls -> sl < sls ->
  exists e, div A (sub A sl slr) (sub A sls slr) = Ok e /\ e <= 1.
Proof.
  intros sl slr sls P Pr Ps L L'. rewrite div_ok by (apply sub_nonzero; auto; lra). eexists; split; [reflexivity|]. apply rd_le1.
  assert (D := sub_pos slr sls Pr Ps L). cbn. apply (Rmult_le_reg_r (rd (sls - slr))); [easy|]. unfold Rdiv. rewrite Rmult_assoc, Rinv_l by lra.
  rewrite Rmult_1_r, Rmult_1_l. apply (rd_mono _ _ HR). lra.
Qed.
Lemma kgm_range : forall slr sgr sl kl, rep sgr -> sgr <> rd (1 - slr) -> fraction kl -> exists k, kgm slr sgr sl kl = Ok k /\ fraction k.
Proof.
  intros slr sgr sl kl P N F. unfold kgm. rewrite div_ok.
  - cbn [bind]. eexists; split; [reflexivity|]. destruct (leb A sgr (c0 A)); [rewrite c1_1; now apply compl_fraction | apply gas_fraction, clamp_fraction].
  - rewrite c1_1. apply sub_nonzero; auto. apply (rd_in _ _ HR).
Qed.
Lemma mualem_range : forall sl m slr sls sgr, rep sl -> rep slr -> rep sls -> rep sgr -> 0 < m -> slr < sls -> sgr <> rd (1 - slr) ->
  fractions (rp_mualem A sl m slr sls sgr).
Proof.
  intros sl m slr sls sgr P Pr Ps Pg M L N. rewrite mualem_eq. destruct (Rleb sls sl) eqn:E.
  - exists 1, 0. rewrite c1_1, c0_0. repeat split; lra.
  - apply Rleb_niff in E. destruct (mualem_eff sl slr sls P Pr Ps L E) as (e & -> & Le). cbn [bind].
    destruct (klm_range m e M Le) as (kl & -> & Fl). cbn [bind]. destruct (kgm_range slr sgr sl kl Pg N Fl) as (kg & -> & Fg). cbn [bind]. exists kl, kg. auto.
Qed.
Lemma kgm_mono : forall slr sgr s t kl kl' k k', rep sgr -> sgr < rd (1 - slr) -> s <= t -> kl <= kl' ->
  kgm slr sgr s kl = Ok k -> kgm slr sgr t kl' = Ok k' -> k' <= k.
Proof.
  intros slr sgr s t kl kl' k k' Pg N ST L. unfold kgm.
  assert (D : 0 < sub A (sub A (c1 A) slr) sgr) by (rewrite c1_1; apply sub_pos; auto; apply (rd_in _ _ HR)).
  rewrite !div_ok by lra. cbn [bind]. intros E E'. apply ok_inj in E, E'. rewrite <- E, <- E'. destruct (leb A sgr (c0 A)).
  - rewrite c1_1. now apply compl_mono.
  - apply gas_mono; try apply clamp_fraction. apply clamp_mono.
    apply (rd_mono _ _ HR). unfold Rdiv. apply Rmult_le_compat_r; [left; now apply Rinv_0_lt_compat|]. apply (rd_mono _ _ HR). lra.
Qed.
Lemma mualem_mono : forall s t m slr sls sgr, rep s -> rep t -> rep slr -> rep sls -> rep sgr -> 0 < m -> slr < sls -> sgr < rd (1 - slr) -> s <= t ->
  ordered (rp_mualem A s m slr sls sgr) (rp_mualem A t m slr sls sgr).
Proof.
  intros s t m slr sls sgr P P' Pr Ps Pg M L N ST.
  destruct (mualem_range s m slr sls sgr) as (kl & kg & E & Fl & Fg); auto; [lra|].
  destruct (mualem_range t m slr sls sgr) as (kl' & kg' & E' & Fl' & Fg'); auto; [lra|].
  exists kl, kg, kl', kg'. split; [easy|]. split; [easy|]. rewrite mualem_eq in E, E'. destruct (Rleb sls t) eqn:H.
  - rewrite c1_1, c0_0 in E'. injection E' as <- <-. split; [apply Fl | apply Fg].
  - apply Rleb_niff in H. rewrite Rleb_false in E by lra.
    destruct (mualem_eff s slr sls P Pr Ps L ltac:(lra)) as (e & He & Le). destruct (mualem_eff t slr sls P' Pr Ps L H) as (e' & He' & Le').
    assert (Me : e <= e') by (apply (ratio_mono slr s t (sub A sls slr)); auto; now apply sub_pos).
    rewrite He in E; rewrite He' in E'; cbn [bind] in E, E'.
    destruct (klm_range m e M Le) as (z & Z & _). destruct (klm_range m e' M Le') as (z' & Z' & _). rewrite Z in E; rewrite Z' in E'; cbn [bind] in E, E'.
    destruct (kgm slr sgr s z) as [w|] eqn:W; [|discriminate]. destruct (kgm slr sgr t z') as [w'|] eqn:W'; [|discriminate].
    cbn [bind] in E, E'. injection E as <- <-. injection E' as <- <-.
    assert (Mz := klm_mono m e e' z z' M Le' Me Z Z'). split; [easy|]. exact (kgm_mono slr sgr s t z z' w w' Pg N ST Mz W W').
Qed.
End Rounded.

(** ** Exact arithmetic *)
Lemma exact_rounding : rounding (fun x => x) (fun _ => True).
Proof. constructor; auto. intros x y _ _ N. lra. Qed.
Definition ex0 : c0 exact = 0 := c0_0 _ _ exact_rounding.
Definition ex1 : c1 exact = 1 := c1_1 _ _ exact_rounding.
Lemma exact_div : forall x y, y <> 0 -> div exact x y = Ok (x / y).
Proof. intros. apply (div_ok (fun x => x)). easy. Qed.

(** the saturation Corey and Grant share *)
Lemma corey_eff : forall sl slr sgr, slr + sgr < 1 -> slr < sl -> sl <= 1 - sgr -> fraction ((sl - slr) / (1 - slr - sgr)).
Proof.
  intros sl slr sgr L L1 L2. assert (D : 0 < 1 - slr - sgr) by lra. split.
  - apply Rmult_le_pos; [lra|]. left. now apply Rinv_0_lt_compat.
  - apply (Rmult_le_reg_r (1 - slr - sgr)); [lra|]. unfold Rdiv. rewrite Rmult_assoc, Rinv_l by lra. lra.
Qed.
(** both models: full flow above, none below, a curve [f], [g] of the effective saturation between *)
Definition piecewise (f g : R -> R) (sl slr sgr : R) : res (R * R) :=
  if Rltb (1 - sl) sgr then Ok (1, 0) else if Rleb (1 - slr) (1 - sl) then Ok (0, 1)
  else let S := (sl - slr) / (1 - slr - sgr) in Ok (f S, g S).
Lemma corey_eq : forall sl slr sgr, slr + sgr < 1 ->
  rp_corey exact sl slr sgr = piecewise (fun S => S ^ 4) (fun S => (1 - S ^ 2) * (1 - S) ^ 2) sl slr sgr.
Proof.
  intros sl slr sgr L. unfold rp_corey, piecewise. rewrite !ex1, ex0. cbn [ltb leb sub exact rounded]. destruct (Rltb (1 - sl) sgr); [reflexivity|].
  destruct (Rleb (1 - slr) (1 - sl)); [reflexivity|]. rewrite exact_div by lra. reflexivity.
Qed.
Lemma grant_eq : forall sl slr sgr, slr + sgr < 1 -> rp_grant exact sl slr sgr = piecewise (fun S => S ^ 4) (fun S => 1 - S ^ 4) sl slr sgr.
Proof.
  intros sl slr sgr L. unfold rp_grant, piecewise. rewrite !ex1, ex0. cbn [ltb leb sub exact rounded]. destruct (Rltb (1 - sl) sgr); [reflexivity|].
  destruct (Rleb (1 - slr) (1 - sl)); [reflexivity|]. rewrite exact_div by lra. reflexivity.
Qed.
Lemma piecewise_range : forall f g sl slr sgr, (forall S, fraction S -> fraction (f S) /\ fraction (g S)) -> slr + sgr < 1 -> fractions (piecewise f g sl slr sgr).
Proof.
  intros f g sl slr sgr H L. unfold piecewise. destruct (Rltb (1 - sl) sgr) eqn:E; [exists 1, 0; repeat split; lra|].
  destruct (Rleb (1 - slr) (1 - sl)) eqn:F; [exists 0, 1; repeat split; lra|]. apply Rltb_niff in E. apply Rleb_niff in F.
  destruct (H _ (corey_eff sl slr sgr L ltac:(lra) ltac:(lra))) as [A B]. eexists _, _. split; [reflexivity|]. split; easy.
Qed.
Lemma piecewise_mono : forall f g s t slr sgr, (forall S, fraction S -> fraction (f S) /\ fraction (g S)) ->
  (forall S T, fraction S -> fraction T -> S <= T -> f S <= f T /\ g T <= g S) -> slr + sgr < 1 -> s <= t ->
  ordered (piecewise f g s slr sgr) (piecewise f g t slr sgr).
Proof.
  intros f g s t slr sgr H M L ST. destruct (piecewise_range f g s slr sgr H L) as (kl & kg & E & Fl & Fg). destruct (piecewise_range f g t slr sgr H L) as (kl' & kg' & E' & Fl' & Fg').
  exists kl, kg, kl', kg'. split; [easy|]. split; [easy|]. unfold piecewise in E, E'.
  destruct (Rltb (1 - t) sgr) eqn:H1; [injection E' as <- <-; split; [apply Fl | apply Fg]|]. apply Rltb_niff in H1. rewrite Rltb_false in E by lra.
  destruct (Rleb (1 - slr) (1 - s)) eqn:H2; [injection E as <- <-; split; [apply Fl' | apply Fg']|]. apply Rleb_niff in H2. rewrite Rleb_false in E' by lra.
  apply ok_inj in E, E'. injection E as <- <-. injection E' as <- <-. apply M; try (apply corey_eff; lra).
  unfold Rdiv. apply Rmult_le_compat_r; [left; apply Rinv_0_lt_compat; lra | lra].
Qed.
Lemma power_fraction : forall x n, fraction x -> fraction (x ^ n).
Proof. intros x n [H H']. split; [now apply pow_le|]. rewrite <- (pow1 n). apply pow_incr. lra. Qed.
Lemma corey_fractions : forall S, fraction S -> fraction (S ^ 4) /\ fraction ((1 - S ^ 2) * (1 - S) ^ 2).
Proof.
  intros S F. split; [now apply power_fraction|]. assert (G := gas_fraction _ _ exact_rounding S F). change (rounded (fun x => x)) with exact in G. rewrite ex1 in G. exact G.
Qed.
Lemma corey_orders : forall S T, fraction S -> fraction T -> S <= T -> S ^ 4 <= T ^ 4 /\ (1 - T ^ 2) * (1 - T) ^ 2 <= (1 - S ^ 2) * (1 - S) ^ 2.
Proof.
  intros S T F F' L. split; [apply pow_incr; split; [apply F | easy]|]. assert (G := gas_mono _ _ exact_rounding S T F F' L). change (rounded (fun x => x)) with exact in G. rewrite ex1 in G. exact G.
Qed.
Lemma grant_fractions : forall S, fraction S -> fraction (S ^ 4) /\ fraction (1 - S ^ 4).
Proof. intros S F. assert (G := power_fraction S 4 F). split; [easy|]. destruct G. split; lra. Qed.
Lemma grant_orders : forall S T, fraction S -> fraction T -> S <= T -> S ^ 4 <= T ^ 4 /\ 1 - T ^ 4 <= 1 - S ^ 4.
Proof. intros S T F F' L. assert (G : S ^ 4 <= T ^ 4) by (apply pow_incr; split; [apply F | easy]). split; lra. Qed.

Lemma verma_mono : forall s t slr sls a b c, slr < sls -> b <= 0 -> b + 2 * c <= 0 -> s <= t ->
  ordered (rp_verma exact s slr sls a b c) (rp_verma exact t slr sls a b c).
Proof.
  intros s t slr sls a b c L B C ST. unfold rp_verma. assert (D : sub exact sls slr <> 0) by (cbn; lra). rewrite !exact_div by exact D. cbn [bind].
  set (S := pymin exact (pymax exact (sub exact s slr / sub exact sls slr) (c0 exact)) (c1 exact)).
  set (T := pymin exact (pymax exact (sub exact t slr / sub exact sls slr) (c0 exact)) (c1 exact)).
  assert (FS : fraction S) by apply (clamp_fraction _ _ exact_rounding). assert (FT : fraction T) by apply (clamp_fraction _ _ exact_rounding).
  assert (M : S <= T).
  { apply (clamp_mono _ _ exact_rounding). unfold Rdiv. apply Rmult_le_compat_r; cbn; [left; apply Rinv_0_lt_compat; lra | lra]. }
  eexists _, _, _, _. split; [reflexivity|]. split; [reflexivity|]. split; [apply (pown_mono _ _ exact_rounding); [apply FS | easy]|].
  apply (clamp_mono _ _ exact_rounding). cbn. destruct FS, FT. assert (b + c * (S + T) <= 0) by nra. nra.
Qed.

(** ** Capillarity *)
Lemma cp_linear_eq : forall sl pmax smin smax, smin < smax ->
  cp_linear exact sl pmax smin smax = Ok (if Rleb sl smin then - pmax else if Rleb smax sl then 0 else - pmax * ((smax - sl) / (smax - smin))).
Proof.
  intros sl pmax smin smax L. unfold cp_linear. rewrite ex0. change (leb exact sl smin) with (Rleb sl smin). change (leb exact smax sl) with (Rleb smax sl).
  destruct (Rleb sl smin); [reflexivity|]. destruct (Rleb smax sl); [reflexivity|]. rewrite exact_div by (cbn; lra). cbn. f_equal. field. lra.
Qed.
Lemma lin_ratio : forall sl smin smax, smin < sl -> sl < smax -> fraction ((smax - sl) / (smax - smin)).
Proof.
  intros sl smin smax L L'. split.
  - apply Rmult_le_pos; [lra|]. left. apply Rinv_0_lt_compat. lra.
  - apply (Rmult_le_reg_r (smax - smin)); [lra|]. unfold Rdiv. rewrite Rmult_assoc, Rinv_l by lra. lra.
Qed.
Lemma cp_linear_range : forall sl pmax smin smax, smin < smax -> 0 <= pmax -> suction pmax (cp_linear exact sl pmax smin smax).
Proof.
  intros sl pmax smin smax L P. rewrite cp_linear_eq by easy. eexists. split; [reflexivity|].
  destruct (Rleb sl smin) eqn:E; [lra|]. destruct (Rleb smax sl) eqn:F; [lra|]. apply Rleb_niff in E, F. destruct (lin_ratio sl smin smax E F). nra.
Qed.
Lemma cp_linear_mono : forall s t pmax smin smax, smin < smax -> 0 <= pmax -> s <= t -> rising (cp_linear exact s pmax smin smax) (cp_linear exact t pmax smin smax).
Proof.
  intros s t pmax smin smax L P ST. rewrite !cp_linear_eq by easy. eexists _, _. split; [reflexivity|]. split; [reflexivity|].
  destruct (Rleb s smin) eqn:E.
  - destruct (Rleb t smin) eqn:E'; [lra|]. destruct (Rleb smax t) eqn:F'; [lra|]. apply Rleb_niff in E', F'. destruct (lin_ratio t smin smax E' F'). nra.
  - apply Rleb_niff in E. rewrite (Rleb_false t smin) by lra. destruct (Rleb smax t) eqn:F'.
    + destruct (Rleb smax s) eqn:F; [lra|]. apply Rleb_niff in F. destruct (lin_ratio s smin smax E F). nra.
    + apply Rleb_niff in F'. rewrite Rleb_false by lra.
      assert ((smax - t) / (smax - smin) <= (smax - s) / (smax - smin)) by (unfold Rdiv; apply Rmult_le_compat_r; [left; apply Rinv_0_lt_compat; lra | lra]). nra.
Qed.
