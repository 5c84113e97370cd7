(** C56-C60: relative permeability and capillarity models. *)
From Coq Require Import ZArith QArith Reals Floats Lra List.
From Verif Require Import Model.Py Model.Curves Spec.Curves Proofs.CurveProof Proofs.CapillaryProof Proofs.CurveClaims.
Import ListNotations.
Local Open Scope R_scope.

(** * C56 *)
(** Linear and Fatt-Klikoff: fractions for every accepted parameters, also in rounded arithmetic *)
Theorem C56_rounded : forall rd rep, rounding rd rep -> forall k args p sl, In k [RpLinear; RpFattKlikoff] -> Forall rep args ->
  rp_new (rounded rd) k args = Ok p -> rep sl -> fraction sl -> fractions (rp_call (rounded rd) k p sl).
Proof. exact fractions_rounded. Qed.
Print Assumptions C56_rounded.

Example C56_rounded_ex : rounding fixed on_grid /\ Forall on_grid [1 / 4; 0; 3 / 4; 1] /\ on_grid (5 / 1024) /\ fraction (5 / 1024) /\
  rp_new (rounded fixed) RpLinear [1 / 4; 0; 3 / 4; 1] = Ok [1 / 4; 0; 3 / 4; 1].
Proof.
  split; [exact fixed_rounding|]. split; [repeat constructor; [exists 256%Z | exists 0%Z | exists 768%Z | exists 1024%Z]; lra|]. split; [exists 5%Z; lra|]. split; [split; lra|].
  unfold rp_new, construct. cbn. rewrite !Rleb_false by lra. reflexivity.
Qed.

(** Corey and Grant too, in exact arithmetic *)
Theorem C56_exact : forall k args p sl, In k [RpLinear; RpCorey; RpGrant; RpFattKlikoff] -> rp_new exact k args = Ok p -> fraction sl ->
  fractions (rp_call exact k p sl).
Proof. exact fractions_exact. Qed.
Print Assumptions C56_exact.

Example C56_exact_ex : rp_new exact RpCorey [1 / 5; 1 / 10] = Ok [1 / 5; 1 / 10] /\ rp_new exact RpCorey [1 / 2; 1 / 2] = Err ValueError.
Proof.
  unfold rp_new, construct. cbn. rewrite RMicromega.Q2R_1. split; [rewrite Rleb_false by lra; reflexivity | rewrite Rleb_true by lra; reflexivity].
Qed.

(** In binary64 the last bits of a Corey or Grant curve leave [0, 1]: Corey(0, 0.54)(0.46)
    is (1.0000000000000009, -2.2e-47) *)
Theorem C56_rounding_refuted : ~ (forall k slr sgr p sl kl kg, In k [RpCorey; RpGrant] -> rp_new binary64 k [slr; sgr] = Ok p ->
  rp_call binary64 k p sl = Ok (kl, kg) -> PrimFloat.leb kl 1 = true /\ PrimFloat.leb 0 kg = true).
Proof.
  intros H. destruct (H RpCorey 0%float 0.54%float [0; 0.54]%float 0.46%float 1.0000000000000009%float (-2.1895288505075267e-47)%float) as [A _].
  - now left.
  - vm_compute. reflexivity.
  - vm_compute. reflexivity.
  - vm_compute in A. discriminate A.
Qed.
Print Assumptions C56_rounding_refuted.

(** Pickens accepts every exponent; exactly the non-negative ones give fractions *)
Theorem C56_pickens : forall rd rep, rounding rd rep -> forall x,
  (forall sl, rep sl -> fraction sl -> fractions (rp_call (rounded rd) RpPickens [x] sl)) <-> 0 <= x.
Proof. exact pickens_fractions. Qed.
Print Assumptions C56_pickens.

(** van Genuchten-Mualem checks nothing: what it needs *)
Theorem C56_mualem : forall rd rep, rounding rd rep -> forall m slr sls sgr sl, Forall rep [slr; sls; sgr; sl] -> 0 < m -> slr < sls -> sgr <> rd (1 - slr) ->
  fraction sl -> fractions (rp_call (rounded rd) RpMualem [m; slr; sls; sgr] sl).
Proof. exact mualem_fractions. Qed.
Print Assumptions C56_mualem.

Example C56_mualem_ex : Forall on_grid [1 / 4; 1; 1 / 16; 1 / 2] /\ 1 / 16 <> fixed (1 - 1 / 4).
Proof.
  split; [repeat constructor; [exists 256%Z | exists 1024%Z | exists 64%Z | exists 512%Z]; lra|]. replace (1 - 1 / 4) with (IZR 768 / 1024) by lra. rewrite fixed_grid. lra.
Qed.

Theorem C56_mualem_refuted : ~ (forall args p sl, rp_new exact RpMualem args = Ok p -> fraction sl -> fractions (rp_call exact RpMualem p sl)).
Proof.
  intros H. destruct (H [0; 0; 1; 0] [0; 0; 1; 0] (1 / 2)) as (kl & kg & E & _); [reflexivity | split; lra |].
  rewrite mualem_zero in E. discriminate E.
Qed.
Print Assumptions C56_mualem_refuted.

(** Verma checks nothing either: two equal saturations are the only trouble *)
Theorem C56_verma : forall rd rep, rounding rd rep -> forall slr sls a b c, rep slr -> rep sls ->
  ((forall sl, rep sl -> fraction sl -> fractions (rp_call (rounded rd) RpVerma [slr; sls; a; b; c] sl)) <-> slr <> sls).
Proof. exact verma_fractions. Qed.
Print Assumptions C56_verma.

(** Saturations outside [0, 1] are refused by every model; arrays are treated element by element *)
Theorem C56_domain : forall rd rep, rounding rd rep -> forall B (eval : R -> list R -> res B) p sl, ~ fraction sl -> call_scalar (rounded rd) eval p sl = Err ValueError.
Proof. intros rd rep H B. exact (call_out rd rep H). Qed.
Print Assumptions C56_domain.

Theorem C56_array : forall (A : arith) B (eval : num A -> list (num A) -> res B) p sl l,
  call_array A eval p sl = Ok l <-> Forall2 (fun s r => call_scalar A eval p s = Ok r) sl l.
Proof. exact array_scalar. Qed.
Print Assumptions C56_array.

Example C56_array_ex : call_array binary64 (rp_eval binary64 RpCorey) [0.25; 0.25]%float [0; 0.5; 1]%float = Ok [(0, 1); (0.0625, 0.1875); (1, 0)]%float /\
  call_array binary64 (rp_eval binary64 RpCorey) [0.25; 0.25]%float [0; 1.5]%float = Err ValueError.
Proof. vm_compute. auto. Qed.

(** * C57 *)
Theorem C57_rounded : forall rd rep, rounding rd rep -> forall k args p s t, In k [RpLinear; RpFattKlikoff] -> Forall rep args -> rp_new (rounded rd) k args = Ok p ->
  rep s -> rep t -> 0 <= s -> s <= t -> t <= 1 -> ordered (rp_call (rounded rd) k p s) (rp_call (rounded rd) k p t).
Proof. exact ordered_rounded. Qed.
Print Assumptions C57_rounded.

Example C57_rounded_ex : rp_new (rounded fixed) RpFattKlikoff [1 / 4] = Ok [1 / 4] /\ on_grid (1 / 4) /\ on_grid (1 / 2) /\ on_grid (3 / 4).
Proof.
  split; [unfold rp_new, construct; cbn; rewrite RMicromega.Q2R_1, (rd1 _ _ fixed_rounding), Rleb_false by lra; reflexivity|].
  repeat split; [exists 256%Z | exists 512%Z | exists 768%Z]; lra.
Qed.

Theorem C57_exact : forall k args p s t, In k [RpLinear; RpCorey; RpGrant; RpFattKlikoff] -> rp_new exact k args = Ok p -> 0 <= s -> s <= t -> t <= 1 ->
  ordered (rp_call exact k p s) (rp_call exact k p t).
Proof. exact ordered_exact. Qed.
Print Assumptions C57_exact.

Theorem C57_pickens : forall rd rep, rounding rd rep -> forall x s t, 0 <= x -> 0 <= s -> s <= t -> t <= 1 ->
  ordered (rp_call (rounded rd) RpPickens [x] s) (rp_call (rounded rd) RpPickens [x] t).
Proof. exact pickens_ordered. Qed.
Print Assumptions C57_pickens.

Theorem C57_mualem : forall rd rep, rounding rd rep -> forall m slr sls sgr s t, Forall rep [slr; sls; sgr; s; t] -> 0 < m -> slr < sls -> sgr < rd (1 - slr) ->
  0 <= s -> s <= t -> t <= 1 -> ordered (rp_call (rounded rd) RpMualem [m; slr; sls; sgr] s) (rp_call (rounded rd) RpMualem [m; slr; sls; sgr] t).
Proof. exact mualem_ordered. Qed.
Print Assumptions C57_mualem.

Example C57_mualem_ex : Forall on_grid [1 / 4; 1; 1 / 16; 1 / 2; 3 / 4] /\ 1 / 16 < fixed (1 - 1 / 4).
Proof.
  split; [repeat constructor; [exists 256%Z | exists 1024%Z | exists 64%Z | exists 512%Z | exists 768%Z]; lra|]. replace (1 - 1 / 4) with (IZR 768 / 1024) by lra. rewrite fixed_grid. lra.
Qed.

Theorem C57_verma : forall slr sls a b c s t, slr < sls -> b <= 0 -> b + 2 * c <= 0 -> 0 <= s -> s <= t -> t <= 1 ->
  ordered (rp_call exact RpVerma [slr; sls; a; b; c] s) (rp_call exact RpVerma [slr; sls; a; b; c] t).
Proof. exact verma_ordered. Qed.
Print Assumptions C57_verma.

(** in particular with its default parameters *)
Theorem C57_default : forall s t p, rp_new exact RpVerma [] = Ok p -> 0 <= s -> s <= t -> t <= 1 ->
  fractions (rp_call exact RpVerma p s) /\ ordered (rp_call exact RpVerma p s) (rp_call exact RpVerma p t).
Proof. exact verma_default. Qed.
Print Assumptions C57_default.

Example C57_default_ex : exists p, rp_new exact RpVerma [] = Ok p.
Proof. eexists. reflexivity. Qed.

Theorem C57_verma_refuted : ~ (forall args p s t, rp_new exact RpVerma args = Ok p -> 0 <= s -> s <= t -> t <= 1 -> ordered (rp_call exact RpVerma p s) (rp_call exact RpVerma p t)).
Proof.
  intros H. destruct (H [0; 1; 0; 1; 0] [0; 1; 0; 1; 0] 0 1) as (kl & kg & kl' & kg' & E & E' & _ & L); [reflexivity | lra | lra | lra |].
  rewrite verma_growing in E, E' by lra. injection E as _ <-. injection E' as _ <-. lra.
Qed.
Print Assumptions C57_verma_refuted.

(** * C58 *)
Theorem C58_capillarity : forall k k', cp_id k = cp_id k' -> k = k'.
Proof. intros [] []; cbn; intros E; try reflexivity; discriminate E. Qed.
Print Assumptions C58_capillarity.

Theorem C58_permeability : forall k k', rp_id k = rp_id k' -> k = k' \/ (k = RpFattKlikoff /\ k' = RpMualem) \/ (k = RpMualem /\ k' = RpFattKlikoff).
Proof. intros [] []; cbn; intros E; try (now left); try (now right; left); try (now right; right); discriminate E. Qed.
Print Assumptions C58_permeability.

Theorem C58_refuted : ~ (forall k k', rp_id k = rp_id k' -> k = k').
Proof. intros H. discriminate (H RpFattKlikoff RpMualem eq_refl). Qed.
Print Assumptions C58_refuted.

(** * C59 *)
Theorem C59_linear : forall args p s t, cp_new exact CpLinear args = Ok p -> 0 <= nth 0 args 0 -> 0 <= s -> s <= t -> t <= 1 ->
  suction (nth 0 args 0) (cp_call exact CpLinear p s) /\ rising (cp_call exact CpLinear p s) (cp_call exact CpLinear p t).
Proof. exact cp_linear_claims. Qed.
Print Assumptions C59_linear.

Example C59_linear_ex : cp_new exact CpLinear [1000; 1 / 4; 3 / 4] = Ok [1000; 1 / 4; 3 / 4].
Proof. unfold cp_new, construct. cbn. rewrite Rleb_false by lra. reflexivity. Qed.

(** TRUST, also in rounded arithmetic *)
Theorem C59_trust : forall rd rep, rounding rd rep -> forall args p sl, gentle rd rep -> Forall rep args -> cp_new (rounded rd) CpTrust args = Ok p -> rep sl -> fraction sl ->
  0 <= nth 0 args 0 -> 0 < nth 2 args 0 -> 0 <= nth 3 args 0 -> suction (Rabs (nth 4 args 0)) (cp_call (rounded rd) CpTrust p sl).
Proof. exact trust_suction. Qed.
Print Assumptions C59_trust.

Theorem C59_trust_rising : forall rd rep, rounding rd rep -> forall args p s t, gentle rd rep -> Forall rep args -> cp_new (rounded rd) CpTrust args = Ok p -> rep s -> rep t ->
  0 <= s -> s <= t -> t <= 1 -> 0 <= nth 0 args 0 -> 0 < nth 2 args 0 -> 0 <= nth 3 args 0 -> rising (cp_call (rounded rd) CpTrust p s) (cp_call (rounded rd) CpTrust p t).
Proof. exact trust_rising. Qed.
Print Assumptions C59_trust_rising.

Example C59_trust_ex : gentle fixed on_grid /\ Forall on_grid [1; 1 / 4; 2; 0; 8] /\ cp_new (rounded fixed) CpTrust [1; 1 / 4; 2; 0; 8] = Ok [1; 1 / 4; 2; 0; 8].
Proof.
  split; [exact fixed_gentle|]. split; [repeat constructor; [exists 1024%Z | exists 256%Z | exists 2048%Z | exists 0%Z | exists 8192%Z]; lra|].
  unfold cp_new, construct. cbn. unfold equal, c0. cbn. rewrite !RMicromega.Q2R_0, !(rd0 _ _ fixed_rounding). rewrite Rltb_false by lra. rewrite (Rleb_false 2 0) by lra. reflexivity.
Qed.

Theorem C59_genuchten : forall m slr alpha pmax sls p s t, cp_new exact CpGenuchten [m; slr; alpha; pmax; sls] = Ok p -> 0 < m <= 1 -> alpha <> 0 ->
  0 <= s -> s <= t -> t <= 1 -> (s <= sls \/ s = 1) -> (t <= sls \/ t = 1) ->
  suction pmax (cp_call exact CpGenuchten p s) /\ rising (cp_call exact CpGenuchten p s) (cp_call exact CpGenuchten p t).
Proof. exact cp_genuchten_claims. Qed.
Print Assumptions C59_genuchten.

Example C59_genuchten_ex : cp_new exact CpGenuchten [1 / 2; 1 / 4; 1; 1000; 1] = Ok [1 / 2; 1 / 4; 1; 1000; 1].
Proof. unfold cp_new, construct. cbn. rewrite RMicromega.Q2R_0, Rltb_false by lra. reflexivity. Qed.

Theorem C59_pickens : forall p0 slr sl0 x p s t, cp_new exact CpPickens [p0; slr; sl0; x] = Ok p -> slr < 999 / 1000 * sl0 -> 0 <= p0 -> 0 <= s -> s <= t -> t <= 1 ->
  not_positive (cp_call exact CpPickens p s) /\ (x < 0 -> rising (cp_call exact CpPickens p s) (cp_call exact CpPickens p t)).
Proof. exact cp_pickens_claims. Qed.
Print Assumptions C59_pickens.

(** with a positive exponent the suction grows with saturation instead *)
Theorem C59_pickens_falls : forall p0 slr sl0 x p s t, cp_new exact CpPickens [p0; slr; sl0; x] = Ok p -> slr < 999 / 1000 * sl0 -> 0 < p0 -> 0 < x ->
  1001 / 1000 * slr <= s -> s < t -> t <= 999 / 1000 * sl0 -> t <= 1 ->
  exists u v, cp_call exact CpPickens p s = Ok u /\ cp_call exact CpPickens p t = Ok v /\ v < u.
Proof. exact cp_pickens_falls. Qed.
Print Assumptions C59_pickens_falls.

Example C59_pickens_ex : cp_new exact CpPickens [1; 1 / 2; 1; -(2)] = Ok [1; 1 / 2; 1; -(2)] /\ 1 / 2 < 999 / 1000 * 1.
Proof. split; [apply pickens_new; lra | lra]. Qed.

Theorem C59_pickens_refuted : ~ (forall args p s t, cp_new exact CpPickens args = Ok p -> 0 <= s -> s <= t -> t <= 1 -> rising (cp_call exact CpPickens p s) (cp_call exact CpPickens p t)).
Proof.
  intros H. destruct (cp_pickens_falls 1 (1 / 2) 1 2 [1; 1 / 2; 1; 2] (6 / 10) (9 / 10) (pickens_new 2 ltac:(lra))) as (u & v & U & V & L); try lra.
  destruct (H [1; 1 / 2; 1; 2] _ (6 / 10) (9 / 10) (pickens_new 2 ltac:(lra))) as (u' & v' & U' & V' & L'); try lra.
  rewrite U in U'; injection U' as <-. rewrite V in V'; injection V' as <-. lra.
Qed.
Print Assumptions C59_pickens_refuted.

Theorem C59_milly : forall slr p s t, cp_new exact CpMilly [slr] = Ok p -> 0 <= s -> s <= t -> t <= 1 -> 0 < slr \/ 0 < s ->
  not_positive (cp_call exact CpMilly p s) /\
  (t - slr < 371 / 1000 \/ 371 / 1000 <= s - slr -> 1001 / 1000 * slr - slr < 371 / 1000 -> rising (cp_call exact CpMilly p s) (cp_call exact CpMilly p t)).
Proof. exact cp_milly_claims. Qed.
Print Assumptions C59_milly.

Example C59_milly_ex : cp_new exact CpMilly [1 / 4] = Ok [1 / 4] /\ 1 / 2 - 1 / 4 < 371 / 1000.
Proof. split; [apply milly_new; lra | lra]. Qed.

(** the pressure falls where the two pieces of Milly's curve meet *)
Theorem C59_milly_refuted : ~ (forall args p s t, cp_new exact CpMilly args = Ok p -> 0 <= s -> s <= t -> t <= 1 -> rising (cp_call exact CpMilly p s) (cp_call exact CpMilly p t)).
Proof.
  intros H. destruct milly_drop as (u & v & U & V & L).
  destruct (H [1 / 2] _ (1 / 2 + 371 / 1000 * (16 / 17)) (9 / 10) (milly_new (1 / 2) ltac:(lra))) as (u' & v' & U' & V' & L'); try lra.
  rewrite U in U'; injection U' as <-. rewrite V in V'; injection V' as <-. lra.
Qed.
Print Assumptions C59_milly_refuted.

(** no irreducible saturation and no liquid: a division by zero *)
Theorem C59_milly_zero_refuted : ~ (forall args p sl, cp_new exact CpMilly args = Ok p -> fraction sl -> exists q, cp_call exact CpMilly p sl = Ok q).
Proof.
  intros H. destruct (H [0] [0] 0 (milly_new 0 ltac:(lra))) as (q & E); [split; lra|]. rewrite milly_zero in E. discriminate E.
Qed.
Print Assumptions C59_milly_zero_refuted.

(** no real value between the maximum saturation and full saturation *)
Theorem C59_genuchten_refuted : ~ (forall args p sl, cp_new exact CpGenuchten args = Ok p -> fraction sl -> exists q, cp_call exact CpGenuchten p sl = Ok q).
Proof.
  intros H. destruct (H [1 / 2; 0; 1; 1; 1 / 4] [1 / 2; 0; 1; 1; 1 / 4] (1 / 2)) as (q & E); [|split; lra|].
  - unfold cp_new, construct. cbn. rewrite RMicromega.Q2R_0, Rltb_false by lra. reflexivity.
  - rewrite vg_complex in E. discriminate E.
Qed.
Print Assumptions C59_genuchten_refuted.

(** positive pressures out of parameters no constructor refuses *)
Theorem C59_sign_refuted : ~ (forall k args p sl q, cp_new exact k args = Ok p -> cp_call exact k p sl = Ok q -> q <= 0).
Proof.
  intros H. assert (L := H CpLinear [-(1); 0; 1] [-(1); 0; 1] 0 1). enough (1 <= 0) by lra. apply L; [|exact cp_linear_positive].
  unfold cp_new, construct. cbn. rewrite Rleb_false by lra. reflexivity.
Qed.
Print Assumptions C59_sign_refuted.

Theorem C59_trust_sign_refuted : ~ (forall args p sl q, cp_new exact CpTrust args = Ok p -> cp_call exact CpTrust p sl = Ok q -> q <= 0).
Proof.
  intros H. destruct trust_positive as (q & E & P). enough (q <= 0) by lra. apply (H [0; 0; 1; -(1); 1] [0; 0; 1; -(1); 1] (1 / 2) q); [|exact E].
  unfold cp_new, construct. cbn. unfold equal, c0. cbn. rewrite !RMicromega.Q2R_0. rewrite Rltb_false by lra. rewrite (Rleb_false 1 0) by lra. reflexivity.
Qed.
Print Assumptions C59_trust_sign_refuted.

(** * C60 *)
(** The number of parameters never changes, and they are always the constructor's or an assigned list *)
Theorem C60_shape : forall (A : arith) n (p : list (num A)) vs, List.length p = n ->
  List.length (updates A n p vs) = n /\ (updates A n p vs = p \/ In (updates A n p vs) vs).
Proof. exact updates_shape. Qed.
Print Assumptions C60_shape.

(** As long as every assigned list of the right length is one the constructor accepts, so is the object *)
Theorem C60_valid : forall (A : arith) k args p vs, rp_new A k args = Ok p ->
  (forall v, In v vs -> List.length v = rp_arity k -> rp_new A k v = Ok v) -> rp_new A k (updates A (rp_arity k) p vs) = Ok (updates A (rp_arity k) p vs).
Proof. intros A k args p vs. exact (updates_valid A (rp_arity k) (rp_defaults A k) (rp_refuses A k) args p vs (defaults_short A k)). Qed.
Print Assumptions C60_valid.

Theorem C60_valid_cp : forall (A : arith) k args p vs, cp_new A k args = Ok p ->
  (forall v, In v vs -> List.length v = cp_arity k -> cp_new A k v = Ok v) -> cp_new A k (updates A (cp_arity k) p vs) = Ok (updates A (cp_arity k) p vs).
Proof. intros A k args p vs. exact (updates_valid A (cp_arity k) [] (cp_refuses A k) args p vs (Nat.le_0_l _)). Qed.
Print Assumptions C60_valid_cp.

Example C60_valid_ex : rp_new binary64 RpCorey [0.25; 0.25]%float = Ok [0.25; 0.25]%float /\
  updates binary64 2 [0.25; 0.25]%float [[0.5]; [0.5; 0.125]]%float = [0.5; 0.125]%float /\ rp_new binary64 RpCorey [0.5; 0.125]%float = Ok [0.5; 0.125]%float.
Proof. vm_compute. auto. Qed.

(** The setters do not check: an object can hold what its constructor refuses *)
Theorem C60_refuted : ~ (forall k args p vs, rp_new binary64 k args = Ok p -> rp_new binary64 k (updates binary64 (rp_arity k) p vs) <> Err ValueError).
Proof. intros H. apply (H RpCorey [0.25; 0.25]%float [0.25; 0.25]%float [[0.75; 0.5]]%float); vm_compute; reflexivity. Qed.
Print Assumptions C60_refuted.

(** and then fail when called: TRUST with eta = 0 *)
Theorem C60_call_refuted : ~ (forall k args p vs sl, cp_new exact k args = Ok p -> fraction sl -> cp_call exact k (updates exact (cp_arity k) p vs) sl <> Err ZeroDivisionError).
Proof.
  intros H. apply (H CpTrust [1; 0; 1; 0; 1] [1; 0; 1; 0; 1] [[1; 0; 0; 0; 1]] (1 / 2)); [|split; lra|].
  - unfold cp_new, construct. cbn. unfold equal, c0. cbn. rewrite !RMicromega.Q2R_0. rewrite Rltb_false by lra. rewrite (Rleb_false 1 0) by lra. reflexivity.
  - exact trust_crash.
Qed.
Print Assumptions C60_call_refuted.
