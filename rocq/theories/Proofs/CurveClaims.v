(** The properties of the curve classes, from the lemmas on each curve. *)
From Coq Require Import ZArith QArith Qreals Reals Floats Lra Lia Bool List.
From Verif Require Import Model.Py Model.Curves Spec.Curves Proofs.CurveProof Proofs.CapillaryProof.
Import ListNotations.
Local Open Scope R_scope.

(** ** Calling and constructing *)
Section Rounded.
Context (rd : R -> R) (rep : R -> Prop) (HR : rounding rd rep).
Let A := rounded rd.
Lemma k1 : c1 A = 1. Proof. exact (c1_1 _ _ HR). Qed.
Lemma k0 : c0 A = 0. Proof. exact (c0_0 _ _ HR). Qed.
Lemma call_in : forall {B} (eval : R -> list R -> res B) p sl, fraction sl -> call_scalar A eval p sl = eval sl p.
Proof.
  intros B eval p sl [H H']. unfold call_scalar. rewrite k1, k0. change (leb A 0 sl && leb A sl 1)%bool with (Rleb 0 sl && Rleb sl 1)%bool.
  now rewrite !Rleb_true.
Qed.
Lemma call_out : forall {B} (eval : R -> list R -> res B) p sl, ~ fraction sl -> call_scalar A eval p sl = Err ValueError.
Proof.
  intros B eval p sl H. unfold call_scalar. rewrite k1, k0. change (leb A 0 sl && leb A sl 1)%bool with (Rleb 0 sl && Rleb sl 1)%bool.
  destruct (Rleb 0 sl) eqn:E; [|reflexivity]. destruct (Rleb sl 1) eqn:F; [|reflexivity]. apply Rleb_iff in E, F. exfalso. apply H. now split.
Qed.
Lemma new_args : forall k args p, rp_new A k args = Ok p -> k <> RpVerma -> p = args /\ List.length args = rp_arity k /\ rp_refuses A k args = false.
Proof.
  intros k args p E N. unfold rp_new, construct in E. assert (D : rp_defaults A k = []) by (destruct k; try reflexivity; now elim N).
  rewrite D, skipn_nil, app_nil_r in E. destruct (List.length args =? rp_arity k)%nat eqn:L; [|discriminate]. apply Nat.eqb_eq in L. cbn [negb] in E.
  destruct (rp_refuses A k args) eqn:F; [discriminate|]. unfold set_parameters in E. rewrite L, Nat.eqb_refl in E. cbn [negb] in E. injection E as <-. auto.
Qed.
Lemma cp_new_args : forall k args p, cp_new A k args = Ok p -> p = args /\ List.length args = cp_arity k /\ cp_refuses A k args = false.
Proof.
  intros k args p E. unfold cp_new, construct in E. rewrite skipn_nil, app_nil_r in E. destruct (List.length args =? cp_arity k)%nat eqn:L; [|discriminate].
  apply Nat.eqb_eq in L. cbn [negb] in E. destruct (cp_refuses A k args) eqn:F; [discriminate|]. unfold set_parameters in E. rewrite L, Nat.eqb_refl in E. cbn [negb] in E. injection E as <-. auto.
Qed.
Ltac listed := repeat match goal with
  | L : List.length ?l = S _ |- _ => destruct l as [|? ?]; [discriminate L | cbn in L; injection L as L]
  | L : List.length ?l = O |- _ => destruct l; [|discriminate L] end.
Lemma linear_params : forall args p, rp_new A RpLinear args = Ok p -> exists a b c d, p = [a; b; c; d] /\ args = [a; b; c; d] /\ a < c /\ b < d.
Proof.
  intros args p E. apply new_args in E; [|discriminate]. destruct E as (-> & L & F). cbn in L. listed. cbn in F. apply orb_false_iff in F. destruct F as [F1 F2].
  apply Rleb_niff in F1, F2. repeat eexists; auto.
Qed.
Lemma klikoff_params : forall args p, rp_new A RpFattKlikoff args = Ok p -> exists a, p = [a] /\ args = [a] /\ a < 1.
Proof.
  intros args p E. apply new_args in E; [|discriminate]. destruct E as (-> & L & F). cbn in L. listed. unfold rp_refuses in F. rewrite k1 in F.
  apply Rleb_niff in F. repeat eexists; auto.
Qed.
Lemma residual_params : forall k args p, (k = RpCorey \/ k = RpGrant) -> rp_new A k args = Ok p -> exists a b, p = [a; b] /\ args = [a; b] /\ rd (a + b) < 1.
Proof.
  intros k args p K E. assert (N : k <> RpVerma) by (destruct K as [->| ->]; discriminate). apply new_args in E; [|easy]. destruct E as (-> & L & F).
  assert (L' : List.length args = 2%nat) by (destruct K as [->| ->]; exact L). clear L. destruct args as [|a [|b [|? ?]]]; try discriminate L'.
  assert (F' : leb A (c1 A) (add A a b) = false) by (destruct K as [->| ->]; exact F). rewrite k1 in F'. apply Rleb_niff in F'. repeat eexists; auto.
Qed.
Lemma pickens_params : forall args p, rp_new A RpPickens args = Ok p -> exists x, p = [x] /\ args = [x].
Proof. intros args p E. apply new_args in E; [|discriminate]. destruct E as (-> & L & F). cbn in L. listed. repeat eexists; auto. Qed.

Theorem fractions_rounded : forall k args p sl, In k [RpLinear; RpFattKlikoff] -> Forall rep args -> rp_new A k args = Ok p -> rep sl -> fraction sl ->
  fractions (rp_call A k p sl).
Proof.
  intros k args p sl K P E Ps F. unfold rp_call. rewrite (call_in _ _ _ F). destruct K as [<-|[<-|[]]].
  - destruct (linear_params _ _ E) as (a & b & c & d & -> & -> & L & L'). repeat match goal with H : Forall _ (_ :: _) |- _ => inversion H; clear H; subst end. now apply (linear_range _ _ HR).
  - destruct (klikoff_params _ _ E) as (a & -> & -> & L). repeat match goal with H : Forall _ (_ :: _) |- _ => inversion H; clear H; subst end. apply (fk_range _ _ HR); auto. apply F.
Qed.
Theorem ordered_rounded : forall k args p s t, In k [RpLinear; RpFattKlikoff] -> Forall rep args -> rp_new A k args = Ok p -> rep s -> rep t -> 0 <= s -> s <= t -> t <= 1 ->
  ordered (rp_call A k p s) (rp_call A k p t).
Proof.
  intros k args p s t K P E Ps Pt L0 L L1. assert (Fs : fraction s) by (split; lra). assert (Ft : fraction t) by (split; lra). unfold rp_call. rewrite (call_in _ _ _ Fs), (call_in _ _ _ Ft).
  destruct K as [<-|[<-|[]]].
  - destruct (linear_params _ _ E) as (a & b & c & d & -> & -> & M & M'). repeat match goal with H : Forall _ (_ :: _) |- _ => inversion H; clear H; subst end. now apply (linear_mono _ _ HR).
  - destruct (klikoff_params _ _ E) as (a & -> & -> & M). repeat match goal with H : Forall _ (_ :: _) |- _ => inversion H; clear H; subst end. now apply (fk_mono _ _ HR).
Qed.
Theorem pickens_fractions : forall x, (forall sl, rep sl -> fraction sl -> fractions (rp_call A RpPickens [x] sl)) <-> 0 <= x.
Proof.
  intros x. split.
  - intros H. destruct (Rle_dec 0 x) as [|N]; [easy|]. exfalso. specialize (H 0 (rep_0 _ _ HR) fraction_0). unfold rp_call in H. rewrite (call_in _ _ _ fraction_0) in H.
    destruct H as (kl & kg & E & _). cbn in E. unfold rp_pickens in E. cbn in E. unfold real_pow in E. destruct (Req_EM_T x 0); [lra|]. destruct (Req_EM_T 0 0); [|lra]. rewrite Rltb_true in E by lra. discriminate E.
  - intros X sl _ F. unfold rp_call. rewrite (call_in _ _ _ F). now apply (pickens_range _ _ HR).
Qed.
Theorem pickens_ordered : forall x s t, 0 <= x -> 0 <= s -> s <= t -> t <= 1 -> ordered (rp_call A RpPickens [x] s) (rp_call A RpPickens [x] t).
Proof. intros x s t X L0 L L1. unfold rp_call. rewrite !call_in by (split; lra). now apply (pickens_mono _ _ HR). Qed.
Theorem mualem_fractions : forall m slr sls sgr sl, Forall rep [slr; sls; sgr; sl] -> 0 < m -> slr < sls -> sgr <> rd (1 - slr) -> fraction sl ->
  fractions (rp_call A RpMualem [m; slr; sls; sgr] sl).
Proof.
  intros m slr sls sgr sl P M L N F. unfold rp_call. rewrite (call_in _ _ _ F). repeat match goal with H : Forall _ (_ :: _) |- _ => inversion H; clear H; subst end. now apply (mualem_range _ _ HR).
Qed.
Theorem mualem_ordered : forall m slr sls sgr s t, Forall rep [slr; sls; sgr; s; t] -> 0 < m -> slr < sls -> sgr < rd (1 - slr) -> 0 <= s -> s <= t -> t <= 1 ->
  ordered (rp_call A RpMualem [m; slr; sls; sgr] s) (rp_call A RpMualem [m; slr; sls; sgr] t).
Proof.
  intros m slr sls sgr s t P M L N L0 ST L1. unfold rp_call. rewrite !call_in by (split; lra). repeat match goal with H : Forall _ (_ :: _) |- _ => inversion H; clear H; subst end. now apply (mualem_mono _ _ HR).
Qed.
Theorem verma_fractions : forall slr sls a b c, rep slr -> rep sls ->
  ((forall sl, rep sl -> fraction sl -> fractions (rp_call A RpVerma [slr; sls; a; b; c] sl)) <-> slr <> sls).
Proof.
  intros slr sls a b c P P'. split.
  - intros H E. subst sls. specialize (H 0 (rep_0 _ _ HR) fraction_0). unfold rp_call in H. rewrite (call_in _ _ _ fraction_0) in H. destruct H as (kl & kg & E & _).
    cbn in E. unfold rp_verma in E. cbn in E. replace (slr - slr) with 0 in E by lra. rewrite (rd0 _ _ HR) in E. destruct (Req_EM_T 0 0); [discriminate E | lra].
  - intros N sl _ F. unfold rp_call. rewrite (call_in _ _ _ F). now apply (verma_range _ _ HR).
Qed.
Theorem trust_suction : forall args p sl, gentle rd rep -> Forall rep args -> cp_new A CpTrust args = Ok p -> rep sl -> fraction sl ->
  0 <= nth 0 args 0 -> 0 < nth 2 args 0 -> 0 <= nth 3 args 0 -> suction (Rabs (nth 4 args 0)) (cp_call A CpTrust p sl).
Proof.
  intros args p sl G P E Ps F H0 H2 H3. apply cp_new_args in E. destruct E as (-> & L & _). cbn in L. listed. repeat match goal with H : Forall _ (_ :: _) |- _ => inversion H; clear H; subst end.
  unfold cp_call. rewrite (call_in _ _ _ F). apply (trust_range _ _ HR G); auto. apply F.
Qed.
Theorem trust_rising : forall args p s t, gentle rd rep -> Forall rep args -> cp_new A CpTrust args = Ok p -> rep s -> rep t -> 0 <= s -> s <= t -> t <= 1 ->
  0 <= nth 0 args 0 -> 0 < nth 2 args 0 -> 0 <= nth 3 args 0 -> rising (cp_call A CpTrust p s) (cp_call A CpTrust p t).
Proof.
  intros args p s t G P E Ps Pt L0 L1 L2 H0 H2 H3. apply cp_new_args in E. destruct E as (-> & L & _). cbn in L. listed. repeat match goal with H : Forall _ (_ :: _) |- _ => inversion H; clear H; subst end.
  unfold cp_call. rewrite !call_in by (split; lra). apply (trust_mono _ _ HR G); auto.
Qed.
End Rounded.

(** Arrays are treated element by element, in any arithmetic *)
Theorem array_scalar : forall (A : arith) B (eval : num A -> list (num A) -> res B) p sl l,
  call_array A eval p sl = Ok l <-> Forall2 (fun s r => call_scalar A eval p s = Ok r) sl l.
Proof.
  intros A B eval p sl l. unfold call_array.
  destruct (forallb (fun s => leb A (c0 A) s) sl && forallb (fun s => leb A s (c1 A)) sl)%bool eqn:E.
  - apply andb_true_iff in E. destruct E as [E F]. rewrite forallb_forall in E, F. revert l. induction sl as [|s sl IH]; intros l; cbn.
    + split; [intros H; injection H as <-; constructor | intros H; inversion H; reflexivity].
    + assert (G : call_scalar A eval p s = eval s p) by (unfold call_scalar; rewrite (E s (or_introl eq_refl)), (F s (or_introl eq_refl)); reflexivity).
      assert (IH' := IH (fun x H => E x (or_intror H)) (fun x H => F x (or_intror H))). split.
      * destruct (eval s p) as [r|] eqn:R; [|discriminate]. cbn. destruct (mapM (fun s => eval s p) sl) as [l'|] eqn:M; [|discriminate]. cbn. intros H; injection H as <-.
        constructor; [now rewrite G | now apply IH'].
      * intros H. inversion H as [|? r ? l' H1 H2]; subst. rewrite G in H1. rewrite H1. cbn. apply IH' in H2. rewrite H2. reflexivity.
  - split; [discriminate|]. intros H. exfalso. apply andb_false_iff in E.
    assert (C : Forall (fun s => leb A (c0 A) s = true /\ leb A s (c1 A) = true) sl).
    { clear E. induction H as [|s r l0 l1 H1 H2 IH]; constructor; [|easy].
      unfold call_scalar in H1. destruct (leb A (c0 A) s); [|discriminate]. destruct (leb A s (c1 A)); [easy | discriminate]. }
    rewrite Forall_forall in C.
    destruct E as [E|E]; [assert (T : forallb (fun s => leb A (c0 A) s) sl = true) by (apply forallb_forall; intros s I; apply (C s I)) |
      assert (T : forallb (fun s => leb A s (c1 A)) sl = true) by (apply forallb_forall; intros s I; apply (C s I))]; rewrite T in E; discriminate E.
Qed.

(** ** Exact arithmetic *)
Theorem fractions_exact : forall k args p sl, In k [RpLinear; RpCorey; RpGrant; RpFattKlikoff] -> rp_new exact k args = Ok p -> fraction sl -> fractions (rp_call exact k p sl).
Proof.
  intros k args p sl K E F. destruct (In_dec (fun x y : rp_model => ltac:(decide equality) : {x = y} + {x <> y}) k [RpLinear; RpFattKlikoff]) as [I|N].
  - apply (fractions_rounded _ _ exact_rounding k args p sl); auto. apply Forall_forall. auto.
  - assert (K' : k = RpCorey \/ k = RpGrant) by (cbn in *; intuition (subst; auto)). destruct (residual_params _ _ exact_rounding k args p K' E) as (a & b & -> & -> & L).
    unfold rp_call. rewrite (call_in _ _ exact_rounding _ _ _ F). destruct K' as [->| ->]; cbn [rp_eval].
    + rewrite corey_eq by exact L. apply piecewise_range; [apply corey_fractions | exact L].
    + rewrite grant_eq by exact L. apply piecewise_range; [apply grant_fractions | exact L].
Qed.
Theorem ordered_exact : forall k args p s t, In k [RpLinear; RpCorey; RpGrant; RpFattKlikoff] -> rp_new exact k args = Ok p -> 0 <= s -> s <= t -> t <= 1 ->
  ordered (rp_call exact k p s) (rp_call exact k p t).
Proof.
  intros k args p s t K E L0 ST L1. destruct (In_dec (fun x y : rp_model => ltac:(decide equality) : {x = y} + {x <> y}) k [RpLinear; RpFattKlikoff]) as [I|N].
  - apply (ordered_rounded _ _ exact_rounding k args p s t); auto. apply Forall_forall. auto.
  - assert (K' : k = RpCorey \/ k = RpGrant) by (cbn in *; intuition (subst; auto)). destruct (residual_params _ _ exact_rounding k args p K' E) as (a & b & -> & -> & L).
    unfold rp_call. rewrite !(call_in _ _ exact_rounding) by (split; lra). destruct K' as [->| ->]; cbn [rp_eval].
    + rewrite !corey_eq by exact L. apply piecewise_mono; auto; [apply corey_fractions | apply corey_orders].
    + rewrite !grant_eq by exact L. apply piecewise_mono; auto; [apply grant_fractions | apply grant_orders].
Qed.
Theorem verma_ordered : forall slr sls a b c s t, slr < sls -> b <= 0 -> b + 2 * c <= 0 -> 0 <= s -> s <= t -> t <= 1 ->
  ordered (rp_call exact RpVerma [slr; sls; a; b; c] s) (rp_call exact RpVerma [slr; sls; a; b; c] t).
Proof. intros slr sls a b c s t L B C L0 ST L1. unfold rp_call. rewrite !(call_in _ _ exact_rounding) by (split; lra). now apply verma_mono. Qed.
Theorem verma_default : forall s t p, rp_new exact RpVerma [] = Ok p -> 0 <= s -> s <= t -> t <= 1 ->
  fractions (rp_call exact RpVerma p s) /\ ordered (rp_call exact RpVerma p s) (rp_call exact RpVerma p t).
Proof.
  intros s t p E L0 ST L1. cbn in E. injection E as <-. change (rounded (fun x => x)) with exact. unfold Q2R; cbn. split.
  - apply (verma_fractions _ _ exact_rounding); auto; [lra | split; lra].
  - apply verma_ordered; lra.
Qed.
Theorem cp_linear_claims : forall args p s t, cp_new exact CpLinear args = Ok p -> 0 <= nth 0 args 0 -> 0 <= s -> s <= t -> t <= 1 ->
  suction (nth 0 args 0) (cp_call exact CpLinear p s) /\ rising (cp_call exact CpLinear p s) (cp_call exact CpLinear p t).
Proof.
  intros args p s t E P L0 ST L1. destruct (cp_new_args _ _ _ _ E) as (-> & L & F). cbn in L. destruct args as [|a [|b [|c [|? ?]]]]; try discriminate L.
  cbn in F. apply Rleb_niff in F. cbn [nth] in P. unfold cp_call. rewrite !(call_in _ _ exact_rounding) by (split; lra). cbn [cp_eval nth]. split.
  - now apply cp_linear_range.
  - now apply cp_linear_mono.
Qed.
Theorem cp_genuchten_claims : forall m slr alpha pmax sls p s t, cp_new exact CpGenuchten [m; slr; alpha; pmax; sls] = Ok p -> 0 < m <= 1 -> alpha <> 0 ->
  0 <= s -> s <= t -> t <= 1 -> (s <= sls \/ s = 1) -> (t <= sls \/ t = 1) ->
  suction pmax (cp_call exact CpGenuchten p s) /\ rising (cp_call exact CpGenuchten p s) (cp_call exact CpGenuchten p t).
Proof.
  intros m slr alpha pmax sls p s t E M N L0 ST L1 Ds Dt. destruct (cp_new_args _ _ _ _ E) as (-> & _ & F). cbn in F. rewrite RMicromega.Q2R_0 in F. apply Rltb_niff in F.
  unfold cp_call. rewrite !(call_in _ _ exact_rounding) by (split; lra). cbn [cp_eval]. rewrite <- (Rabs_right pmax) at 1 by lra. split; [apply vg_range; auto; lra|].
  apply vg_mono; auto. destruct Dt as [D|D]; [now left | right; split; auto].
Qed.
Lemma pickens_accepted : forall p0 slr sl0 x p, cp_new exact CpPickens [p0; slr; sl0; x] = Ok p -> p = [p0; slr; sl0; x] /\ 0 < slr < 1 /\ 1 <= sl0 /\ x <> 0.
Proof.
  intros p0 slr sl0 x p E. destruct (cp_new_args _ _ _ _ E) as (-> & _ & F). unfold cp_refuses in F. change (rounded (fun x => x)) with exact in F. unfold equal in F. rewrite ex1, ex0 in F.
  apply orb_false_iff in F. destruct F as [F F3]. apply orb_false_iff in F. destruct F as [F1 F2].
  apply negb_false_iff, andb_true_iff in F1. destruct F1 as [F1 F1']. apply Rltb_iff in F1, F1'. apply Rltb_niff in F2. split; [easy|]. split; [easy|]. split; [easy|].
  intros ->. assert (T : (leb exact 0 0 && leb exact 0 0)%bool = true) by (change (Rleb 0 0 && Rleb 0 0 = true)%bool; rewrite Rleb_true by lra; reflexivity). rewrite T in F3. discriminate.
Qed.
Theorem cp_pickens_claims : forall p0 slr sl0 x p s t, cp_new exact CpPickens [p0; slr; sl0; x] = Ok p -> slr < 999 / 1000 * sl0 -> 0 <= p0 -> 0 <= s -> s <= t -> t <= 1 ->
  not_positive (cp_call exact CpPickens p s) /\ (x < 0 -> rising (cp_call exact CpPickens p s) (cp_call exact CpPickens p t)).
Proof.
  intros p0 slr sl0 x p s t E H P L0 ST L1. destruct (pickens_accepted _ _ _ _ _ E) as (-> & [H0 _] & H1 & N). unfold cp_call. rewrite !(call_in _ _ exact_rounding) by (split; lra). cbn [cp_eval]. split.
  - now apply pk_nonpos.
  - intros X. now apply pk_rising.
Qed.
Theorem cp_pickens_falls : forall p0 slr sl0 x p s t, cp_new exact CpPickens [p0; slr; sl0; x] = Ok p -> slr < 999 / 1000 * sl0 -> 0 < p0 -> 0 < x ->
  1001 / 1000 * slr <= s -> s < t -> t <= 999 / 1000 * sl0 -> t <= 1 ->
  exists u v, cp_call exact CpPickens p s = Ok u /\ cp_call exact CpPickens p t = Ok v /\ v < u.
Proof.
  intros p0 slr sl0 x p s t E H P X L0 ST L1 L2. destruct (pickens_accepted _ _ _ _ _ E) as (-> & [H0 _] & H1 & N). unfold cp_call. rewrite !(call_in _ _ exact_rounding) by (split; lra). cbn [cp_eval].
  now apply pk_falling.
Qed.
Theorem cp_milly_claims : forall slr p s t, cp_new exact CpMilly [slr] = Ok p -> 0 <= s -> s <= t -> t <= 1 -> 0 < slr \/ 0 < s ->
  not_positive (cp_call exact CpMilly p s) /\
  (t - slr < 371 / 1000 \/ 371 / 1000 <= s - slr -> 1001 / 1000 * slr - slr < 371 / 1000 -> rising (cp_call exact CpMilly p s) (cp_call exact CpMilly p t)).
Proof.
  intros slr p s t E L0 ST L1 D. destruct (cp_new_args _ _ _ _ E) as (-> & _ & F). cbn in F. rewrite RMicromega.Q2R_0 in F. apply Rltb_niff in F.
  unfold cp_call. rewrite !(call_in _ _ exact_rounding) by (split; lra). cbn [cp_eval].
  assert (D' : slr < s \/ 0 < slr) by (destruct D; [now right | destruct (Rlt_dec slr s); [now left | right; lra]]). split; [now apply milly_nonpos|].
  intros B C. apply milly_rising; auto. unfold milly_d. destruct B as [B|B]; [left | right].
  - unfold Rmax. destruct (Rle_dec t (1001 / 1000 * slr)); lra.
  - assert (M := Rmax_l s (1001 / 1000 * slr)). lra.
Qed.

(** ** Histories *)
Theorem updates_shape : forall (A : arith) n (p : list (num A)) vs, List.length p = n ->
  List.length (updates A n p vs) = n /\ (updates A n p vs = p \/ In (updates A n p vs) vs).
Proof.
  intros A n p vs. revert p. induction vs as [|v vs IH]; intros p L; cbn; [auto|]. unfold set_parameters. destruct (List.length v =? n)%nat eqn:E; cbn [negb].
  - apply Nat.eqb_eq in E. destruct (IH v E) as [H [H'|H']]; split; auto.
  - destruct (IH p L) as [H [H'|H']]; split; auto.
Qed.
Lemma new_ok : forall (A : arith) n d (r : list (num A) -> bool) p, List.length p = n -> (List.length d <= n)%nat -> (construct A n d r p = Ok p <-> r p = false).
Proof.
  intros A n d r p L D. unfold construct. rewrite skipn_all2 by lia. rewrite app_nil_r, L, Nat.eqb_refl. cbn [negb]. unfold set_parameters. rewrite L, Nat.eqb_refl. cbn [negb].
  destruct (r p); split; congruence.
Qed.
Lemma defaults_short : forall A k, (List.length (rp_defaults A k) <= rp_arity k)%nat.
Proof. intros A k. destruct k; cbn; lia. Qed.
Lemma construct_ok : forall (A : arith) n d (r : list (num A) -> bool) args p, construct A n d r args = Ok p -> List.length p = n /\ r p = false.
Proof.
  intros A n d r args p. unfold construct. destruct (List.length (args ++ skipn (List.length args) d) =? n)%nat eqn:E; [|discriminate]. apply Nat.eqb_eq in E. cbn [negb].
  destruct (r (args ++ skipn (List.length args) d)) eqn:F; [discriminate|]. unfold set_parameters. rewrite E, Nat.eqb_refl. cbn. intros H; injection H as <-. auto.
Qed.
(** an object is valid as long as only lists the constructor accepts are assigned *)
Theorem updates_valid : forall (A : arith) n d (r : list (num A) -> bool) args p vs, (List.length d <= n)%nat -> construct A n d r args = Ok p ->
  (forall v, In v vs -> List.length v = n -> construct A n d r v = Ok v) -> construct A n d r (updates A n p vs) = Ok (updates A n p vs).
Proof.
  intros A n d r args p vs D E H. destruct (construct_ok _ _ _ _ _ _ E) as [L F]. destruct (updates_shape A n p vs L) as [L' [->|I]].
  - now apply new_ok.
  - now apply H.
Qed.

(** ** Witnesses *)
(** Fixed point arithmetic with ten binary digits, rounding down *)
Definition fixed (x : R) : R := IZR (Int_part (x * 1024)) / 1024.
Definition on_grid (x : R) : Prop := exists z : Z, x = IZR z / 1024.
Lemma int_part_le : forall x y, x <= y -> (Int_part x <= Int_part y)%Z.
Proof.
  intros x y L. destruct (base_Int_part x) as [A B]. destruct (base_Int_part y) as [C D]. apply Znot_gt_le. intros G.
  assert (H : IZR (Int_part y) + 1 <= IZR (Int_part x)) by (rewrite <- plus_IZR; apply IZR_le; lia). lra.
Qed.
Lemma int_part_IZR : forall z, Int_part (IZR z) = z.
Proof.
  intros z. destruct (base_Int_part (IZR z)) as [A B]. apply le_IZR in A. apply Z.le_antisymm; [easy|].
  assert (H : IZR z < IZR (Int_part (IZR z) + 1)) by (rewrite plus_IZR; lra). apply lt_IZR in H. lia.
Qed.
Lemma fixed_grid : forall z, fixed (IZR z / 1024) = IZR z / 1024.
Proof. intros z. unfold fixed. replace (IZR z / 1024 * 1024) with (IZR z) by field. now rewrite int_part_IZR. Qed.
Lemma fixed_rounding : rounding fixed on_grid.
Proof.
  constructor.
  - intros x y L. unfold fixed. apply Rmult_le_compat_r; [lra|]. apply IZR_le, int_part_le. lra.
  - intros x [z ->]. apply fixed_grid.
  - intros x. eexists. reflexivity.
  - exists 0%Z. lra.
  - exists 1024%Z. lra.
  - intros x [z ->]. exists (- z)%Z. rewrite opp_IZR. lra.
  - intros x y [z ->] [w ->] N. replace (IZR w / 1024 - IZR z / 1024) with (IZR (w - z) / 1024) by (rewrite minus_IZR; lra). rewrite fixed_grid.
    rewrite minus_IZR. intros H. apply N. lra.
Qed.
Lemma fixed_gentle : gentle fixed on_grid.
Proof.
  assert (E : fixed (1 / 1000) = 1 / 1024).
  { unfold fixed. replace (Int_part (1 / 1000 * 1024)) with 1%Z; [reflexivity|]. symmetry. destruct (base_Int_part (1 / 1000 * 1024)) as [A B].
    assert (H : (Int_part (1 / 1000 * 1024) < 2)%Z) by (apply lt_IZR; lra). assert (H' : (0 < Int_part (1 / 1000 * 1024))%Z) by (apply lt_IZR; lra). lia. }
  assert (F : fixed (999 / 1000) = 1022 / 1024).
  { unfold fixed. replace (Int_part (999 / 1000 * 1024)) with 1022%Z; [reflexivity|]. symmetry. destruct (base_Int_part (999 / 1000 * 1024)) as [A B].
    assert (H : (Int_part (999 / 1000 * 1024) < 1023)%Z) by (apply lt_IZR; lra). assert (H' : (1021 < Int_part (999 / 1000 * 1024))%Z) by (apply lt_IZR; lra). lia. }
  split; [rewrite E; lra|]. intros s [z ->] H. rewrite F in H. assert (Z : (1022 < z)%Z) by (apply lt_IZR; lra). rewrite E.
  replace (1 - IZR z / 1024) with (IZR (1024 - z) / 1024) by (rewrite minus_IZR; lra). rewrite fixed_grid. assert (IZR (1024 - z) <= 1) by (apply IZR_le; lia). lra.
Qed.

Lemma exact_pow1 : forall x, 0 < x -> real_pow x 1 = Ok x.
Proof. intros x H. unfold real_pow. destruct (Req_EM_T 1 0); [lra|]. destruct (Req_EM_T x 0); [lra|]. rewrite Rltb_true by lra. now rewrite Rpower_1. Qed.

(** van Genuchten-Mualem with a zero exponent *)
Lemma mualem_zero : rp_call exact RpMualem [0; 0; 1; 0] (1 / 2) = Err ZeroDivisionError.
Proof.
  unfold rp_call. rewrite (call_in _ _ exact_rounding) by (split; lra). cbn [rp_eval]. assert (M := mualem_eq (fun x => x)). change (rounded (fun x => x)) with exact in M. rewrite M.
  rewrite Rleb_false by lra. rewrite exact_div by (cbn; lra). cbn [bind]. unfold klm. change (rounded (fun x => x)) with exact. rewrite ex0, ex1.
  change (ltb exact 0 (sub exact (1 / 2) 0 / sub exact 1 0)) with (Rltb 0 ((1 / 2 - 0) / (1 - 0))). rewrite Rltb_true by lra.
  destruct (real_pow_up ((1 / 2 - 0) / (1 - 0)) (Q2R (Qmake 1 2))) as (z & E & _); [lra | unfold Q2R; cbn; lra |].
  change (pow exact (sub exact (1 / 2) 0 / sub exact 1 0) (cst exact (Qmake 1 2))) with (let* z := real_pow ((1 / 2 - 0) / (1 - 0)) (Q2R (Qmake 1 2)) in Ok z). rewrite E. cbn [bind].
  cbn. destruct (Req_EM_T 0 0); [reflexivity | lra].
Qed.
(** Verma with a growing gas curve *)
Lemma verma_growing : forall s, 0 <= s <= 1 -> rp_call exact RpVerma [0; 1; 0; 1; 0] s = Ok (s ^ 3, s).
Proof.
  intros s H. unfold rp_call. rewrite (call_in _ _ exact_rounding) by easy. cbn [rp_eval]. unfold rp_verma. rewrite exact_div by (cbn; lra). cbn [bind].
  assert (C : forall x, 0 <= x <= 1 -> pymin exact (pymax exact x (c0 exact)) (c1 exact) = x).
  { intros x Hx. unfold pymin, pymax. rewrite ex0, ex1. change (ltb exact x 0) with (Rltb x 0). rewrite (Rltb_false x 0) by lra. change (ltb exact 1 x) with (Rltb 1 x). rewrite Rltb_false by lra. reflexivity. }
  replace (sub exact s 0 / sub exact 1 0) with s by (cbn; field). rewrite C by easy. f_equal. f_equal. rewrite C; cbn; lra.
Qed.
Lemma quarter : Rpower (1 / 16) (1 / 4) = 1 / 2.
Proof.
  replace (1 / 16) with ((1 / 2) ^ 4) by lra. rewrite <- Rpower_pow by lra. rewrite Rpower_mult. replace (INR 4 * (1 / 4)) with 1 by (cbn; lra). apply Rpower_1. lra.
Qed.
(** Milly at the end of its curve *)
Lemma milly_drop : exists p q, cp_call exact CpMilly [1 / 2] (1 / 2 + 371 / 1000 * (16 / 17)) = Ok p /\ cp_call exact CpMilly [1 / 2] (9 / 10) = Ok q /\ q < p.
Proof.
  unfold cp_call. rewrite !(call_in _ _ exact_rounding) by (split; lra). cbn [cp_eval].
  assert (D1 : milly_d (1 / 2 + 371 / 1000 * (16 / 17)) (1 / 2) = 371 / 1000 * (16 / 17)) by (unfold milly_d; rewrite Rmax_left; lra).
  assert (D2 : milly_d (9 / 10) (1 / 2) = 4 / 10) by (unfold milly_d; rewrite Rmax_left; lra). rewrite !milly_eq by lra. rewrite D1, D2, Rleb_false, Rleb_true by lra.
  eexists _, _. split; [reflexivity|]. split; [reflexivity|]. assert (milly_f (371 / 1000 * (16 / 17)) < 1); [|lra]. unfold milly_f.
  replace (371 / 1000 / (371 / 1000 * (16 / 17)) - 1) with (1 / 16) by field. rewrite quarter. replace (226 / 100 * (1 / 2) - 2) with (- (87 / 100)) by lra.
  rewrite Rpower_Ropp. assert (1 < Rpower 10 (87 / 100)).
  { rewrite <- (Rpower_O 10) by lra. apply Rpower_lt; lra. }
  rewrite <- Rinv_1. apply Rinv_lt_contravar; lra.
Qed.
Lemma milly_zero : cp_call exact CpMilly [0] 0 = Err ZeroDivisionError.
Proof.
  unfold cp_call. rewrite !(call_in _ _ exact_rounding) by (split; lra). cbn [cp_eval]. unfold cp_milly. assert (M := pymax_max (fun x => x)). change (rounded (fun x => x)) with exact in M. rewrite M.
  replace (mul exact (cst exact (Qmake 1001 1000)) 0) with 0 by (cbn; lra). rewrite Rmax_left by lra. replace (sub exact 0 0) with 0 by (cbn; lra).
  change (leb exact (cst exact (Qmake 371 1000)) 0) with (Rleb (Q2R (Qmake 371 1000)) 0). rewrite Rleb_false by (unfold Q2R; cbn; lra). cbn. destruct (Req_EM_T 0 0); [reflexivity | lra].
Qed.
(** van Genuchten capillarity between the maximum saturation and one *)
Lemma vg_complex : cp_call exact CpGenuchten [1 / 2; 0; 1; 1; 1 / 4] (1 / 2) = Err Unmodelled.
Proof.
  unfold cp_call. rewrite !(call_in _ _ exact_rounding) by (split; lra). cbn [cp_eval]. rewrite vg_eq by lra. unfold vg_raw. rewrite Rltb_true by lra. rewrite exact_div by (cbn; lra). cbn [bind].
  rewrite !exact_div by (try rewrite Rabs_R1; lra). cbn [bind]. change (sub exact (1 / 2) 0 / sub exact (1 / 4) 0) with ((1 / 2 - 0) / (1 / 4 - 0)).
  replace ((1 / 2 - 0) / (1 / 4 - 0)) with 2 by field. replace (- (1) / (1 / 2)) with (- (2)) by field.
  change (pow exact 2 (- (2))) with (let* z := real_pow 2 (- (2)) in Ok z). unfold real_pow at 1. destruct (Req_EM_T (- (2)) 0); [lra|]. destruct (Req_EM_T 2 0); [lra|]. rewrite Rltb_true by lra. cbn [bind].
  assert (E : Rpower 2 (- (2)) = 1 / 4) by (rewrite Rpower_Ropp; replace 2 with (INR 2) at 2 by (cbn; lra); rewrite Rpower_pow by lra; field). rewrite E.
  change (pow exact (sub exact (1 / 4) 1) (sub exact 1 (1 / 2))) with (let* z := real_pow (1 / 4 - 1) (1 - 1 / 2) in Ok z). unfold real_pow. destruct (Req_EM_T (1 - 1 / 2) 0); [lra|].
  destruct (Req_EM_T (1 / 4 - 1) 0); [lra|]. rewrite Rltb_false by lra. destruct (Req_EM_T (1 - 1 / 2) (IZR (Int_part (1 - 1 / 2)))) as [K|K]; [|reflexivity]. exfalso.
  destruct (base_Int_part (1 - 1 / 2)) as [A B]. assert (H : (Int_part (1 - 1 / 2) < 1)%Z) by (apply lt_IZR; lra). assert (H' : (0 < Int_part (1 - 1 / 2))%Z) by (apply lt_IZR; lra). lia.
Qed.
(** TRUST with eta = 0 put in through the setter *)
Lemma trust_crash : cp_call exact CpTrust [1; 0; 0; 0; 1] (1 / 2) = Err ZeroDivisionError.
Proof.
  unfold cp_call. rewrite !(call_in _ _ exact_rounding) by (split; lra). cbn [cp_eval]. unfold cp_trust. change (ltb exact 0 (1 / 2)) with (Rltb 0 (1 / 2)). rewrite Rltb_true by lra.
  rewrite (exact_div _ (sub exact (1 / 2) 0)) by (cbn; lra). cbn [bind]. cbn. destruct (Req_EM_T 0 0); [reflexivity | lra].
Qed.
(** a negative entry pressure *)
Lemma trust_positive : exists p, cp_call exact CpTrust [0; 0; 1; -(1); 1] (1 / 2) = Ok p /\ 0 < p.
Proof.
  unfold cp_call. rewrite !(call_in _ _ exact_rounding) by (split; lra). cbn [cp_eval]. assert (T := trust_eq _ _ exact_rounding). change (rounded (fun x => x)) with exact in T. rewrite T.
  unfold trust_raw. change (rounded (fun x => x)) with exact. rewrite Rltb_true by lra. rewrite ex1. rewrite (exact_div _ (sub exact (1 / 2) 0)) by (cbn; lra). cbn [bind]. rewrite exact_div by lra. cbn [bind].
  destruct (pow_range _ _ exact_rounding (sub exact 1 (1 / 2) / sub exact (1 / 2) 0) (1 / 1)) as (z & E & _); [cbn; lra | lra |]. change (rounded (fun x => x)) with exact in E. rewrite E. cbn [bind].
  unfold finish, ramp. change (rounded (fun x => x)) with exact. change (ltb exact (cst exact (Qmake 999 1000)) (1 / 2)) with (Rltb (Q2R (Qmake 999 1000)) (1 / 2)). rewrite Rltb_false by (unfold Q2R; cbn; lra). cbn [bind].
  eexists; split; [reflexivity|]. rewrite ex1. assert (M := pymax_max (fun x => x)). change (rounded (fun x => x)) with exact in M. rewrite M. rewrite Rabs_R1. cbn. rewrite Rmax_left; lra.
Qed.
Lemma cp_linear_positive : cp_call exact CpLinear [-(1); 0; 1] 0 = Ok 1.
Proof.
  unfold cp_call. rewrite !(call_in _ _ exact_rounding) by (split; lra). cbn [cp_eval]. rewrite cp_linear_eq by lra. rewrite Rleb_true by lra. f_equal. lra.
Qed.
Lemma pickens_new : forall x, x <> 0 -> cp_new exact CpPickens [1; 1 / 2; 1; x] = Ok [1; 1 / 2; 1; x].
Proof.
  intros x N. unfold cp_new, construct. cbn [List.length app skipn cp_arity Nat.eqb negb]. unfold cp_refuses, equal. rewrite ex0, ex1.
  change (ltb exact 0 (1 / 2)) with (Rltb 0 (1 / 2)). change (ltb exact (1 / 2) 1) with (Rltb (1 / 2) 1). change (ltb exact 1 1) with (Rltb 1 1). rewrite !Rltb_true by lra. rewrite Rltb_false by lra.
  change (leb exact x 0) with (Rleb x 0). change (leb exact 0 x) with (Rleb 0 x). destruct (Rleb x 0) eqn:E; [|reflexivity]. apply Rleb_iff in E. rewrite Rleb_false by lra. reflexivity.
Qed.
Lemma milly_new : forall x, 0 <= x -> cp_new exact CpMilly [x] = Ok [x].
Proof. intros x H. unfold cp_new, construct. cbn. rewrite RMicromega.Q2R_0, Rltb_false by lra. reflexivity. Qed.
