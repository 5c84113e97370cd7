(** ROCKS, RPCAP and INDOM written a second time. *)
From Coq Require Import String Ascii ZArith Bool Lia FinFun List.
From Verif Require Import Base.Str Base.Digits Base.Flt Base.FltText Base.FltInt.
From Verif Require Import Model.Py Model.Records Model.Write Model.Read.
From Verif Require Import Spec.Fields Spec.Values Spec.Types Spec.Layouts Spec.Rocks Spec.Flac Spec.Simple Spec.Param
  Spec.Indom Spec.Outpu Spec.Labels Spec.Mesh Spec.Incon Spec.Gener Spec.File Spec.Again.
From Verif Require Import Proofs.RecordLemmas Proofs.DictLemmas Proofs.BlockTools Proofs.Stability Proofs.RocksProof Proofs.FlacProof Proofs.TwoLines Proofs.IndomProof
  Proofs.FileProof Proofs.FileKeys Proofs.AgainCols Proofs.AgainPrep.
Import ListNotations.
Local Open Scope Z_scope.

Lemma typed_by t d : keys_unique d -> (forall k kd v, In (k, kd) t -> dget k d = Some v -> is_none v || of_kind kd v = true) ->
  well_typed t d = true.
Proof.
  intros U H. unfold well_typed. apply forallb_forall. intros [k v] I. unfold entry_typed. cbn [fst snd].
  destruct (kind_of k t) as [kd|] eqn:E; [|reflexivity]. apply (H k); [|now apply in_dget].
  clear - E. induction t as [|[a b] t IH]; [discriminate|]. cbn [kind_of] in E. destruct (key_eqb k a) eqn:X.
  - apply key_eqb_eq in X. subst a. injection E as ->. now left.
  - right. auto.
Qed.

(** ** One model *)
Lemma model_back_same m : model_ok 5 3 (PDict m) = true -> calm (PDict m) = true ->
  forall m', model_back m = PDict m' -> model_ok 5 3 (model_back m) = true /\ rec_line cols_RPCAP (model_vals m') = rec_line cols_RPCAP (model_vals m).
Proof.
  intros H C m' E. unfold model_back in E. assert (m' = [(#"id", model_id m); (#"parameters", sci_list 3 (firstn 7 (items (val #"parameters" m))))]) by congruence. subst m'. clear E.
  pose proof (model_rec_ok (PDict m) m eq_refl H) as RO.
  unfold model_ok in H. rewrite !andb_true_iff in H. destruct H as (((((T & M1) & M2) & I) & S) & F).
  pose proof (calm_val m #"id" C) as CI. pose proof (calm_items _ (calm_val m #"parameters" C)) as CP.
  assert (SR : same_rec cols_RPCAP (model_vals m) (model_vals [(#"id", model_id m); (#"parameters", sci_list 3 (firstn 7 (items (val #"parameters" m))))])).
  { unfold model_vals, cols_RPCAP. apply same_rec_cons; [now apply same_int|]. apply same_rec_cons; [now apply same_none|].
    refine (same_run 10 3 7 (items (val #"parameters" m)) _ F CP). lia. }
  split; [|apply same_line; auto; cbv; lia].
  pose proof (same_rec_ok _ _ _ SR) as RO'. unfold model_ok, model_back. unfold cols_RPCAP, model_vals in RO'. rewrite !rec_ok_cons, rec_ok_repeat in RO'.
  apply andb_true_iff in RO' as [R1 R2]. apply andb_true_iff in R2 as [_ R2].
  rewrite R1. change (fits 3) with (col_ok (CSci 10 3)). rewrite R2. cbn [andb]. unfold model_id. cbn [col_val]. destruct (int_of (val #"id" m)); reflexivity.
Qed.

(** ** One rock *)
Record second (p : dict) (r r' : dict) : Prop := {
  se_unique : keys_unique r';
  se_scalar : forall k, In k (scalar_keys ++ extra_keys) -> dget k r' = Some (sci 4 (val k r));
  se_perm : dget #"permeability" r' = Some (perm_back (val #"permeability" r));
  se_model : forall k, In k model_keys -> dget k r' = match dget k r with
    | Some (PDict m) => if is_none (model_id m) then None else Some (model_back m) | _ => None end;
  se_flac : forall k, In k [#"permeability_model"; #"equivalent_pore_pressure"] -> exists m, dget k r' = Some (PDict m);
  se_cond : dget #"initial_condition" r' =
    if indom_given p && has_condition r then Some (sci_list 13 (condition_of r)) else None }.
Lemma pick_none (o : option pyval) : pick o (Some PNone) = Some (match o with Some v => v | None => PNone end).
Proof. now destruct o. Qed.
Lemma models_back_none r k : ~ In k model_keys -> dget k (models_back r) = None.
Proof.
  intros N. apply dget_none_notin. intros J. apply N. unfold models_back in J. unfold dkeys in J. apply in_map_iff in J as (kv & <- & J).
  apply in_flat_map in J as (k' & I' & J). destruct (dget k' r) as [[]|]; try contradiction. destruct (is_none _); [contradiction|].
  destruct J as [<-|[]]. exact I'.
Qed.
Lemma rock_read_other p x k : k <> #"initial_condition" -> dget k (rock_read p x) = dget k (rock_back (rock_named (rocks_of p) x)).
Proof.
  intros N. unfold rock_read. destruct (indom_given p && _); [|reflexivity].
  unfold dupdate. cbn [fold_left fst snd]. now rewrite dget_dset_other.
Qed.
Definition rock_part (r : dict) : dict :=
  [(#"density", sci 4 (val #"density" r)); (#"porosity", sci 4 (val #"porosity" r));
          (#"permeability", perm_back (val #"permeability" r));
          (#"conductivity", sci 4 (val #"conductivity" r));
          (#"specific_heat", sci 4 (val #"specific_heat" r))]
         ++ map (fun k => (k, sci 4 (val k r))) extra_keys.
Lemma rock_back_get r k : dget k (rock_back r) = match dget k (rock_part r) with
  | Some v => if is_none v then dget k (models_back r) else Some v | None => dget k (models_back r) end.
Proof.
  unfold rock_back. rewrite dget_app. fold (rock_part r). rewrite dget_known by (apply no_dup_keys_ok; reflexivity).
  destruct (dget k (rock_part r)) as [v|]; auto. now destruct (is_none v).
Qed.
Lemma rock_second p x r' : keys_unique r' ->
  (forall k, dget k r' = pick (dget k (rock_read p x)) (if existsb (key_eqb k) rock_own then None else dget k rock_defaults)) ->
  second p (rock_named (rocks_of p) x) r'.
Proof.
  intros U H. set (r := rock_named (rocks_of p) x).
  assert (NM : forall k, In k (#"permeability" :: scalar_keys ++ extra_keys) -> dget k (models_back r) = None).
  { intros k I. apply models_back_none. intros J. cbn [model_keys In] in J. destruct J as [<-|[<-|[]]]; cbn in I; repeat destruct I as [I|I]; try discriminate; exact I. }
  assert (G : forall k v, In k (#"permeability" :: scalar_keys ++ extra_keys) -> dget k (rock_part r) = Some v -> dget k r' = Some v).
  { intros k v I V. rewrite H, rock_read_other by (intros ->; cbn in I; repeat destruct I as [I|I]; try discriminate; exact I).
    fold r. rewrite rock_back_get, V, NM by auto.
    replace (if existsb (key_eqb k) rock_own then None else dget k rock_defaults) with (Some PNone).
    - rewrite pick_none. now destruct v.
    - symmetry. cbn [scalar_keys extra_keys app In] in I. repeat (destruct I as [<-|I]; [reflexivity|]). destruct I. }
  split; auto.
  - intros k I. apply G; [now right|]. cbn [scalar_keys extra_keys app In] in I. repeat (destruct I as [<-|I]; [reflexivity|]). destruct I.
  - apply G; [now left|reflexivity].
  - intros k I. rewrite H, rock_read_other by (intros ->; cbn in I; repeat destruct I as [I|I]; try discriminate; exact I).
    fold r. rewrite rock_back_get.
    assert (E1 : dget k (rock_part r) = None) by (cbn [model_keys In] in I; destruct I as [<-|[<-|[]]]; reflexivity).
    assert (E2 : existsb (key_eqb k) rock_own = true) by (cbn [model_keys In] in I; destruct I as [<-|[<-|[]]]; reflexivity).
    rewrite E1, E2.
    assert (E3 : dget k (models_back r) = match dget k r with
      | Some (PDict m) => if is_none (model_id m) then None else Some (model_back m) | _ => None end).
    { rewrite models_back_eq, dget_app. unfold model_back1. cbn [model_keys In] in I. destruct I as [<-|[<-|[]]].
      - destruct (dget #"relative_permeability" r) as [[| | | | | | |m]|] eqn:M; try destruct (is_none (model_id m));
          destruct (dget #"capillarity" r) as [[| | | | | | |m']|]; try destruct (is_none (model_id m')); reflexivity.
      - destruct (dget #"relative_permeability" r) as [[| | | | | | |m]|] eqn:M; try destruct (is_none (model_id m));
          destruct (dget #"capillarity" r) as [[| | | | | | |m']|]; try destruct (is_none (model_id m')); reflexivity. }
    rewrite E3. destruct (dget k r) as [[| | | | | | |m]|]; try reflexivity. now destruct (is_none (model_id m)).
  - intros k I. rewrite H, rock_read_other by (intros ->; cbn in I; repeat destruct I as [I|I]; try discriminate; exact I).
    fold r. rewrite rock_back_get, models_back_none by (intros J; cbn [model_keys In] in J; destruct J as [<-|[<-|[]]]; cbn in I; repeat destruct I as [I|I]; try discriminate; exact I).
    cbn [In] in I. destruct I as [<-|[<-|[]]]; cbn; eexists; reflexivity.
  - rewrite H. unfold rock_read. fold r. cbn [existsb rock_own key_eqb].
    change (existsb (key_eqb #"initial_condition") rock_own) with true. cbv iota.
    assert (N : dget #"initial_condition" (rock_back r) = None).
    { rewrite rock_back_get. change (dget #"initial_condition" (rock_part r)) with (@None pyval). cbv iota.
      apply models_back_none. intros J. cbn [model_keys In] in J. destruct J as [J|[J|[]]]; discriminate. }
    destruct (indom_given p && has_condition r).
    + unfold dupdate. cbn [fold_left fst snd]. now rewrite dget_dset_same.
    + change (dupdate (rock_back r) []) with (rock_back r). now rewrite N.
Qed.

Lemma existsb_ext_in {A} (f g : A -> bool) l : (forall x, In x l -> f x = g x) -> existsb f l = existsb g l.
Proof. induction l as [|x l IH]; intros H; auto. cbn [existsb]. rewrite H, IH; auto; [intros y I; apply H; now right|now left]. Qed.
Definition number_or_none (v : pyval) : bool := is_none v || number v.
Lemma sci_kind k v : is_none (sci k v) || number (sci k v) = true.
Proof. unfold sci. cbn [col_val]. destruct (num_of v); reflexivity. Qed.
Lemma sci_not_none k v : number_or_none v = true -> not_none (sci k v) = not_none v.
Proof. destruct v; try discriminate; reflexivity. Qed.
Lemma typed_scalar r k : well_typed kinds_ROCKS r = true -> In k (scalar_keys ++ extra_keys) -> number_or_none (val k r) = true.
Proof.
  intros T I. unfold number_or_none. apply (typed_at kinds_ROCKS r k Number T).
  cbn [scalar_keys extra_keys app In] in I. repeat (destruct I as [<-|I]; [reflexivity|]). destruct I.
Qed.
(** The reader takes three equal permeabilities for one, and 0.0 equals -0.0; but -0.0 is too long for its columns. *)
Definition negative_zero (v : pyval) : bool := match num_of v with Some (Fin true m _) => Z.eqb m 0 | _ => false end.
Lemma narrow_zero v : fits 4 v = true -> negative_zero v = false.
Proof.
  intros H. unfold negative_zero. destruct (num_of v) as [x|] eqn:E; [|reflexivity]. destruct x as [s m e| |]; try reflexivity.
  destruct s; [|reflexivity]. apply not_true_is_false. intros Z. apply Z.eqb_eq in Z. subst m.
  assert (X : sci_fits 10 4 (Fin true 0 e) = true).
  { unfold fits in H. cbn [col_ok] in H. destruct v; try discriminate; cbn [num_of absent orb int_of] in H, E.
    - apply andb_true_iff in H as [_ H]. congruence.
    - apply andb_true_iff in H as [_ H]. congruence.
    - apply andb_true_iff in H as [_ H]. congruence.
    - congruence. }
  unfold sci_fits in X. apply andb_true_iff in X as [_ X]. discriminate X.
Qed.
Lemma sci_zero v : calm v = true -> negative_zero v = false -> negative_zero (sci 4 v) = false.
Proof.
  intros C N. unfold sci. cbn [col_val]. destruct (num_of v) as [x|] eqn:E; [|reflexivity]. unfold negative_zero at 1. cbn [num_of].
  pose proof (calm_of _ _ C E) as CX. destruct x as [s m e| |]; try reflexivity.
  destruct (Z.eq_dec m 0) as [->|M].
  - cbn [rnd_e Z.eqb fzero]. unfold fzero. destruct s; [|reflexivity]. exfalso.
    unfold negative_zero in N. rewrite E in N. discriminate.
  - unfold calm_num in CX. cbn [is_finite negb] in CX. rewrite orb_false_r in CX.
    destruct (rnd_e_spec 4 s m e ltac:(lia) CX M) as (m' & e' & -> & P & _). destruct s; auto. apply Z.eqb_neq. lia.
Qed.
Lemma equal_text a b : simple_eqb a b = true -> (forall x, a = PFloat x -> is_f64 x = true) -> (forall x, b = PFloat x -> is_f64 x = true) ->
  negative_zero a = false -> negative_zero b = false -> (a = PNone \/ exists x, a = PFloat x) -> a = b.
Proof.
  intros E A B NA NB [->|(x & ->)]; destruct b as [| | | |y| | |]; try discriminate; auto. f_equal.
  specialize (A x eq_refl). specialize (B y eq_refl). cbn [simple_eqb] in E. destruct x as [s m e|s|], y as [s' m' e'|s'|]; try discriminate.
  - cbn [flt_eqb] in E. apply orb_true_iff in E as [E|E].
    + apply andb_true_iff in E as [E1 E2]. apply Z.eqb_eq in E1, E2. subst m m'.
      destruct s; [discriminate|]. destruct s'; [discriminate|]. f_equal.
      cbn [is_f64] in A, B. rewrite !andb_true_iff in A, B. destruct A as [_ A], B as [_ B].
      apply orb_true_iff in A as [A|A]; [apply Z.leb_le in A; exfalso; revert A; clear; change (2^52) with 4503599627370496; lia|].
      apply orb_true_iff in B as [B|B]; [apply Z.leb_le in B; exfalso; revert B; clear; change (2^52) with 4503599627370496; lia|].
      apply Z.eqb_eq in A, B. congruence.
    + rewrite !andb_true_iff in E. destruct E as [[E1 E2] E3]. apply eqb_prop in E1. apply Z.eqb_eq in E2, E3. congruence.
  - apply eqb_prop in E. congruence.
Qed.

Lemma sci_f64 w k v x : col_ok (CSci w k) (sci k v) = true -> sci k v = PFloat x -> is_f64 x = true.
Proof. intros H E. rewrite E in H. cbn [col_ok absent orb] in H. unfold sci_fits in H. now apply andb_true_iff in H. Qed.
Lemma sci_cases k v : sci k v = PNone \/ exists x, sci k v = PFloat x.
Proof. unfold sci. cbn [col_val]. destruct (num_of v); eauto. Qed.
Lemma perms_same v : perm_ok v = true -> calm v = true ->
  exists a b c, perms v = [a; b; c] /\ perms (perm_back v) = [sci 4 a; sci 4 b; sci 4 c] /\ perm_ok (perm_back v) = true /\
    (is_none (perm_back v) || of_kind NumberOrSequence (perm_back v) = true) /\
    Forall (fun x => same (CSci 10 4) x (sci 4 x)) [a; b; c].
Proof.
  intros H C. destruct (perms_ok v H) as [L F]. destruct (perms v) as [|a [|b [|c [|]]]] eqn:E; try discriminate.
  assert (CC : forallb calm [a; b; c] = true).
  { rewrite <- E. destruct v; cbn [perms forallb]; try (rewrite ?C; reflexivity). exact C. }
  cbn [forallb] in F, CC. rewrite !andb_true_iff in F, CC. destruct F as (F1 & F2 & F3 & _), CC as (C1 & C2 & C3 & _).
  pose proof (narrow_zero _ F1) as N1. pose proof (narrow_zero _ F2) as N2. pose proof (narrow_zero _ F3) as N3.
  assert (S1 : same (CSci 10 4) a (sci 4 a)) by (apply same_sci; auto; lia).
  assert (S2 : same (CSci 10 4) b (sci 4 b)) by (apply same_sci; auto; lia).
  assert (S3 : same (CSci 10 4) c (sci 4 c)) by (apply same_sci; auto; lia).
  exists a, b, c. split; [reflexivity|]. unfold perm_back. rewrite E. cbn [map].
  assert (FF : Forall (fun x => same (CSci 10 4) x (sci 4 x)) [a; b; c]) by auto.
  destruct (simple_eqb (sci 4 a) (sci 4 b) && simple_eqb (sci 4 a) (sci 4 c)) eqn:Q.
  - apply andb_true_iff in Q as [Q1 Q2].
    assert (X : forall y, simple_eqb (sci 4 a) (sci 4 y) = true -> calm y = true -> negative_zero y = false -> same (CSci 10 4) y (sci 4 y) -> sci 4 y = sci 4 a).
    { intros y Y CY NY [SY _]. symmetry. apply equal_text; auto using sci_zero, sci_cases.
      - intros x. apply (sci_f64 10). apply S1.
      - intros x. apply (sci_f64 10). exact SY. }
    rewrite (X b), (X c) by auto. split; [destruct (sci_cases 4 a) as [->|(x & ->)]; reflexivity|]. split; [|split; auto].
    + unfold perm_ok. destruct S1 as [S1 _]. unfold fits. destruct (sci_cases 4 a) as [Z|(x & Z)]; rewrite Z in *; exact S1.
    + destruct (sci_cases 4 a) as [->|(x & ->)]; reflexivity.
  - split; [reflexivity|]. split; [|split; auto]. cbn [perm_ok List.length Nat.eqb forallb andb]. unfold fits.
    destruct S1 as [-> _], S2 as [-> _], S3 as [-> _]. reflexivity.
Qed.

Lemma rock_again p r r' : rock_ok r = true -> calm (PDict r) = true -> rock_steady r = true -> second p r r' ->
  rock_ok r' = true /\ forall s, name_ok 5 s = true -> rock_recs s r' = rock_recs s r.
Proof.
  intros H C ST [U SS SP SM SF SC]. pose proof (rock_ok_facts r H) as F.
  pose proof (rock_ok_typed r H) as T. rename ST into ID. unfold rock_steady in ID.
  assert (VS : forall k, In k (scalar_keys ++ extra_keys) -> val k r' = sci 4 (val k r)) by (intros k I; exact (val_some _ _ _ (SS k I))).
  assert (VP : val #"permeability" r' = perm_back (val #"permeability" r)) by exact (val_some _ _ _ SP).
  assert (S1 : forall k, In k (scalar_keys ++ extra_keys) -> same (CSci 10 4) (val k r) (val k r')).
  { intros k I. rewrite VS by auto. apply same_sci; [lia|exact (rf_fit r F k I)|now apply calm_val]. }
  destruct (perms_same (val #"permeability" r) (rf_perm r F) (calm_val r _ C)) as (a & b & c & P1 & P2 & P3 & P4 & P5).
  (* models *)
  assert (MM : forall k, In k model_keys -> opt_model_ok r' k = true /\ dmem k r' = dmem k r /\ model_line r' k = model_line r k /\
             match dget k r' with Some m => exists d, m = PDict d | None => True end).
  { intros k I. specialize (SM k I). pose proof (rf_models r F) as MF. rewrite forallb_forall in MF, ID. specialize (MF k I). specialize (ID k I).
    unfold opt_model_ok, dmem, model_line in *. rewrite SM. destruct (dget k r) as [m|] eqn:G; [|repeat split].
    destruct m as [| | | | | | |m]; try discriminate.
    assert (NI : is_none (model_id m) = false).
    { unfold has_id in ID. cbn [entries] in ID. unfold model_id. cbn [col_val].
      unfold model_ok in MF. rewrite !andb_true_iff in MF. destruct MF as (((((T' & _) & _) & _) & _) & _).
      pose proof (typed_at kinds_MODEL m #"id" Integer T' eq_refl) as X.
      destruct (val #"id" m); try discriminate; reflexivity. }
    rewrite NI. destruct (model_back_same m MF (calm_entry _ _ _ C G) _ eq_refl) as [B1 B2]. repeat split; auto.
    eexists. reflexivity. }
  assert (HM : has_models r' = has_models r).
  { unfold has_models. destruct (MM #"relative_permeability") as (_ & -> & _); [cbn; tauto|]. destruct (MM #"capillarity") as (_ & -> & _); [cbn; tauto|]. reflexivity. }
  assert (HE : has_extra r' = has_extra r).
  { unfold has_extra. apply existsb_ext_in. intros k I. rewrite VS by (apply in_or_app; now right). apply sci_not_none.
    apply typed_scalar; auto. apply in_or_app. now right. }
  assert (T' : well_typed kinds_ROCKS r' = true).
  { apply typed_by; auto. intros k kd v I G. cbn [kinds_ROCKS same_kind map app In] in I.
    assert (X : forall k, In k (scalar_keys ++ extra_keys) -> dget k r' = Some v -> is_none v || of_kind Number v = true).
    { intros k' I' G'. rewrite SS in G' by auto. assert (v = sci 4 (val k' r)) by congruence. subst v. apply sci_kind. }
    assert (Y : forall k, In k model_keys -> dget k r' = Some v -> is_none v || of_kind Dictionary v = true).
    { intros k' I' G'. destruct (MM k' I') as (_ & _ & _ & Q). rewrite G' in Q. destruct Q as (d & ->). reflexivity. }
    assert (W : forall k, In k [#"permeability_model"; #"equivalent_pore_pressure"] -> dget k r' = Some v -> is_none v || of_kind Dictionary v = true).
    { intros k' I' G'. destruct (SF k' I') as (d & Q). assert (v = PDict d) by congruence. subst v. reflexivity. }
    repeat (destruct I as [I|I]; [apply pair_equal_spec in I as [<- <-]; first
      [ apply (X _) with (2 := G); cbn; tauto
      | rewrite SP in G; assert (v = perm_back (val #"permeability" r)) by congruence; subst v; exact P4
      | rewrite SC in G; destruct (indom_given p && has_condition r); [|discriminate]; assert (v = sci_list 13 (condition_of r)) by congruence; subst v; reflexivity
      | apply (Y _) with (2 := G); cbn; tauto
      | apply (W _) with (2 := G); cbn; tauto ]|]). destruct I. }
  split.
  - unfold rock_ok. rewrite T'. cbn [andb]. rewrite !andb_true_iff. repeat split.
    + apply forallb_forall. intros k I. destruct I as [<-|I]; [unfold dmem; now rewrite SP|unfold dmem; now rewrite SS].
    + apply forallb_forall. intros k I. apply (S1 k I).
    + now rewrite VP.
    + apply forallb_forall. intros k I. exact (proj1 (MM k I)).
  - intros s N. unfold rock_recs. rewrite HM, HE.
    assert (L1 : rec_line cols_ROCKS_1 (rock_vals s r') = rec_line cols_ROCKS_1 (rock_vals s r)).
    { apply same_line; [cbv; lia|now apply rock_rec_ok|].
      unfold rock_vals. rewrite VP, P1, P2. unfold nad. rewrite HM, HE. cbn [app]. unfold cols_ROCKS_1. cbn [repeat].
      inversion_clear P5 as [|? ? Q1 P6]. inversion_clear P6 as [|? ? Q2 P7]. inversion_clear P7 as [|? ? Q3 _].
      repeat apply same_rec_cons; auto; try (apply S1; cbn; tauto); try apply same_rec_nil.
      - apply same_refl. now apply name_ok_spec in N.
      - apply same_refl. destruct (has_models r); [reflexivity|]. destruct (has_extra r); reflexivity. }
    assert (L2 : rec_line cols_ROCKS_2 (map (fun k => val k r') extra_keys) = rec_line cols_ROCKS_2 (map (fun k => val k r) extra_keys)).
    { apply same_line; [cbv; lia| |].
      - unfold cols_ROCKS_2. rewrite rec_ok_repeat. cbn [extra_keys map firstn forallb]. rewrite !(rf_fit r F) by (cbn; tauto). reflexivity.
      - unfold cols_ROCKS_2, extra_keys. cbn [repeat map]. repeat apply same_rec_cons; try apply same_rec_nil; apply S1; cbn; tauto. }
    rewrite L1, L2. f_equal. f_equal. destruct (has_models r); [|reflexivity]. unfold model_lines. apply map_ext_in. intros k I. apply (MM k I).
Qed.
