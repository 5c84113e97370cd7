(** MULTI, SELEC and PARAM written a second time. *)
From Coq Require Import String Ascii ZArith Bool Lia FinFun List.
From Verif Require Import Base.Str Base.Digits Base.Flt Base.FltText Base.FltInt.
From Verif Require Import Model.Py Model.Records Model.Write Model.Read.
From Verif Require Import Spec.Fields Spec.Values Spec.Types Spec.Layouts Spec.Rocks Spec.Flac Spec.Simple Spec.Param
  Spec.Indom Spec.Outpu Spec.Labels Spec.Mesh Spec.Incon Spec.Gener Spec.File Spec.Again.
From Verif Require Import Proofs.RecordLemmas Proofs.DictLemmas Proofs.BlockTools Proofs.Stability Proofs.RocksProof Proofs.FlacProof Proofs.SimpleProof Proofs.ParamProof Proofs.TwoLines Proofs.IndomProof
  Proofs.FileProof Proofs.FileKeys Proofs.AgainCols Proofs.AgainPrep Proofs.AgainRocks Proofs.AgainBlocks Proofs.AgainSimple.
Import ListNotations.
Local Open Scope Z_scope.

Section Top.
Variables p p' : dict.
Hypothesis A : again p p'.
Hypothesis C : calm (PDict p) = true.
Hypothesis T : well_typed kinds_PARAMETERS p = true.

(** ** MULTI *)
Lemma override_zero v t : override v t <> 0 <-> match int_of v with Some z => z <> 0 \/ t <> 0 | None => t <> 0 end.
Proof.
  unfold override. destruct (int_of v) as [z|]; [|tauto]. destruct (Z.eqb_spec z 0); [subst; split; [auto|intros [X|X]; [congruence|auto]]|]. split; auto.
Qed.
Lemma eos_positive s c f : eos_find s eos_table = Some (c, f) -> 0 < c /\ 0 < f.
Proof.
  unfold eos_table. cbn [eos_find]. repeat (destruct (streqb s _); [intros X; injection X as <- <-; lia|]). discriminate.
Qed.
Lemma counts_positive : multi_given p = true -> MULTI_ok p -> fst (counts_of p) <> 0 /\ snd (counts_of p) <> 0.
Proof.
  intros G (K & E & I & _). unfold counts_of. destruct (eos_counts (val #"eos" p)) as [[c f]|] eqn:Q; [|now elim E]. cbn [fst snd].
  assert (X : (c <> 0 /\ f <> 0) \/ (filled (val #"n_component" p) = true /\ filled (val #"n_phase" p) = true)).
  { unfold multi_given in G. apply orb_true_iff in G as [G|G]; [left|right; now apply andb_true_iff in G].
    unfold eos_counts in Q. destruct (val #"eos" p) as [| | | | |[|a s]| |]; try discriminate. apply eos_positive in Q. lia. }
  assert (FI : forall v, opt_int v = true -> filled v = true -> exists z, int_of v = Some z /\ z <> 0).
  { intros [|[]|z|z| | | |] O F; try discriminate; cbn [int_of filled] in *; eexists; (split; [reflexivity|]); try lia;
      now apply negb_true_iff, Z.eqb_neq in F. }
  cbn [forallb] in I. rewrite !andb_true_iff in I. destruct I as (I1 & I2 & _).
  rewrite !override_zero. destruct X as [[X1 X2]|[X1 X2]].
  - split; destruct (int_of _); auto.
  - destruct (FI _ I1 X1) as (z1 & -> & ?), (FI _ I2 X2) as (z2 & -> & ?). auto.
Qed.
Lemma MULTI_again : (multi_given p = true -> MULTI_ok p /\ mass_steady (val #"n_component_mass" p) = true) ->
  (given #"diffusion" p = true -> DIFFU_ok p) ->
  multi_given p' = multi_given p /\ (multi_given p = true -> MULTI_ok p' /\ write_multi p' = write_multi p).
Proof.
  intros H DF.
  assert (GE : dget #"eos" p' = Some (PStr [])) by (rewrite (top_get p p' A) by reflexivity; reflexivity).
  assert (GM : dget #"n_component_mass" p' = Some PNone) by (rewrite (top_get p p' A) by reflexivity; reflexivity).
  assert (GD : dget #"diffusion" p' = Some (if given #"diffusion" p then PSeq SList (map row_back (items (val #"diffusion" p))) else PNone)).
  { rewrite (top_get p p' A) by reflexivity. change (FILE_entry p #"diffusion") with (if given #"diffusion" p then dget #"diffusion" (DIFFU_back p) else None).
    destruct (given #"diffusion" p); reflexivity. }
  assert (GN : forall k, In k [#"n_component"; #"isothermal"; #"n_phase"] -> dget k p' = pick (if multi_given p then dget k (MULTI_back p) else None) (dget k top_defaults)).
  { intros k I. cbn [In] in I. destruct I as [<-|[<-|[<-|[]]]]; rewrite (top_get p p' A) by reflexivity; reflexivity. }
  destruct (multi_given p) eqn:MG.
  - destruct (H eq_refl) as [O MS]. pose proof (counts_positive MG O) as [P1 P2].
    assert (G1 : dget #"n_component" p' = Some (PInt (fst (counts_of p)))) by (rewrite GN by (cbn; tauto); reflexivity).
    assert (G2 : dget #"isothermal" p' = Some (PBool (is_isothermal p))) by (rewrite GN by (cbn; tauto); reflexivity).
    assert (G3 : dget #"n_phase" p' = Some (PInt (snd (counts_of p)))) by (rewrite GN by (cbn; tauto); reflexivity).
    assert (MG' : multi_given p' = true).
    { unfold multi_given. rewrite (val_some _ _ _ GE), (val_some _ _ _ G1), (val_some _ _ _ G3). cbn [filled nonempty orb].
      rewrite !(proj2 (Z.eqb_neq _ 0)) by auto. reflexivity. }
    assert (CO : counts_of p' = counts_of p).
    { unfold counts_of at 1. rewrite (val_some _ _ _ GE), (val_some _ _ _ G1), (val_some _ _ _ G3). cbn [eos_counts]. unfold override. cbn [int_of].
      rewrite !(proj2 (Z.eqb_neq _ 0)) by auto. now destruct (counts_of p). }
    pose proof O as (K & E & I & (iso & ISO) & D & F1 & F2 & F3 & F4).
    assert (DD : (exists l, val #"diffusion" p' = PSeq SList l /\ exists sk l0, val #"diffusion" p = PSeq sk l0 /\ l = map row_back l0) \/
                 (val #"diffusion" p' = PNone /\ val #"diffusion" p = PNone)).
    { rewrite (val_some _ _ _ GD). unfold given in *. destruct (val #"diffusion" p) as [| | | | | |sk l|] eqn:V; try contradiction; [right; auto|left].
      eexists. split; [reflexivity|]. eauto. }
    assert (OK : MULTI_ok p').
    { unfold MULTI_ok. rewrite CO. split; [cbn [forallb]; unfold dmem; now rewrite GE, GM, GD, G1, G2, G3|].
      rewrite (val_some _ _ _ GE). split; [discriminate|].
      split; [cbn [forallb]; now rewrite (val_some _ _ _ G1), (val_some _ _ _ G3), (val_some _ _ _ GM)|].
      split; [rewrite (val_some _ _ _ G2); eauto|]. split.
      - destruct DD as [(l & -> & _)|[-> _]]; exact Logic.I.
      - repeat split; auto. now rewrite (val_some _ _ _ GM). }
    split; [exact MG'|]. intros _. split; [exact OK|].
    destruct (MULTI_block p O) as [-> _]. destruct (MULTI_block p' OK) as [-> _]. do 3 f_equal.
    assert (B : counts_of p = (override (val #"n_component" p) (fst (multi_base p)), override (val #"n_phase" p) (snd (multi_base p)))).
    { unfold counts_of, multi_base. destruct (eos_counts (val #"eos" p)) as [[c f]|]; [reflexivity|now elim E]. }
    set (v0 := chosen (val #"n_component" p) (fst (multi_base p))). set (v2 := chosen (val #"n_phase" p) (snd (multi_base p))).
    assert (V0 : int_of v0 = Some (fst (counts_of p))) by (rewrite B; apply chosen_int).
    assert (V2 : int_of v2 = Some (snd (counts_of p))) by (rewrite B; apply chosen_int).
    destruct (add1_int v0 _ V0) as (v1 & A1 & V1).
    assert (S0 : same (CInt 5) v0 (PInt (fst (counts_of p)))).
    { rewrite <- (col_val_int 5 v0 _ V0). apply same_int0. exact (col_ok_int 5 v0 _ V0 F1). }
    assert (S1 : same (CInt 5) v1 (PInt (fst (counts_of p) + 1))).
    { rewrite <- (col_val_int 5 v1 _ V1). apply same_int0. exact (col_ok_int 5 v1 _ V1 F2). }
    assert (S2 : same (CInt 5) v2 (PInt (snd (counts_of p)))).
    { rewrite <- (col_val_int 5 v2 _ V2). apply same_int0. exact (col_ok_int 5 v2 _ V2 F3). }
    set (n := match val #"diffusion" p with PSeq _ (_ :: _) => 8 | _ => 6 end).
    assert (S3 : same (CInt 5) (PInt n) (PInt n)) by (apply same_refl; unfold n; destruct (val #"diffusion" p) as [| | | | | |sk [|a l]|]; reflexivity).
    assert (M1 : multi_vals p = [v0; if is_isothermal p then v0 else v1; v2; PInt n]).
    { unfold multi_vals. fold v0 v2. rewrite A1. fold n. unfold mass_steady in MS. destruct (int_of (val #"n_component_mass" p)) as [z|]; [rewrite MS|]; reflexivity. }
    assert (M2 : multi_vals p' = [PInt (fst (counts_of p)); if is_isothermal p then PInt (fst (counts_of p)) else PInt (fst (counts_of p) + 1); PInt (snd (counts_of p)); PInt n]).
    { unfold multi_vals, multi_base. rewrite (val_some _ _ _ GE), (val_some _ _ _ G1), (val_some _ _ _ G3), (val_some _ _ _ GM). cbn [eos_counts]. unfold chosen. cbn [int_of].
      rewrite !(proj2 (Z.eqb_neq _ 0)) by auto. cbn [app add1]. unfold is_isothermal at 1. rewrite (val_some _ _ _ G2).
      replace (match val #"diffusion" p' with PSeq _ (_ :: _) => 8 | _ => 6 end) with n; [reflexivity|].
      unfold n. destruct DD as [(l & -> & sk & l0 & -> & ->)|[-> ->]]; [destruct l0|]; reflexivity. }
    rewrite M1, M2. unfold cols_MULTI. cbn [repeat].
    apply same_line; [cbv; lia| |].
    + rewrite !rec_ok_cons. rewrite (col_ok_int 5 v0 _ V0 F1), (col_ok_int 5 v2 _ V2 F3), (proj1 S3).
      replace (col_ok (CInt 5) (if is_isothermal p then v0 else v1)) with true; [reflexivity|]. destruct (is_isothermal p); symmetry; [exact (col_ok_int 5 v0 _ V0 F1)|exact (col_ok_int 5 v1 _ V1 F2)].
    + repeat apply same_rec_cons; auto.
      * now destruct (is_isothermal p).
      * intros [|[|i]] c Q; [|discriminate|destruct i; discriminate]. injection Q as <-. now apply same_none.
  - split; [|discriminate]. unfold multi_given. rewrite (val_some _ _ _ GE). cbn [filled nonempty orb].
    assert (G1 : dget #"n_component" p' = Some PNone) by (rewrite GN by (cbn; tauto); reflexivity).
    rewrite (val_some _ _ _ G1). reflexivity.
Qed.

(** ** SELEC *)
Lemma selec_keys (f : Z -> pyval) : keys_unique (map (fun i => (KI i, f i)) (option_nums 16)).
Proof.
  unfold keys_unique, dkeys. rewrite map_map. cbn [fst]. apply FinFun.Injective_map_NoDup; [intros a b E; congruence|].
  unfold option_nums. apply FinFun.Injective_map_NoDup; [intros a b E; lia|apply seq_NoDup].
Qed.
Lemma SELEC_again : (filled (val #"selections" p) = true -> SELEC_ok p /\ floats_steady (float_rows (selec_floats p)) = true) ->
  filled (val #"selections" p') = filled (val #"selections" p) /\
  (filled (val #"selections" p) = true -> SELEC_ok p' /\ write_selec p' = write_selec p).
Proof.
  intros H. destruct (filled (val #"selections" p)) eqn:F.
  - destruct (H eq_refl) as [O FS]. pose proof O as (G0 & T0 & I & MI & MF & SF & II & CI & R & _). rewrite Forall_forall in R, CI.
    assert (G : dget #"selections" p' = dget #"selections" (SELEC_back p)).
    { rewrite (top_get p p' A) by reflexivity. change (FILE_entry p #"selections") with (if filled (val #"selections" p) then dget #"selections" (SELEC_back p) else None). rewrite F.
      unfold SELEC_back. reflexivity. }
    set (rows := float_rows (selec_floats p)) in *. set (ints := known (map (fun i => (KI i, col_val (CInt 5) (selec_int p i))) (option_nums 16))).
    assert (CR : forall v, In v rows -> calm v = true).
    { pose proof (calm_items _ (calm_val _ #"floats" (calm_entry _ _ _ C G0))) as CF. unfold rows. fold (selec_floats p) in CF.
      rewrite forallb_forall in CF. unfold float_rows. destruct (selec_floats p) as [|x l] eqn:SE; [intros v []|].
      destruct x; try exact CF; intros v [<-|[]]; cbn [calm]; apply forallb_forall; exact CF. }
    assert (RB : forall v, In v rows -> row_ok 3 (row_back v) /\ row_line (row_back v) = row_line v /\ existsb present (items (row_back v)) = existsb present (items v)).
    { intros v J. apply row_again; auto. }
    assert (FL : exists fl, selec_of p' = [(#"integers", PDict ints); (#"floats", PSeq SList fl)] /\ float_rows fl = map row_back rows).
    { unfold selec_of. unfold val. rewrite G. unfold SELEC_back. fold rows ints. cbn [dget]. change (key_eqb #"selections" #"selections") with true. cbv iota. cbn [entries].
      destruct rows as [|r [|r1 rs]] eqn:RW; [discriminate| |].
      - cbn [map]. unfold row_back, sci_list at 1. eexists. split; [reflexivity|]. destruct (RB r (or_introl eq_refl)) as (Q1 & _ & Q3). cbn [floats_steady] in FS. rewrite FS in Q3.
        unfold row_back, sci_list in Q1, Q3. cbn [items] in Q3. destruct (trim (map (sci 3) (items r))) as [|x l] eqn:TR; [discriminate|].
        cbn [float_rows map]. pose proof (selec_row_scalar x l Q1) as SX. unfold row_back, sci_list. rewrite TR. destruct x; try reflexivity. discriminate.
      - eexists. split; [reflexivity|]. reflexivity. }
    destruct FL as (fl & SE & FR).
    assert (SI : selec_ints p' = ints) by (unfold selec_ints; rewrite SE; reflexivity).
    assert (SFL : selec_floats p' = fl) by (unfold selec_floats; rewrite SE; reflexivity).
    assert (NE : rows <> []) by (intros Z; rewrite Z in FS; discriminate).
    assert (VI : forall i, In i (option_nums 16) -> selec_int p' i = col_val (CInt 5) (selec_int p i)).
    { intros i J. unfold selec_int. rewrite SFL, FR, SI. fold rows. destruct rows as [|r rs] eqn:RW; [congruence|]. cbn [map].
      destruct (Z.eqb i 1) eqn:E1; [cbn [List.length]; now rewrite map_length|]. unfold ints. rewrite val_known by apply selec_keys.
      erewrite val_some; [|apply in_dget; [apply selec_keys|apply in_map_iff; exists i; split; [reflexivity|exact J]]].
      unfold selec_int. fold rows. rewrite RW, E1. reflexivity. }
    assert (FI : filled (val #"selections" p') = true).
    { unfold selec_of, val in SE. unfold val. destruct (dget #"selections" p') as [v|]; [|discriminate]. destruct v; try discriminate. cbn [entries] in SE. subst. reflexivity. }
    split; [exact FI|]. intros _.
    assert (OK : SELEC_ok p').
    { assert (GP : dget #"selections" p' = Some (PDict (selec_of p'))).
      { unfold selec_of, val. rewrite G. reflexivity. }
      unfold SELEC_ok. rewrite SI, SFL, FR, SE. split; [rewrite GP, SE; reflexivity|]. split; [reflexivity|]. split; [right; reflexivity|].
      split; [reflexivity|]. split; [reflexivity|]. split; [reflexivity|]. split.
      { split; [apply known_unique, selec_keys|]. apply Forall_forall. intros k J. apply known_keys in J. unfold dkeys in J. rewrite map_map in J. apply in_map_iff in J as (i & <- & J).
        exists i. split; auto. apply in_option_nums in J. lia. }
      split.
      { apply Forall_forall. intros i J. rewrite VI by auto. apply (same_int0 5 5). auto. }
      split.
      - apply Forall_forall. intros x J. apply in_map_iff in J as (v & <- & J). now apply RB.
      - intros Z. apply map_eq_nil in Z. congruence. }
    split; [exact OK|]. rewrite (SELEC_write p O), (SELEC_write p' OK). do 2 f_equal. unfold selec_lines. rewrite SFL, FR. fold rows. f_equal.
    + assert (LV : forall q, List.length (selec_vals q) = 16%nat) by (intros q; unfold selec_vals, option_nums; now rewrite !map_length, seq_length).
      unfold cols_SELEC_1. apply same_line; [cbv; lia| |].
      * rewrite (proj1 (rec_ok_ints 5 16 _ (LV p))). apply forallb_forall. intros v J. apply in_map_iff in J as (i & <- & J). auto.
      * apply same_at. intros i L. unfold selec_vals.
        assert (Lo : (i < List.length (option_nums 16))%nat) by (unfold option_nums; rewrite map_length, seq_length; exact L).
        rewrite (nth_indep _ PNone (selec_int p 0)), (nth_indep (map (selec_int p') _) PNone (selec_int p' 0)) by now rewrite map_length.
        rewrite !map_nth. set (z := nth i (option_nums 16) 0). assert (J : In z (option_nums 16)) by now apply nth_In.
        rewrite VI by auto. apply same_int0. auto.
    + rewrite map_map. apply map_ext_in. intros v J. now apply RB.
  - split; [|discriminate].
    assert (G : dget #"selections" p' = Some (PDict [])).
    { rewrite (top_get p p' A) by reflexivity. change (FILE_entry p #"selections") with (if filled (val #"selections" p) then dget #"selections" (SELEC_back p) else None). rewrite F. reflexivity. }
    now rewrite (val_some _ _ _ G).
Qed.

(** ** PARAM *)
Definition opts_list (p : dict) : dict :=
  let o := options_of p in
  let int k := (k, col_val (CInt 4) (val k o)) in
  let n k := (k, sci 4 (val k o)) in
  [int #"n_iteration"; int #"verbosity"; int #"n_cycle"; int #"n_second"; int #"n_cycle_print";
         n #"temperature_dependence_gas"; n #"effective_strength_vapor"; n #"t_ini"; n #"t_max";
         (#"t_steps", steps_back (Param.steps_of p)); n #"t_step_max"; n #"gravity"; n #"t_reduce_factor";
         n #"mesh_scale_factor"; n #"eps1"; n #"eps2"; n #"w_upstream"; n #"w_newton"; n #"derivative_factor"].
Lemma opts_unique : keys_unique (opts_list p).
Proof. apply no_dup_keys_ok. reflexivity. Qed.
Lemma trim_idem l : trim (trim l) = trim l.
Proof. induction l as [|x l IH]; auto. cbn [trim]. destruct (trim l) as [|y r] eqn:E; [destruct (is_none x) eqn:N; cbn [trim]; now rewrite ?N|]. cbn [trim] in *. now rewrite IH. Qed.
Lemma steps_case l : steps_ok l -> steps_steady l = true -> Forall (fun v => num_fits 10 4 v = true) l /\ steps_back l = one_or_list (map (sci 4) l).
Proof.
  intros ([F| ->] & _) S; [|discriminate]. split; [exact F|]. destruct l as [|x [|y r]]; [discriminate|destruct x; try reflexivity; discriminate|destruct x; reflexivity].
Qed.
Lemma PARAM_again : PARAM_ok p -> steps_steady (Param.steps_of p) = true -> conditions_steady (conditions_of p) = true ->
  PARAM_ok p' /\ write_param p' = write_param p.
Proof.
  intros O SS CS. pose proof (param_recs p O) as (PR1 & PR2 & PR3).
  pose proof O as (G & U & T0 & GX & OX & (def & sk & GD & GI) & LI & FI & II & NN & S).
  assert (GO : dget #"options" p' = Some (PDict (PARAM_options p))) by (apply (top_some p p' A); reflexivity).
  assert (GE : dget #"extra_options" p' = Some (PDict (options_back 24 (mop_of p)))) by (apply (top_some p p' A); reflexivity).
  assert (OO : options_of p' = known (opts_list p)) by (unfold options_of at 1; now rewrite (val_some _ _ _ GO)).
  assert (MO : mop_of p' = options_back 24 (mop_of p)) by (unfold mop_of at 1; now rewrite (val_some _ _ _ GE)).
  assert (CO : calm (PDict (options_of p)) = true) by exact (calm_entry _ _ _ C G).
  rewrite forallb_forall in II, NN.
  destruct (steps_case _ S SS) as [SF SB].
  pose proof (nums_not_seq 10 4 _ SF) as NS.
  assert (CT : forallb calm (Param.steps_of p) = true) by (apply calm_times, calm_val; exact CO).
  destruct (nums_same 10 4 8 (Param.steps_of p)) as [F1 F2]; auto; try lia.
  assert (VI : forall kw, In kw int_options -> val (fst kw) (options_of p') = col_val (CInt 4) (val (fst kw) (options_of p))).
  { intros kw I. rewrite OO, val_known by apply opts_unique. cbn [int_options In] in I. repeat (destruct I as [<-|I]; [reflexivity|]). destruct I. }
  assert (VN : forall k, In k num_options -> val k (options_of p') = sci 4 (val k (options_of p))).
  { intros k I. rewrite OO, val_known by apply opts_unique. cbn [num_options In] in I. repeat (destruct I as [<-|I]; [reflexivity|]). destruct I. }
  assert (VS : Param.steps_of p' = map (sci 4) (Param.steps_of p)).
  { unfold Param.steps_of at 1. rewrite OO, val_known by apply opts_unique. change (val #"t_steps" (opts_list p)) with (steps_back (Param.steps_of p)).
    rewrite SB. apply one_or_list_times. intros x I. now apply NS. }
  assert (SI : forall kw, In kw int_options -> same (CInt (snd kw)) (val (fst kw) (options_of p)) (val (fst kw) (options_of p'))).
  { intros kw I. rewrite VI by auto. apply same_int0. auto. }
  assert (SN : forall k, In k num_options -> same (CSci 10 4) (val k (options_of p)) (val k (options_of p'))).
  { intros k I. rewrite VN by auto. apply same_sci; [lia|exact (NN k I)|]. apply calm_val; exact CO. }
  destruct (options_again 24 (mop_of p) OX) as [O1 O2].
  (* conditions *)
  set (l := conditions_of p) in *.
  assert (CL : forallb calm l = true).
  { apply calm_items. apply calm_val. apply calm_entries, calm_val. exact C. }
  set (t := trim (map (sci 13) l)).
  assert (NT : forall i, nth i t PNone = sci 13 (nth i l PNone)) by (intros i; unfold t; now rewrite nth_trim, nth_map_sci).
  assert (ST : forall i, same (CSci 20 13) (nth i l PNone) (nth i t PNone)).
  { intros i. rewrite NT. apply same_sci; [lia|now apply ok_nth|now apply calm_nth]. }
  assert (PS : existsb present l = existsb present t).
  { apply existsb_same; [reflexivity|]. intros i. rewrite NT. symmetry. apply (sci_shown 20). now apply ok_nth. }
  set (l' := match t with [] => repeat PNone 6 | _ => t end).
  destruct (default_again p p' A) as (def' & GD' & UD' & TD' & _ & LD').
  assert (GI' : dget #"initial_condition" def' = Some (PSeq SList l')).
  { rewrite LD'. unfold default_read. rewrite dget_dupdate by (unfold conditions_back; destruct (trim _); apply no_dup_keys_ok; reflexivity).
    unfold conditions_back. fold l t. unfold l'. destruct t as [|a r] eqn:ET.
    - cbn [dget]. destruct (rpcap_given p); [|reflexivity].
      replace (dget #"initial_condition" (models_back (default_of p))) with (@None pyval); [reflexivity|]. symmetry. apply dget_none_notin. intros I. unfold models_back, dkeys in I. apply in_map_iff in I as (kv & E & J).
      apply in_flat_map in J as (k' & I' & J). destruct (dget k' (default_of p)) as [[]|]; try contradiction. destruct (is_none _); [contradiction|]. destruct J as [<-|[]].
      cbn [fst] in E. subst k'. cbn [model_keys In] in I'. destruct I' as [I'|[I'|[]]]; discriminate.
    - reflexivity. }
  assert (LC : conditions_of p' = l').
  { unfold conditions_of. rewrite (val_some _ _ _ GD'). cbn [entries]. now rewrite (val_some _ _ _ GI'). }
  assert (TN : t = [] <-> existsb present l = false).
  { rewrite PS. split; [intros ->; reflexivity|]. intros E. destruct t as [|a r] eqn:ET; [reflexivity|exfalso].
    assert (X : existsb not_none t = true).
    { destruct (existsb not_none t) eqn:Z; [reflexivity|]. apply trim_nil_iff in Z. unfold t in Z. rewrite trim_idem in Z. fold t in Z. congruence. }
    apply existsb_exists in X as (x & Ix & Nx). rewrite ET in Ix. assert (existsb present (a :: r) = true); [|congruence].
    apply existsb_exists. exists x. split; [exact Ix|].
    assert (In x (map (sci 13) l)). { assert (Y : In x t) by (rewrite ET; exact Ix). unfold t in Y. clear - Y. revert Y. generalize (map (sci 13) l). intros m. induction m as [|y m IH]; auto. cbn [trim]. destruct (trim m); [destruct (is_none y); cbn; tauto|]. cbn [In] in *. tauto. }
    apply in_map_iff in H as (v & <- & _). unfold sci in *. cbn [col_val] in *. destruct (num_of v); [reflexivity|discriminate]. }
  assert (LE : (List.length l' <= 8)%nat).
  { unfold l'. pose proof (trim_length (map (sci 13) l)) as Q. rewrite map_length in Q. fold t in Q. destruct t; [cbn; lia|lia]. }
  assert (SL : forall i, same (CSci 20 13) (nth i l PNone) (nth i l' PNone)).
  { intros i. specialize (ST i). unfold l'. destruct t as [|a r]; [|exact ST].
    replace (nth i (repeat PNone 6) PNone) with PNone; [destruct i; exact ST|]. do 6 (destruct i as [|i]; [reflexivity|]). destruct i; reflexivity. }
  assert (FL : forallb (col_ok (CSci 20 13)) l' = true).
  { apply forallb_forall. intros x I. destruct (In_nth _ _ PNone I) as (i & _ & <-). apply SL. }
  assert (LG : long l' = long l).
  { unfold conditions_steady in CS. unfold l'. destruct (existsb present l) eqn:EP.
    - destruct t as [|a r] eqn:ET; [destruct TN as [TN _]; specialize (TN eq_refl); congruence|]. rewrite <- ET. destruct (long l) eqn:LL.
      + cbn [implb] in CS. apply (existsb_nth present) in CS as (i & X); [|reflexivity]. rewrite nth_skipn in X. apply long_nth. exists (4 + i)%nat. split; [lia|].
        rewrite ET, NT. intros Y. assert (Q : present (sci 13 (nth (4 + i) l PNone)) = present (nth (4 + i) l PNone)) by (apply (sci_shown 20); now apply ok_nth).
        rewrite X, Y in Q. discriminate.
      + unfold long in *. apply Nat.ltb_ge. apply Nat.ltb_ge in LL. pose proof (trim_length (map (sci 13) l)) as Q. rewrite map_length in Q. fold t in Q. lia.
    - rewrite (proj2 TN eq_refl). rewrite CS. reflexivity. }
  assert (OK : PARAM_ok p').
  { unfold PARAM_ok. split; [rewrite GO; f_equal; f_equal; symmetry; exact OO|]. split; [rewrite OO; apply known_unique, opts_unique|]. split.
    { rewrite OO. apply typed_by; [apply known_unique, opts_unique|]. intros k kd v I GV. rewrite dget_known in GV by apply opts_unique.
      destruct (dget k (opts_list p)) as [w|] eqn:W; [|discriminate]. destruct (is_none w); [discriminate|]. assert (w = v) by congruence. subst w.
      assert (X : (kd = Integer /\ v = col_val (CInt 4) (val k (options_of p))) \/ (kd = Number /\ v = sci 4 (val k (options_of p))) \/ (kd = NumberOrSequence /\ v = steps_back (Param.steps_of p))).
      { cbn [kinds_PARAM same_kind map app In] in I. clear - I W.
        repeat (destruct I as [I|I]; [apply pair_equal_spec in I as [<- <-]; apply (f_equal (fun o => match o with Some x => x | None => PNone end)) in W; first [left; split; [reflexivity|symmetry; exact W] | right; left; split; [reflexivity|symmetry; exact W] | right; right; split; [reflexivity|symmetry; exact W]]|]).
        destruct I. }
      destruct X as [[-> ->]|[[-> ->]|[-> ->]]].
      - cbn [col_val]. destruct (int_of _); reflexivity.
      - apply sci_kind.
      - rewrite SB. destruct (Param.steps_of p) as [|a [|b r]]; [reflexivity| |apply orb_true_r]. cbn [map one_or_list].
        pose proof (sci_kind 4 a) as Q. cbn [of_kind] in Q |- *. destruct (is_none (sci 4 a)); [reflexivity|]. cbn [orb] in Q |- *. now rewrite Q. }
    split; [rewrite GE; f_equal; f_equal; symmetry; exact MO|]. split; [rewrite MO; exact O1|].
    split; [exists def', SList; split; [exact GD'|rewrite LC; exact GI']|].
    rewrite LC. split; [exact LE|]. split; [exact FL|]. split; [apply forallb_forall; intros kw I; now apply SI|].
    split; [apply forallb_forall; intros k I; exact (proj1 (SN k I))|].
    split; rewrite VS; [left; exact F1|rewrite map_length; apply S]. }
  split; [exact OK|]. rewrite (PARAM_write p O), (PARAM_write p' OK). do 2 f_equal. unfold param_lines.
  assert (S0 : forall k w, In (k, w) int_options -> same (CInt w) (val k (options_of p)) (val k (options_of p'))) by (intros k w I; exact (SI (k, w) I)).
  f_equal; [|f_equal; [|f_equal; [|f_equal]]].
  - apply same_line; [cbv; lia|exact PR1|]. unfold cols_PARAM_1, param_1 in *. cbv zeta in *. rewrite MO, O2.
    repeat apply same_rec_cons; try apply same_rec_nil; try (apply S0; cbn; tauto); try (apply SN; cbn; tauto); [|now apply same_none].
    apply same_refl. repeat rewrite rec_ok_cons in PR1. repeat rewrite andb_true_iff in PR1. tauto.
  - apply same_line; [cbv; lia|exact PR2|]. unfold cols_PARAM_2, param_2 in *. cbv zeta in *.
    repeat apply same_rec_cons; try apply same_rec_nil; try (apply S0; cbn; tauto); try (apply SN; cbn; tauto); [|now apply same_none].
    unfold steps_count. rewrite VS, map_length.
    apply same_refl. repeat rewrite rec_ok_cons in PR2. repeat rewrite andb_true_iff in PR2. tauto.
  - unfold steps_lines. now rewrite VS, F2.
  - apply same_line; [cbv; lia|exact PR3|]. unfold cols_PARAM_4, param_3 in *. cbv zeta in *.
    repeat apply same_rec_cons; try apply same_rec_nil; try (apply S0; cbn; tauto); try (apply SN; cbn; tauto). now apply same_none.
  - rewrite LC. fold l. unfold cond_lines. fold (long l) (long l'). rewrite LG. f_equal.
    + apply same_line; [cbv; lia|apply cond_rec, forallb_firstn; exact FI|]. apply same_at. intros i I. rewrite !nth_firstn_lt by auto. apply SL.
    + destruct (long l); [|reflexivity]. f_equal. apply same_line; [cbv; lia|apply cond_rec, forallb_skipn; exact FI|]. apply same_at. intros i I. rewrite !nth_skipn. apply SL.
Qed.
End Top.
