(** The whole input file written a second time. *)
From Coq Require Import String Ascii ZArith Bool Lia List.
From Verif Require Import Base.Str Base.Digits Base.Flt Base.FltText Base.FltInt.
From Verif Require Import Model.Py Model.Records Model.Write Model.Read.
From Verif Require Import Spec.Fields Spec.Values Spec.Types Spec.Layouts Spec.Rocks Spec.Flac Spec.Simple Spec.Param
  Spec.Indom Spec.Outpu Spec.Labels Spec.Mesh Spec.Incon Spec.Gener Spec.File Spec.Again.
From Verif Require Import Proofs.RecordLemmas Proofs.DictLemmas Proofs.Layouts Proofs.Types Proofs.BlockTools Proofs.RocksProof
  Proofs.FlacProof Proofs.SimpleProof Proofs.ParamProof Proofs.IndomProof Proofs.OutpuProof Proofs.LabelProof Proofs.MeshProof
  Proofs.InconProof Proofs.GenerProof
  Proofs.FileProof Proofs.FileKeys Proofs.AgainCols Proofs.AgainPrep Proofs.AgainRocks Proofs.AgainBlocks Proofs.AgainSimple
  Proofs.AgainParam Proofs.AgainMesh Proofs.AgainGener Proofs.AgainOutpu.
Import ListNotations.
Local Open Scope Z_scope.

(** ** The file, block after block *)
Lemma buffer_of p o1 o2 o3 o4 o5 o6 o7 o8 o9 o10 o11 o12 o13 o14 o15 o16 o17 o18 o19 o20 o21 :
  FILE_ok p -> forallb (fun k => dmem k p) top_keys = true -> is_seq (val #"title" p) = true ->
  let q := ROCKS_after p in
  when (rpcap_given p) (write_rpcap q) = Ok o1 -> when (given #"flac" p) (write_flac q) = Ok o2 ->
  when (multi_given p) (write_multi q) = Ok o3 -> when (filled (val #"solver" p)) (write_solvr q) = Ok o4 ->
  when (filled (val #"start" p)) write_start = Ok o5 -> write_param q = Ok o6 ->
  when (filled (val #"selections" p)) (write_selec q) = Ok o7 -> when (indom_given p) (write_indom q) = Ok o8 ->
  when (filled (val #"more_options" p)) (write_momop q) = Ok o9 -> when (given #"times" p) (write_times q) = Ok o10 ->
  when (given #"element_history" p) (write_foft q) = Ok o11 -> when (given #"connection_history" p) (write_coft q) = Ok o12 ->
  when (given #"generator_history" p) (write_goft q) = Ok o13 -> when (filled (val #"generators" p)) (write_gener q) = Ok o14 ->
  when (given #"diffusion" p) (write_diffu q) = Ok o15 -> when (filled (val #"output" p)) (write_outpu q) = Ok o16 ->
  when (filled (val #"elements" p)) (write_eleme q) = Ok o17 -> when (filled (val #"coordinates" p)) (write_coord q) = Ok o18 ->
  when (filled (val #"connections" p)) (write_conne q) = Ok o19 -> when (filled (val #"initial_conditions" p)) (write_incon q) = Ok o20 ->
  when (filled (val #"nover" p)) write_nover = Ok o21 ->
  write_buffer p SelAll = Ok (map title_line (titles_of p) ++ (head ($"ROCKS") :: ROCKS_body p) ++
    concat [o1; o2; o3; o4; o5; o6; o7; o8; o9; o10; o11; o12; o13; o14; o15; o16; o17; o18; o19; o20; o21] ++ [head_noend ($"ENDCY")]).
Proof.
  intros H M Q q W1 W2 W3 W4 W5 W6 W7 W8 W9 W10 W11 W12 W13 W14 W15 W16 W17 W18 W19 W20 W21. unfold q in *. clear q.
  pose proof H as (T & TT & R & RP & _ & IC & _ & MU & _).
  assert (MK : forall k, In k top_keys -> dmem k p = true) by (rewrite forallb_forall in M; auto).
  unfold write_buffer. rewrite (check_dict_ok _ _ _ st_PARAMETERS), T. cbn [bind].
  assert (GE : forall k, existsb (key_eqb k) top_keys = true -> dgetE k p = Ok (val k p)).
  { intros k Hk. apply dgetE_val, MK. apply existsb_exists in Hk as (k' & I & E). apply key_eqb_eq in E. now subst. }
  rewrite !GE by reflexivity. cbn [bind].
  rewrite (typed_truthy p #"eos" Text), (typed_truthy p #"n_component" Integer), (typed_truthy p #"n_phase" Integer) by auto.
  cbn [bind].
  assert (EOS : negb (filled (val #"eos" p)) || match val #"eos" p with
                              | PStr s => match eos_get s d_eos with Some _ => true | None => false end
                              | _ => false end = true).
  { pose proof (typed_at _ _ #"eos" Text T eq_refl) as X. destruct (val #"eos" p) as [| | | | |s| |] eqn:E; try discriminate; [reflexivity|].
    destruct s as [|c s]; [reflexivity|]. assert (Y : multi_given p = true) by (unfold multi_given; now rewrite E).
    destruct (MU Y) as (_ & Z & _). rewrite E in Z. destruct (eos_known (c :: s)) as (l & L); [discriminate|exact Z|].
    rewrite L. reflexivity. }
  rewrite EOS. cbn [guard bind].
  pose proof RP as (def & D & U & MD). unfold get_dict at 1, dgetE at 1. rewrite D. cbn [bind as_dict].
  rewrite forallb_forall in MD.
  rewrite !model_set_ok by (apply MD; cbn [model_keys In]; tauto). cbn [bind].
  pose proof R as (_ & RR & _ & _ & _ & FR). unfold get_dict at 1, dgetE at 1. rewrite RR. cbn [bind as_dict].
  rewrite indom_flag_ok.
  2:{ apply Forall_forall. intros kv Hk. rewrite Forall_forall in FR, IC. split; [|now apply IC].
      destruct (FR kv Hk) as (s & r & -> & _). reflexivity. }
  cbn [bind].
  fold (indom_given p) (multi_given p).
  replace (model_given def #"relative_permeability" || model_given def #"capillarity") with (rpcap_given p).
  2:{ unfold rpcap_given, default_of. rewrite (val_some _ _ _ D). cbn [entries model_keys existsb]. now rewrite orb_false_r. }
  rewrite write_title_ok by (auto; apply MK; cbn; tauto). cbn [bind].
  rewrite write_rocks_ok by auto. cbn [bind].
  repeat rewrite if_true_after by discriminate. repeat rewrite if_some_after by discriminate.
  rewrite (if_true_ok p #"solver" Dictionary), (if_true_ok p #"start" Boolean), (if_true_ok p #"selections" Dictionary),
    (if_true_ok p #"more_options" Dictionary) by (auto; apply MK; cbn; tauto).
  repeat rewrite if_some_ok by (apply MK; cbn; tauto).
  rewrite W1. cbn [bind]. rewrite W2. cbn [bind]. rewrite W3. cbn [bind]. rewrite W4. cbn [bind]. rewrite W5. cbn [bind].
  rewrite W6. cbn [bind]. rewrite W7. cbn [bind]. rewrite W8. cbn [bind]. rewrite W9. cbn [bind]. rewrite W10. cbn [bind].
  rewrite W11. cbn [bind]. rewrite W12. cbn [bind]. rewrite W13. cbn [bind].
  repeat rewrite if_true_after by discriminate. repeat rewrite if_some_after by discriminate.
  rewrite (if_true_ok p #"generators" Dictionary), (if_true_ok p #"output" Dictionary),
    (if_true_ok p #"elements" Dictionary), (if_true_ok p #"coordinates" Boolean), (if_true_ok p #"connections" Dictionary),
    (if_true_ok p #"initial_conditions" Dictionary), (if_true_ok p #"nover" Boolean) by (auto; apply MK; cbn; tauto).
  repeat rewrite if_some_ok by (apply MK; cbn; tauto).
  rewrite W14. cbn [bind]. rewrite W15. cbn [bind]. rewrite W16. cbn [bind]. rewrite W17. cbn [bind]. rewrite W18. cbn [bind].
  rewrite W19. cbn [bind]. rewrite W20. cbn [bind]. rewrite W21. cbn [bind].
  f_equal. cbn [concat write_endcy bind]. rewrite app_nil_r, <- !app_assoc. reflexivity.
Qed.

Lemma when_same b b' (w w' : res (list str)) o : b' = b -> (b = true -> w' = w) -> when b w = Ok o -> when b' w' = Ok o.
Proof. intros -> E. destruct b; cbn [when]; auto. now rewrite (E eq_refl). Qed.

(** ** Options *)
Lemma in_known kv d : is_none (snd kv) = false -> In kv d -> In kv (known d).
Proof.
  intros N. induction d as [|[k v] d IH]; intros I; [contradiction|]. cbn [known]. destruct I as [<-|I].
  - cbn [snd] in N. rewrite N. now left.
  - destruct (is_none v); [auto|right; auto].
Qed.
Lemma some_option_back n d : options_ok n d -> some_option d = true -> options_back n d <> [].
Proof.
  intros (U & F) S. apply existsb_exists in S as ((k & v) & I & N). cbn [snd] in N.
  rewrite Forall_forall in F. destruct (F _ I) as ((i & E & B) & D). cbn [fst snd] in E, D. subst k.
  assert (V : val (KI i) d = v) by (apply val_some; now apply in_dget).
  assert (In (KI i, col_val (CInt 1) v) (options_back n d)).
  { unfold options_back. apply in_known; [destruct v; try discriminate; cbn; auto|].
    apply in_map_iff. exists i. split; [now rewrite V|]. unfold option_nums. apply in_map_iff.
      exists (Z.to_nat i). split; [lia|]. apply in_seq. lia. }
  intros X. now rewrite X in H.
Qed.

Section Whole.
Variables p p' : dict.
Hypothesis H : FILE_ok p.
Hypothesis S : FILE_steady p = true.
Hypothesis A : again p p'.

Lemma implb_use a b : implb a b = true -> a = true -> b = true.
Proof. intros X ->. exact X. Qed.
Lemma each_Forall (f : dict -> bool) (d : dict) : forallb (fun kv => f (entries (snd kv))) d = true ->
  Forall (fun kv => f (entries (snd kv)) = true) d.
Proof. intros X. apply Forall_forall. now apply forallb_forall. Qed.

(** ** The types *)
Lemma FILE_typed : well_typed kinds_PARAMETERS p' = true.
Proof.
  pose proof H as (T & _). destruct (ag_rocks _ _ A) as (rs & RS & _). destruct (ag_default _ _ A) as (def & DF & _).
  apply typed_val; [apply (ag_unique _ _ A)|].
  intros k kd I. unfold kinds_PARAMETERS, same_kind in I. cbn [map app] in I.
  repeat match type of I with _ \/ _ => destruct I as [I|I] | In _ (_ :: _) => destruct I as [I|I] end; try contradiction;
    apply pair_equal_spec in I as [<- <-];
    try (pose proof (ag_title_seq _ _ A) as X; destruct (val #"title" p'); try discriminate; reflexivity);
    try (unfold val; first [rewrite RS|rewrite DF]; reflexivity);
    unfold val; rewrite (top_get p p' A) by reflexivity.
  all: try solve [
    match goal with |- context [FILE_entry p #"eos"] => change (FILE_entry p #"eos") with (@None pyval); change (dget #"eos" top_defaults) with (Some (PStr [])); reflexivity end
    |match goal with |- context [FILE_entry p #"n_component_mass"] => change (FILE_entry p #"n_component_mass") with (@None pyval); change (dget #"n_component_mass" top_defaults) with (Some (PNone)); reflexivity end
    |match goal with |- context [FILE_entry p #"n_component"] => change (FILE_entry p #"n_component") with (if multi_given p then dget #"n_component" (MULTI_back p) else None); change (dget #"n_component" top_defaults) with (Some (PNone)); destruct (multi_given p); reflexivity end
    |match goal with |- context [FILE_entry p #"n_phase"] => change (FILE_entry p #"n_phase") with (if multi_given p then dget #"n_phase" (MULTI_back p) else None); change (dget #"n_phase" top_defaults) with (Some (PNone)); destruct (multi_given p); reflexivity end
    |match goal with |- context [FILE_entry p #"isothermal"] => change (FILE_entry p #"isothermal") with (if multi_given p then dget #"isothermal" (MULTI_back p) else None); change (dget #"isothermal" top_defaults) with (Some (PBool false)); destruct (multi_given p); reflexivity end
    |match goal with |- context [FILE_entry p #"start"] => change (FILE_entry p #"start") with (when_some (filled (val #"start" p)) (PBool true)); change (dget #"start" top_defaults) with (Some (PBool true)); destruct (filled (val #"start" p)); reflexivity end
    |match goal with |- context [FILE_entry p #"nover"] => change (FILE_entry p #"nover") with (when_some (filled (val #"nover" p)) (PBool true)); change (dget #"nover" top_defaults) with (Some (PBool false)); destruct (filled (val #"nover" p)); reflexivity end
    |match goal with |- context [FILE_entry p #"coordinates"] => change (FILE_entry p #"coordinates") with (when_some (filled (val #"elements" p)) (PBool (filled (val #"coordinates" p)))); change (dget #"coordinates" top_defaults) with (Some (PBool false)); destruct (filled (val #"elements" p)); reflexivity end
    |match goal with |- context [FILE_entry p #"flac"] => change (FILE_entry p #"flac") with (when_some (given #"flac" p) (PDict (flac_back p))); change (dget #"flac" top_defaults) with (Some (PNone)); destruct (given #"flac" p); reflexivity end
    |match goal with |- context [FILE_entry p #"options"] => change (FILE_entry p #"options") with (Some (PDict (PARAM_options p))); change (dget #"options" top_defaults) with (Some (PDict [])); reflexivity end
    |match goal with |- context [FILE_entry p #"extra_options"] => change (FILE_entry p #"extra_options") with (Some (PDict (options_back 24 (mop_of p)))); change (dget #"extra_options" top_defaults) with (Some (PDict [])); reflexivity end
    |match goal with |- context [FILE_entry p #"more_options"] => change (FILE_entry p #"more_options") with (if filled (val #"more_options" p) then dget #"more_options" (MOMOP_back p) else None); change (dget #"more_options" top_defaults) with (Some (PDict [])); destruct (filled (val #"more_options" p)); reflexivity end
    |match goal with |- context [FILE_entry p #"selections"] => change (FILE_entry p #"selections") with (if filled (val #"selections" p) then dget #"selections" (SELEC_back p) else None); change (dget #"selections" top_defaults) with (Some (PDict [])); destruct (filled (val #"selections" p)); reflexivity end
    |match goal with |- context [FILE_entry p #"solver"] => change (FILE_entry p #"solver") with (if filled (val #"solver" p) then dget #"solver" (SOLVR_back p) else None); change (dget #"solver" top_defaults) with (Some (PDict [])); destruct (filled (val #"solver" p)); reflexivity end
    |match goal with |- context [FILE_entry p #"generators"] => change (FILE_entry p #"generators") with (if filled (val #"generators" p) then dget #"generators" (GENER_back p) else None); change (dget #"generators" top_defaults) with (Some (PDict [])); destruct (filled (val #"generators" p)); reflexivity end
    |match goal with |- context [FILE_entry p #"output"] => change (FILE_entry p #"output") with (if filled (val #"output" p) then dget #"output" (OUTPU_back p) else None); change (dget #"output" top_defaults) with (Some (PNone)); destruct (filled (val #"output" p)); reflexivity end
    |match goal with |- context [FILE_entry p #"connections"] => change (FILE_entry p #"connections") with (if filled (val #"connections" p) then dget #"connections" (CONNE_back p) else None); change (dget #"connections" top_defaults) with (Some (PDict [])); destruct (filled (val #"connections" p)); reflexivity end
    |match goal with |- context [FILE_entry p #"initial_conditions"] => change (FILE_entry p #"initial_conditions") with (if filled (val #"initial_conditions" p) then dget #"initial_conditions" (INCON_back p) else None); change (dget #"initial_conditions" top_defaults) with (Some (PDict [])); destruct (filled (val #"initial_conditions" p)); reflexivity end
    |match goal with |- context [FILE_entry p #"elements"] => change (FILE_entry p #"elements") with (when_some (filled (val #"elements" p)) (PDict (if filled (val #"coordinates" p) then with_centers p (elements_back p) else elements_back p))); change (dget #"elements" top_defaults) with (Some (PDict [])); destruct (filled (val #"elements" p)); reflexivity end
    |match goal with |- context [FILE_entry p #"rocks_order"] => change (FILE_entry p #"rocks_order") with (Some (PSeq SList (rocks_order_of p))); change (dget #"rocks_order" top_defaults) with (Some (PNone)); reflexivity end
    |match goal with |- context [FILE_entry p #"element_history"] => change (FILE_entry p #"element_history") with (if given #"element_history" p then dget #"element_history" (OFT_back #"element_history" p) else None); change (dget #"element_history" top_defaults) with (Some (PNone)); destruct (given #"element_history" p); reflexivity end
    |match goal with |- context [FILE_entry p #"connection_history"] => change (FILE_entry p #"connection_history") with (if given #"connection_history" p then dget #"connection_history" (OFT_back #"connection_history" p) else None); change (dget #"connection_history" top_defaults) with (Some (PNone)); destruct (given #"connection_history" p); reflexivity end
    |match goal with |- context [FILE_entry p #"generator_history"] => change (FILE_entry p #"generator_history") with (if given #"generator_history" p then dget #"generator_history" (OFT_back #"generator_history" p) else None); change (dget #"generator_history" top_defaults) with (Some (PNone)); destruct (given #"generator_history" p); reflexivity end
    |match goal with |- context [FILE_entry p #"diffusion"] => change (FILE_entry p #"diffusion") with (if given #"diffusion" p then dget #"diffusion" (DIFFU_back p) else None); change (dget #"diffusion" top_defaults) with (Some (PNone)); destruct (given #"diffusion" p); reflexivity end
    |match goal with |- context [FILE_entry p #"elements_order"] => change (FILE_entry p #"elements_order") with (when_some (filled (val #"elements" p)) (PSeq SList (elements_order_of p))); change (dget #"elements_order" top_defaults) with (Some (PNone)); destruct (filled (val #"elements" p)); reflexivity end
    |match goal with |- context [FILE_entry p #"connections_order"] => change (FILE_entry p #"connections_order") with (if filled (val #"connections" p) then dget #"connections_order" (CONNE_back p) else None); change (dget #"connections_order" top_defaults) with (Some (PNone)); destruct (filled (val #"connections" p)); reflexivity end
    |match goal with |- context [FILE_entry p #"initial_conditions_order"] => change (FILE_entry p #"initial_conditions_order") with (if filled (val #"initial_conditions" p) then dget #"initial_conditions_order" (INCON_back p) else None); change (dget #"initial_conditions_order" top_defaults) with (Some (PNone)); destruct (filled (val #"initial_conditions" p)); reflexivity end].
  (* times *)
  pose proof H as (_ & _ & _ & _ & _ & _ & _ & _ & _ & _ & _ & _ & TM & _).
  change (FILE_entry p #"times") with (if given #"times" p then Some (one_or_list (map (sci 4) (times_of p))) else None).
  change (dget #"times" top_defaults) with (Some PNone).
  destruct (given #"times" p); [|reflexivity]. cbn [pick]. destruct (TM eq_refl) as (_ & F & _).
  destruct (times_of p) as [|a [|b l]]; try reflexivity. apply Forall_cons_iff in F as [F _]. cbn [map one_or_list].
  apply orb_true_iff. right. unfold num_fits in F. cbn [of_kind]. apply orb_true_iff. left.
  apply andb_true_iff in F as [F1 F2]. destruct a as [| | | | |[|c s]| |]; try discriminate; reflexivity.
Qed.

(** ** The second file *)
Lemma FILE_same ll : FILE_known ll p -> forallb (fun k => dmem k p) top_keys = true -> is_seq (val #"title" p) = true ->
  forallb (fun k => dmem k p') top_keys = true -> FILE_ok p' /\ write_buffer p' SelAll = write_buffer p SelAll.
Proof.
  intros K M Q M'.
  pose proof S as SS. unfold FILE_steady in SS. cbv zeta in SS.
  repeat match goal with X : _ && _ = true |- _ => let Y := fresh "B" in apply andb_true_iff in X as [X Y] end.
  rename SS into C. 
  pose proof H as (T & TT & R & RP & PA & IC & _ & F3 & F4 & F7 & F8 & F9 & F10 & F11 & F12 & F13 & F14 & F15 & F16 & F17 & F18 & F19 & F20).
  assert (NF : given #"flac" p = false) by (now apply negb_true_iff).
  (* each block *)
  destruct (ROCKS_again p p' R C A (each_Forall _ _ B10)) as [R' RB].
  destruct (RPCAP_again p p' C A RP (implb_use _ _ B8)) as (RP' & G1 & E1).
  destruct (INDOM_again p p' R C A F8 (fun X => each_Forall (fun r => no_texts (condition_of r)) _ (implb_use _ _ B9 X))) as (G8 & E8 & IC').
  destruct (MULTI_again p p' A (fun X => conj (F3 X) (implb_use _ _ B7 X)) F15) as (G3 & E3).
  destruct (SOLVR_again p p' A C F4) as (G4 & E4).
  destruct (PARAM_again p p' A C PA B12 B11) as (PA' & E6).
  destruct (SELEC_again p p' A C (fun X => conj (F7 X) (implb_use _ _ B6 X))) as (G7 & E7).
  destruct (MOMOP_again p p' A (fun X => conj (F9 X) (some_option_back _ _ (proj2 (F9 X)) (implb_use _ _ B5 X)))) as (G9 & E9).
  destruct (TIMES_again p p' A C F10) as (G10 & E10).
  destruct (OFT_again p p' A 5 ($"FOFT") #"element_history" fmt_FOFT) as (G11 & E11); [cbn [In]; tauto|reflexivity|lia|exact F11|].
  destruct (OFT_again p p' A 10 ($"COFT") #"connection_history" fmt_COFT) as (G12 & E12); [cbn [In]; tauto|reflexivity|lia|exact F12|].
  destruct (OFT_again p p' A 5 ($"GOFT") #"generator_history" fmt_GOFT) as (G13 & E13); [cbn [In]; tauto|reflexivity|lia|exact F13|].
  destruct (GENER_again p p' A C (fun X => conj (F14 X) (implb_use _ _ B4 X))) as (G14 & E14).
  destruct (DIFFU_again p p' A C F15) as (G15 & E15).
  destruct (OUTPU_again p p' A (fun X => conj (F16 X) (implb_use _ _ B3 X))) as (G16 & E16).
  destruct (ELEME_again p p' A C (fun X => conj (F17 X) (implb_use _ _ B2 X))
    (fun X => conj (proj1 (F18 X)) (conj (proj2 (F18 X)) (implb_use _ _ B1 X)))) as (G17 & G18 & E17 & E18).
  destruct (CONNE_again p p' A C (fun X => conj (F19 X) (implb_use _ _ B0 X))) as (G19 & E19).
  destruct (INCON_again p p' A C (fun X => conj (F20 X) (implb_use _ _ B X))) as (G20 & E20).
  (* the rest *)
  assert (G2 : given #"flac" p' = false).
  { unfold given, val. rewrite (top_get p p' A) by reflexivity.
    change (FILE_entry p #"flac") with (when_some (given #"flac" p) (PDict (flac_back p))). rewrite NF. reflexivity. }
  assert (G5 : filled (val #"start" p') = filled (val #"start" p)).
  { rewrite B15. unfold val. rewrite (top_get p p' A) by reflexivity.
    change (FILE_entry p #"start") with (when_some (filled (val #"start" p)) (PBool true)). rewrite B15. reflexivity. }
  assert (G21 : filled (val #"nover" p') = filled (val #"nover" p)).
  { unfold val at 1. rewrite (top_get p p' A) by reflexivity.
    change (FILE_entry p #"nover") with (when_some (filled (val #"nover" p)) (PBool true)).
    destruct (filled (val #"nover" p)); reflexivity. }
  assert (TI : titles_of p' = titles_of p).
  { rewrite (ag_title _ _ A). destruct (titles_of p); [discriminate|reflexivity]. }
  assert (H' : FILE_ok p').
  { unfold FILE_ok. rewrite TI, G2, G3, G4, G7, G8, G9, G10, G11, G12, G13, G14, G15, G16, G17, G18, G19, G20.
    split; [exact FILE_typed|]. do 5 (split; [assumption|]). split; [discriminate|].
    split; [now apply E3|]. split; [now apply E4|]. split; [now apply E7|]. split; [now apply E8|]. split; [now apply E9|].
    split; [now apply E10|]. split; [now apply E11|]. split; [now apply E12|]. split; [now apply E13|].
    split; [now apply E14|]. split; [now apply E15|]. split; [now apply E16|]. split; [now apply E17|].
    split; [intros X; split; [now apply F18|now apply E18]|]. split; [now apply E19|now apply E20]. }
  split; [exact H'|].
  destruct (seg_RPCAP ll p H) as (o1 & W1 & _).
  destruct (seg_FLAC ll p H) as (o2 & W2 & _).
  destruct (seg_MULTI ll p H) as (o3 & W3 & _).
  destruct (seg_SOLVR ll p H) as (o4 & W4 & _).
  destruct (seg_START ll p) as (o5 & W5 & _).
  destruct (seg_PARAM ll p H) as (o6 & W6 & _). cbn [when] in W6.
  destruct (seg_SELEC ll p H) as (o7 & W7 & _).
  destruct (seg_INDOM ll p H) as (o8 & W8 & _).
  destruct (seg_MOMOP ll p H) as (o9 & W9 & _).
  destruct (seg_TIMES ll p H) as (o10 & W10 & _).
  destruct (seg_FOFT ll p H) as (o11 & W11 & _).
  destruct (seg_COFT ll p H) as (o12 & W12 & _).
  destruct (seg_GOFT ll p H) as (o13 & W13 & _).
  destruct (seg_GENER ll p H K) as (o14 & W14 & _).
  destruct (seg_DIFFU ll p H) as (o15 & W15 & _).
  destruct (seg_OUTPU ll p H) as (o16 & W16 & _).
  destruct (seg_ELEME ll p H K) as (o17 & W17 & _).
  destruct (seg_COORD ll p H) as (o18 & W18 & _).
  destruct (seg_CONNE ll p H K) as (o19 & W19 & _).
  destruct (seg_INCON ll p H K) as (o20 & W20 & _).
  destruct (seg_NOVER ll p) as (o21 & W21 & _).
  rewrite (buffer_of p o1 o2 o3 o4 o5 o6 o7 o8 o9 o10 o11 o12 o13 o14 o15 o16 o17 o18 o19 o20 o21) by assumption.
  rewrite <- TI, <- RB.
  apply buffer_of; auto; try (apply (ag_title_seq _ _ A)).
  - apply (when_same _ _ _ _ _ G1) with (2 := W1). intros X. rewrite !rpcap_after. auto.
  - rewrite G2. rewrite NF in W2. exact W2.
  - apply (when_same _ _ _ _ _ G3) with (2 := W3). intros X. rewrite !multi_after. now apply E3.
  - apply (when_same _ _ _ _ _ G4) with (2 := W4). intros X. rewrite !solvr_after. now apply E4.
  - now rewrite G5.
  - rewrite param_after in *. now rewrite E6.
  - apply (when_same _ _ _ _ _ G7) with (2 := W7). intros X. rewrite !selec_after. now apply E7.
  - apply (when_same _ _ _ _ _ G8) with (2 := W8). intros X. destruct (E8 X) as [I8 BD]. rewrite !indom_after by auto.
    rewrite !INDOM_write by auto. now rewrite BD.
  - apply (when_same _ _ _ _ _ G9) with (2 := W9). intros X. rewrite !momop_after. now apply E9.
  - apply (when_same _ _ _ _ _ G10) with (2 := W10). intros X. rewrite !times_after. now apply E10.
  - apply (when_same _ _ _ _ _ G11) with (2 := W11). intros X. rewrite !foft_after. now apply E11.
  - apply (when_same _ _ _ _ _ G12) with (2 := W12). intros X. rewrite !coft_after. now apply E12.
  - apply (when_same _ _ _ _ _ G13) with (2 := W13). intros X. rewrite !goft_after. now apply E13.
  - apply (when_same _ _ _ _ _ G14) with (2 := W14). intros X. rewrite !gener_after. now apply E14.
  - apply (when_same _ _ _ _ _ G15) with (2 := W15). intros X. rewrite !diffu_after. now apply E15.
  - apply (when_same _ _ _ _ _ G16) with (2 := W16). intros X. rewrite !outpu_after. now apply E16.
  - apply (when_same _ _ _ _ _ G17) with (2 := W17). intros X. rewrite !eleme_after. now apply E17.
  - apply (when_same _ _ _ _ _ G18) with (2 := W18). intros X. rewrite !coord_after. now apply E18.
  - apply (when_same _ _ _ _ _ G19) with (2 := W19). intros X. rewrite !conne_after. now apply E19.
  - apply (when_same _ _ _ _ _ G20) with (2 := W20). intros X. rewrite !incon_after. now apply E20.
  - now rewrite G21.
Qed.
End Whole.

(** ** Written, read and written again *)
Theorem FILE_twice u p ll fuel : prepare u = Ok p -> FILE_ok p -> FILE_steady p = true -> label_choice ll ->
  FILE_known (label_given ll) p -> (List.length (titles_of p) < fuel)%nat ->
  exists t, write_text u ($"all") = Ok t /\ read_text fuel ll t = Ok (FILE_back p) /\ write_text (FILE_back p) ($"all") = Ok t.
Proof.
  intros E H S LC K L. destruct (FILE_roundtrip u p ll fuel E H LC K L) as (t & W & R). exists t. split; [exact W|]. split; [exact R|].
  assert (NF : given #"flac" p = false).
  { pose proof S as X. unfold FILE_steady in X. cbv zeta in X. rewrite !andb_true_iff in X. apply negb_true_iff. tauto. }
  destruct (FILE_again p H NF) as (p' & E' & A).
  destruct (prepare_keys u p E) as [M NS]. destruct (prepare_keys _ p' E') as [M' _].
  assert (Q : is_seq (val #"title" p) = true).
  { pose proof H as (T & TT & _). pose proof (typed_at _ _ #"title" TextOrSequence T eq_refl) as X. destruct (val #"title" p) eqn:V; try discriminate; auto.
    exfalso. unfold titles_of in TT. rewrite V in TT. inversion_clear TT as [|? ? (s & Y & _)]. discriminate. }
  destruct (FILE_same p p' H S A (label_given ll) K M Q M') as [_ SW].
  unfold write_text in *. change (sel_of ($"all")) with (Some SelAll) in *. cbv iota in *.
  rewrite E in W. rewrite E'. cbn [bind] in *. now rewrite SW.
Qed.
From Verif Require Import Spec.Rewrites.
Theorem FILE_rewritten u p ll fuel : prepare u = Ok p -> FILE_ok p -> FILE_steady p = true -> label_choice ll ->
  FILE_known (label_given ll) p -> (List.length (titles_of p) < fuel)%nat ->
  exists t, write_text u ($"all") = Ok t /\ forall n, rewritten_times n fuel ll t = Ok t.
Proof.
  intros E H S LC K L. destruct (FILE_twice u p ll fuel E H S LC K L) as (t & W & R & W'). exists t. split; [exact W|].
  induction n as [|n IH]; [reflexivity|]. cbn [rewritten_times]. unfold rewritten. rewrite R. cbn [bind]. rewrite W'. exact IH.
Qed.
