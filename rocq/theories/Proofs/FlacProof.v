(** RPCAP and FLAC: what is written is what is read. *)
From Coq Require Import String Ascii ZArith Bool Lia FinFun List.
From Verif Require Import Base.Str Base.Digits Base.Flt Base.FltText Base.FltInt.
From Verif Require Import Model.Py Model.Records Model.Write Model.Read.
From Verif Require Import Spec.Fields Spec.Values Spec.Types Spec.Layouts Spec.Rocks Spec.Flac.
From Verif Require Import Proofs.RecordLemmas Proofs.DictLemmas Proofs.Layouts Proofs.Types Proofs.BlockTools Proofs.RocksProof.
Import ListNotations.
Local Open Scope Z_scope.

Lemma update_default_ok q u : default_readable q -> keys_unique u ->
  update_default q u = Ok (with_default u q).
Proof.
  unfold update_default, with_default, val. intros [->|[d ->]] U; cbn [as_dict bind entries].
  - now rewrite dupdate_nil.
  - reflexivity.
Qed.
Lemma models_back_unique r : keys_unique (models_back r).
Proof.
  apply no_dup_keys_ok. rewrite models_back_eq. unfold model_back1.
  destruct (dget #"relative_permeability" r) as [[]|]; try destruct (is_none _);
  destruct (dget #"capillarity" r) as [[]|]; try destruct (is_none _); reflexivity.
Qed.

Lemma RPCAP_block p def : dget #"default" p = Some (PDict def) -> RPCAP_ok p ->
  write_rpcap p = Ok (head ($"RPCAP") :: model_lines def) /\
  Forall good_line (model_lines def) /\
  reads_if (fun _ q _ => default_readable q) (head ($"RPCAP")) (model_lines def)
    (with_default (models_back def)).
Proof.
  intros G (def' & G' & U & M). rewrite G in G'. injection G' as <-.
  assert (MO : forall k, In k model_keys -> exists m, dget k def = Some m /\ model_ok 5 3 m = true).
  { intros k Hk. rewrite forallb_forall in M. specialize (M k Hk). destruct (dget k def); [eauto|discriminate]. }
  assert (O : forall k, In k model_keys -> opt_model_ok def k = true).
  { intros k Hk. unfold opt_model_ok. destruct (MO k Hk) as (m & -> & H). auto. }
  repeat split.
  - unfold write_rpcap.
    assert (C : forall k, In k model_keys -> check_at dt_MODEL #"default" [k] p = Ok tt).
    { intros k Hk. destruct (MO k Hk) as (m & E & H). destruct (model_typed _ _ _ H) as (y & -> & T).
      now apply (check_at_sub_ok dt_MODEL kinds_MODEL _ _ _ def y st_MODEL). }
    rewrite !C by (cbn [model_keys In]; tauto). cbn [bind].
    unfold get_dict, dgetE at 1. rewrite G. cbn [bind as_dict].
    rewrite (concatM_ok _ (fun k => [model_line def k])).
    + reflexivity.
    + intros k Hk. rewrite dget_dupdate by auto. destruct (MO k Hk) as (m & E & H). rewrite E.
      pose proof (write_model_ok def k (O k Hk)) as W. now rewrite E in W.
  - apply Forall_forall. intros l Hl. apply in_map_iff in Hl as (k & <- & Hk). apply model_line_good. auto.
  - intros ll q rest D. unfold read_block.
    change (startswith ($"ROCKS") (head ($"RPCAP"))) with false.
    change (startswith ($"RPCAP") (head ($"RPCAP"))) with true. cbv iota.
    rewrite read_rpcap_ok by (apply forallb_forall; auto). cbn [bind].
    rewrite update_default_ok by auto using models_back_unique. reflexivity.
Qed.

(** ** Updating rocks *)
Lemma merge_rocks_keys u rq : dkeys (merge_rocks u rq) = dkeys rq.
Proof. unfold merge_rocks, dkeys. now rewrite map_map. Qed.
Lemma merge_rocks_nil rq : merge_rocks [] rq = rq.
Proof. unfold merge_rocks. rewrite <- (map_id rq) at 2. apply map_ext. now intros [k v]. Qed.

Lemma update_rocks_ok u : forall q rq, dget #"rocks" q = Some (PDict rq) -> keys_unique rq -> keys_unique u ->
  Forall (fun kv => is_dict (snd kv) = true) rq ->
  Forall (fun kv => In (fst kv) (dkeys rq) /\ is_dict (snd kv) = true) u ->
  update_rocks q u = Ok (with_rocks u q).
Proof.
  unfold update_rocks. induction u as [|[k v] u IH]; intros q rq G U N D F.
  - cbn [foldM]. unfold with_rocks. rewrite (val_some _ _ _ G). cbn [entries].
    rewrite merge_rocks_nil, dset_same; auto.
  - cbn [foldM]. inversion_clear F as [|? ? [F1 F2] F3]. cbn [fst snd] in *. destruct v as [| | | | | | |m]; try discriminate.
    unfold dgetE at 1. rewrite G. cbn [bind as_dict].
    assert (X : exists r, dget k rq = Some (PDict r)).
    { apply dmem_in in F1. unfold dmem in F1. destruct (dget k rq) eqn:E; [|discriminate].
      apply dget_in in E. rewrite Forall_forall in D. specialize (D _ E). cbn [snd] in D. destruct p; try discriminate. eauto. }
    destruct X as [r E]. unfold dgetE at 1. rewrite E. cbn [bind as_dict fst snd].
    set (rq' := dset k (PDict (dupdate r m)) rq).
    unfold keys_unique in N. cbn [dkeys map fst] in N. inversion_clear N as [|? ? N1 N2].
    assert (K : dkeys rq' = dkeys rq) by now apply dkeys_dset.
    rewrite (IH _ rq').
    + f_equal. unfold with_rocks. rewrite (val_some _ _ _ (dget_dset_same _ _ _)), (val_some _ _ _ G), dset_dset.
      cbn [entries]. do 2 f_equal. unfold rq'. rewrite dset_map by auto. unfold merge_rocks. rewrite map_map.
      apply map_ext_in. intros [a w] Ha. cbn [fst snd dget]. destruct (key_eqb k a) eqn:Ek.
      * apply key_eqb_eq in Ek. subst. cbn [fst snd]. rewrite key_eqb_refl.
        replace (dget a u) with (@None pyval) by (symmetry; now apply dget_none_notin).
        rewrite (in_dget _ _ _ U Ha) in E. injection E as ->. reflexivity.
      * cbn [fst snd]. now rewrite key_eqb_sym, Ek.
    + apply dget_dset_same.
    + unfold keys_unique. now rewrite K.
    + exact N2.
    + unfold rq'. rewrite dset_map by auto. apply Forall_forall. intros [a w] Ha. apply in_map_iff in Ha as ([b y] & Eb & Hb).
      rewrite Forall_forall in D. specialize (D _ Hb). cbn [fst snd] in *.
      destruct (key_eqb k b); injection Eb as <- <-; auto.
    + rewrite K. exact F3.
Qed.

(** ** FLAC *)
Definition flac_vals (p : dict) : list pyval :=
  [PBool (match val #"creep" (flac_of p) with PBool b => b | _ => false end);
   val #"porosity_model" (flac_of p); val #"version" (flac_of p)].
Definition flac_line1 (r : dict) : str :=
  let m := entries (val #"permeability_model" r) in
  rec_line cols_FLAC_2 (val #"id" m :: items (val #"parameters" m)).
Definition flac_line2 (r : dict) : str :=
  let m := entries (val #"equivalent_pore_pressure" r) in rec_line cols_FLAC_3 (model_vals m).
Definition flac_lines (r : dict) : list str := [flac_line1 r; flac_line2 r].
Definition FLAC_body (p : dict) : list str :=
  rec_line cols_FLAC_1 (flac_vals p)
  :: concat (map (fun x => flac_lines (rock_named (rocks_of p) x)) (rocks_order_of p)) ++ [[nl]].

Lemma flac_rock_spec r : flac_rock_ok r = true ->
  exists m1 m2, dget #"permeability_model" r = Some (PDict m1) /\ model_ok 10 3 (PDict m1) = true /\
    dget #"equivalent_pore_pressure" r = Some (PDict m2) /\ model_ok 5 3 (PDict m2) = true.
Proof.
  unfold flac_rock_ok. rewrite andb_true_iff. intros [H1 H2].
  destruct (dget #"permeability_model" r) as [[| | | | | | |m1]|]; try discriminate.
  destruct (dget #"equivalent_pore_pressure" r) as [[| | | | | | |m2]|]; try discriminate.
  exists m1, m2. auto.
Qed.
Lemma model_fit w k m : model_ok w k (PDict m) = true ->
  col_ok (CInt w) (val #"id" m) = true /\ rec_ok (repeat (CSci 10 k) 7) (items (val #"parameters" m)) = true.
Proof.
  cbn [model_ok]. rewrite !andb_true_iff, rec_ok_repeat. unfold fits. tauto.
Qed.

Lemma flac_line1_ok m : model_ok 10 3 (PDict m) = true ->
  rec_ok cols_FLAC_2 (val #"id" m :: items (val #"parameters" m)) = true.
Proof. intros H. destruct (model_fit _ _ _ H) as [H1 H2]. unfold cols_FLAC_2. now rewrite rec_ok_cons, H1, H2. Qed.
Lemma flac_line2_ok m : model_ok 5 3 (PDict m) = true -> rec_ok cols_FLAC_3 (model_vals m) = true.
Proof. intros H. destruct (model_fit _ _ _ H) as [H1 H2]. unfold cols_FLAC_3, model_vals. now rewrite !rec_ok_cons, H1, H2. Qed.

Lemma write_flac_rock_ok def rocks s r : dget (KS s) rocks = Some (PDict r) -> keys_unique r -> flac_rock_ok r = true ->
  write_flac_rock def rocks (PStr s) = Ok (flac_lines r).
Proof.
  intros G U F. destruct (flac_rock_spec r F) as (m1 & m2 & E1 & O1 & E2 & O2).
  unfold write_flac_rock, lookup. cbn [val_key bind]. unfold dgetE at 1. rewrite G. cbn [bind as_dict].
  unfold dgetE at 1. rewrite dget_dupdate, E1 by auto. cbn [bind].
  rewrite (model_values_ok 10 3 _ m1) by auto. cbn [bind].
  change (hd PNone (model_vals m1) :: skipn 2 (model_vals m1)) with (val #"id" m1 :: items (val #"parameters" m1)).
  rewrite (write_record_ok fmt_FLAC_2 cols_FLAC_2 _ f_FLAC_2) by now apply flac_line1_ok. cbn [bind].
  unfold dgetE at 1. rewrite dget_dupdate, E2 by auto. cbn [bind].
  rewrite (model_values_ok 5 3 _ m2) by auto. cbn [bind].
  rewrite (write_record_ok fmt_FLAC_3 cols_FLAC_3 _ f_FLAC_3) by now apply flac_line2_ok. cbn [bind].
  unfold flac_lines, flac_line1, flac_line2. now rewrite (val_some _ _ _ E1), (val_some _ _ _ E2).
Qed.

Lemma read_flac_rock_ok d s r rest : flac_rock_ok r = true ->
  read_flac_rock (d, flac_lines r ++ rest) (PStr s) = Ok (dset (KS s) (PDict (flac_rock_back r)) d, rest).
Proof.
  intros F. destruct (flac_rock_spec r F) as (m1 & m2 & E1 & O1 & E2 & O2).
  unfold read_flac_rock. cbn [val_key bind fst snd]. unfold flac_lines, flac_line1, flac_line2.
  rewrite (val_some _ _ _ E1), (val_some _ _ _ E2). cbn [entries app next bind].
  rewrite (read_record_ok fmt_FLAC_2 cols_FLAC_2 _ f_FLAC_2) by now apply flac_line1_ok. cbn [bind].
  rewrite (read_record_ok fmt_FLAC_3 cols_FLAC_3 _ f_FLAC_3) by now apply flac_line2_ok. cbn [bind].
  unfold cols_FLAC_2, cols_FLAC_3, model_vals. rewrite !rec_val_cons. cbn [at_ nth skipn].
  rewrite !prune_trim, !trim_rec_val. unfold flac_rock_back. cbn [flac_model_keys map].
  rewrite (val_some _ _ _ E1), (val_some _ _ _ E2). reflexivity.
Qed.

Lemma FLAC_names p : FLAC_ok p -> all_names (dkeys (rocks_of p)).
Proof.
  intros (_ & _ & _ & _ & _ & _ & _ & _ & _ & _ & _ & F). unfold all_names. apply Forall_forall. intros k Hk.
  unfold dkeys in Hk. apply in_map_iff in Hk as (kv & <- & Hkv).
  rewrite Forall_forall in F. destruct (F kv Hkv) as (s & r & -> & _). now exists s.
Qed.
Lemma FLAC_item p x : FLAC_ok p -> In x (rocks_order_of p) ->
  exists s r, x = PStr s /\ dget (KS s) (rocks_of p) = Some (PDict r) /\ rock_named (rocks_of p) x = r /\
    keys_unique r /\ flac_rock_ok r = true.
Proof.
  intros H Hx. pose proof (FLAC_names p H) as A.
  destruct H as (_ & _ & _ & _ & _ & _ & _ & _ & O & _ & U & F).
  destruct (full_order_in _ _ _ A O Hx) as (s & -> & Hs).
  unfold dkeys in Hs. apply in_map_iff in Hs as (kv & E & Hkv).
  rewrite Forall_forall in F. destruct (F kv Hkv) as (s' & r & -> & N & R). cbn [fst] in E. injection E as ->.
  exists s, r. pose proof (in_dget _ _ _ U Hkv) as G. repeat split; auto.
  unfold rock_named. now rewrite (val_some _ _ _ G).
Qed.

Lemma rock_order_ok p : dmem #"rocks_order" p = true -> all_names (dkeys (rocks_of p)) ->
  keys_unique (rocks_of p) -> order_ok (val #"rocks_order" p) (rocks_of p) -> order_plain (val #"rocks_order" p) ->
  rock_order p (rocks_of p) = Ok (rocks_order_of p).
Proof.
  intros M A U O P. unfold rock_order. rewrite dgetE_val by auto. cbn [bind]. unfold rocks_order_of.
  destruct (val #"rocks_order" p) as [| | | | | |k l|] eqn:E; cbn [order_ok] in O; try contradiction.
  - reflexivity.
  - destruct l as [|x l].
    + assert (X : forall l : list pyval, filter (fun x => negb (existsb (simple_eqb x) [])) l = l).
      { induction l as [|x l IH]; auto.
        change (x :: filter (fun x => negb (existsb (simple_eqb x) [])) l = x :: l). now rewrite IH. }
      unfold full_order. rewrite X. destruct k; cbn [order_plain] in P; try contradiction; reflexivity.
    + assert (T : truthy (PSeq k (x :: l)) = Ok true) by (destruct k; cbn [order_plain] in P; try contradiction; reflexivity).
      rewrite T. cbn [bind]. rewrite extend_order_ok by auto. reflexivity.
Qed.

Lemma rec_nat_FLAC_1 p : FLAC_ok p -> rec_ok cols_FLAC_1 (flac_vals p) = true.
Proof.
  intros (_ & _ & _ & C1 & C2 & _). unfold cols_FLAC_1, flac_vals. cbn [repeat].
  rewrite !rec_ok_cons, C1, C2. cbn [rec_ok andb].
  destruct (val #"creep" (flac_of p)) as [|[]| | | | | |]; reflexivity.
Qed.

Lemma creep_truthy p : FLAC_ok p ->
  (let* cr := dgetE #"creep" (dupdate d_flac (flac_of p)) in truthy cr)
  = Ok (match val #"creep" (flac_of p) with PBool b => b | _ => false end).
Proof.
  intros (_ & U & T & _). unfold dgetE. rewrite dget_dupdate by auto. unfold val.
  destruct (dget #"creep" (flac_of p)) as [v|] eqn:E; [|reflexivity]. cbn [bind].
  apply dget_in in E. unfold well_typed in T. rewrite forallb_forall in T. specialize (T _ E).
  cbn in T. destruct v; try discriminate; reflexivity.
Qed.

Lemma write_flac_ok p : FLAC_ok p -> write_flac p = Ok (head ($"FLAC") :: FLAC_body p).
Proof.
  intros H. pose proof H as (G & U & T & C1 & C2 & (def & D & FD) & R & RO & O & P & UR & F).
  rewrite Forall_forall in F.
  destruct (flac_rock_spec def FD) as (m1 & m2 & E1 & O1 & E2 & O2).
  unfold write_flac.
  rewrite (check_at_ok dt_FLAC kinds_FLAC #"flac" p (flac_of p) st_FLAC) by auto.
  destruct (model_typed _ _ _ O1) as (y1 & Y1 & T1). injection Y1 as <-.
  destruct (model_typed _ _ _ O2) as (y2 & Y2 & T2). injection Y2 as <-.
  rewrite (check_at_sub_ok dt_MODEL kinds_MODEL _ _ _ def m1 st_MODEL D E1 T1).
  rewrite (check_at_sub_ok dt_MODEL kinds_MODEL _ _ _ def m2 st_MODEL D E2 T2).
  rewrite !(check_list_sub_ok dt_MODEL kinds_MODEL #"rocks" _ p (rocks_of p) st_MODEL); auto.
  2:{ intros k v Hk. destruct (F _ Hk) as (s & r & E & _ & Hr). injection E as -> ->. exists r. split; auto.
      destruct (flac_rock_spec r Hr) as (n1 & n2 & X1 & X2 & X3 & X4). rewrite X3. eapply model_typed; eauto. }
  2:{ intros k v Hk. destruct (F _ Hk) as (s & r & E & _ & Hr). injection E as -> ->. exists r. split; auto.
      destruct (flac_rock_spec r Hr) as (n1 & n2 & X1 & X2 & X3 & X4). rewrite X1. eapply model_typed; eauto. }
  cbn [bind]. unfold get_dict, dgetE at 1. rewrite G. cbn [bind as_dict]. cbv zeta.
  unfold dgetE at 1. rewrite R. cbn [bind as_dict].
  rewrite rock_order_ok by auto using FLAC_names. cbn [bind].
  pose proof (creep_truthy p H) as CT.
  destruct (dgetE #"creep" (dupdate d_flac (flac_of p))) as [cr|]; [|discriminate]. cbn [bind] in *. rewrite CT. cbn [bind].
  assert (V : forall k, In k [#"porosity_model"; #"version"] ->
            dgetE k (dupdate d_flac (flac_of p)) = Ok (val k (flac_of p))).
  { intros k Hk. unfold dgetE. rewrite dget_dupdate by auto. unfold val. destruct (dget k (flac_of p)); auto.
    cbn [In] in Hk. destruct Hk as [<-|[<-|[]]]; reflexivity. }
  rewrite !V by (cbn [In]; tauto). cbn [bind].
  change ([PBool (match val #"creep" (flac_of p) with PBool b => b | _ => false end);
    val #"porosity_model" (flac_of p); val #"version" (flac_of p)]) with (flac_vals p).
  rewrite (write_record_ok fmt_FLAC_1 cols_FLAC_1 _ f_FLAC_1) by now apply rec_nat_FLAC_1. cbn [bind].
  unfold dgetE at 1. rewrite D. cbn [bind as_dict].
  rewrite (concatM_ok _ (fun x => flac_lines (rock_named (rocks_of p) x))).
  - reflexivity.
  - intros x Hx. destruct (FLAC_item p x H Hx) as (s & r & -> & X & E & N & Hr). rewrite E. now apply write_flac_rock_ok.
Qed.

Lemma read_flac_rocks p xs : (forall x, In x xs -> exists s, x = PStr s /\ flac_rock_ok (rock_named (rocks_of p) x) = true) ->
  forall d rest, foldM read_flac_rock (d, concat (map (fun x => flac_lines (rock_named (rocks_of p) x)) xs) ++ rest) xs
  = Ok (fold_left (fun d x => dset (name_key x) (PDict (flac_rock_back (rock_named (rocks_of p) x))) d) xs d, rest).
Proof.
  induction xs as [|x xs IH]; intros H d rest; auto. cbn [map concat foldM fold_left]. rewrite <- app_assoc.
  destruct (H x (or_introl eq_refl)) as (s & -> & F). rewrite read_flac_rock_ok by auto. cbn [bind].
  apply IH. intros. apply H. now right.
Qed.

Lemma name_keys_nodup p : all_names (dkeys (rocks_of p)) -> keys_unique (rocks_of p) ->
  order_ok (val #"rocks_order" p) (rocks_of p) -> NoDup (map name_key (rocks_order_of p)).
Proof.
  intros A U O. pose proof (full_order_nodup _ _ A U O) as N. fold (rocks_order_of p) in N.
  assert (E : forall x, In x (rocks_order_of p) -> key_val (name_key x) = x).
  { intros x Hx. destruct (full_order_in _ _ _ A O Hx) as (s & -> & _). reflexivity. }
  revert N E. generalize (rocks_order_of p). clear. induction l as [|x l IH]; intros N E; cbn [map]; [constructor|].
  inversion_clear N as [|? ? N1 N2]. constructor.
  - intros X. apply in_map_iff in X as (y & Ey & Hy). apply N1.
    rewrite <- (E x (or_introl eq_refl)), <- Ey, (E y (or_intror Hy)). exact Hy.
  - apply IH; auto. intros y Hy. apply E. now right.
Qed.


Lemma FLAC_block p : FLAC_ok p ->
  write_flac p = Ok (head ($"FLAC") :: FLAC_body p) /\
  Forall good_line (FLAC_body p) /\
  forall ll q rest, FLAC_pre p q ->
    read_block ll (head ($"FLAC")) q (FLAC_body p ++ rest) = Ok (true, FLAC_upd p q, [nl] :: rest).
Proof.
  intros H. split; [now apply write_flac_ok|]. split.
  - unfold FLAC_body. constructor; [apply rec_line_good; now apply rec_nat_FLAC_1|].
    apply Forall_app. split; [|constructor; auto using good_nl].
    apply Forall_concat. intros x Hx. destruct (FLAC_item p x H Hx) as (s & r & -> & X & E & N & Hr). rewrite E.
    destruct (flac_rock_spec r Hr) as (n1 & n2 & X1 & X2 & X3 & X4).
    unfold flac_lines, flac_line1, flac_line2. rewrite (val_some _ _ _ X1), (val_some _ _ _ X3).
    constructor; [|constructor; auto]; apply rec_line_good; [now apply flac_line1_ok|now apply flac_line2_ok].
  - intros ll q rest (RO & rq & RQ & KQ & DQ). unfold read_block.
    change (startswith ($"ROCKS") (head ($"FLAC"))) with false.
    change (startswith ($"RPCAP") (head ($"FLAC"))) with false.
    change (startswith ($"FLAC") (head ($"FLAC"))) with true. cbv iota.
    unfold dgetE at 1. rewrite RO. cbn [bind py_iter]. unfold read_flac, FLAC_body. cbn [app next bind].
    rewrite (read_record_ok fmt_FLAC_1 cols_FLAC_1 _ f_FLAC_1) by now apply rec_nat_FLAC_1. cbn [bind].
    rewrite <- app_assoc. cbn [app].
    rewrite (read_flac_rocks p (rocks_order_of p)).
    2:{ intros x Hx. destruct (FLAC_item p x H Hx) as (s & r & -> & X & E & N & Hr). exists s. now rewrite E. }
    cbn [bind].
    pose proof (FLAC_names p H) as A. destruct H as (_ & _ & _ & _ & _ & _ & _ & _ & O & _ & U & _).
    pose proof (name_keys_nodup p A U O) as N.
    rewrite fold_dset_fresh by (auto; reflexivity). cbn [app].
    fold (flac_rocks_back p).
    assert (K : dkeys (flac_rocks_back p) = map name_key (rocks_order_of p)).
    { unfold flac_rocks_back, dkeys. now rewrite map_map. }
    rewrite (update_rocks_ok _ _ rq).
    + unfold FLAC_upd, flac_back. rewrite known_prune. do 5 f_equal.
      unfold cols_FLAC_1, flac_vals. cbn [repeat]. rewrite !rec_val_cons. cbn [rec_val at_ nth].
      unfold creep_flag. destruct (val #"creep" (flac_of p)) as [|[]| | | | | |]; reflexivity.
    + rewrite dget_dset_other by discriminate. exact RQ.
    + unfold keys_unique. now rewrite KQ.
    + unfold keys_unique. now rewrite K.
    + exact DQ.
    + apply Forall_forall. intros [k v] Hk. rewrite KQ, <- K. split.
      * now apply (in_map fst) in Hk.
      * unfold flac_rocks_back in Hk. apply in_map_iff in Hk as (x & E & _). injection E as <- <-. reflexivity.
Qed.
