(** The parameters read from a file, completed again for writing. *)
From Coq Require Import String Ascii ZArith Bool Lia FinFun List.
From Verif Require Import Base.Str Base.Digits Base.Flt Base.FltText Base.FltInt.
From Verif Require Import Model.Py Model.Records Model.Write Model.Read.
From Verif Require Import Spec.Fields Spec.Values Spec.Types Spec.Layouts Spec.Rocks Spec.Flac Spec.Simple Spec.Param
  Spec.Indom Spec.Outpu Spec.Labels Spec.Mesh Spec.Incon Spec.Gener Spec.File Spec.Again.
From Verif Require Import Proofs.RecordLemmas Proofs.DictLemmas Proofs.RocksProof Proofs.FlacProof Proofs.FileProof Proofs.FileKeys
  Proofs.AgainCols.
Import ListNotations.
Local Open Scope Z_scope.

Lemma dget_known d k : keys_unique d ->
  dget k (known d) = match dget k d with Some v => if is_none v then None else Some v | None => None end.
Proof.
  unfold keys_unique. induction d as [|[a v] d IH]; intros U; auto. cbn [dkeys map fst] in U. inversion_clear U as [|? ? N U'].
  cbn [known dget]. destruct (key_eqb k a) eqn:E.
  - apply key_eqb_eq in E. subst a. destruct (is_none v) eqn:X.
    + rewrite IH by auto. apply dget_none_notin in N. now rewrite N.
    + cbn [dget]. now rewrite key_eqb_refl.
  - destruct (is_none v); [auto|]. cbn [dget]. rewrite E. auto.
Qed.
Lemma val_known d k : keys_unique d -> val k (known d) = val k d.
Proof. intros U. unfold val. rewrite dget_known by auto. destruct (dget k d) as [[]|]; reflexivity. Qed.

(** ** Each key once *)
Lemma dupdate_unique d u : keys_unique d -> keys_unique (dupdate d u).
Proof.
  unfold dupdate. revert d. induction u as [|[k v] u IH]; intros d U; auto. cbn [fold_left fst snd]. apply IH. now apply dset_unique.
Qed.
Lemma steps_unique p q : keys_unique q -> Forall (fun s : bool * (dict -> dict) => keys_unique (snd s q)) (FILE_steps p).
Proof.
  intros U. unfold FILE_steps. repeat (apply Forall_cons; [cbn [snd]; first [now apply dupdate_unique | now apply dset_unique | idtac]|]);
    [| | | |constructor];
    unfold with_default, FLAC_upd, with_rocks, PARAM_upd, ELEME_upd, COORD_upd; cbv zeta; repeat apply dset_unique; auto; now apply dupdate_unique.
Qed.
Lemma run_unique : forall ss q, (forall q, keys_unique q -> Forall (fun s : bool * (dict -> dict) => keys_unique (snd s q)) ss) ->
  keys_unique q -> keys_unique (run_steps ss q).
Proof.
  unfold run_steps. induction ss as [|s ss IH]; intros q H U; auto. cbn [fold_left]. apply IH.
  - intros q' U'. specialize (H q' U'). now apply Forall_cons_iff in H.
  - specialize (H q U). apply Forall_cons_iff in H as [H _]. now destruct (fst s).
Qed.
Lemma FILE_back_unique p : keys_unique (FILE_back p).
Proof.
  unfold FILE_back. apply run_unique; [intros; now apply steps_unique|]. apply dupdate_unique. unfold title_back.
  destruct (titles_of p); apply no_dup_keys_ok; reflexivity.
Qed.
Lemma fill_rock_unique def r : keys_unique r -> keys_unique (fill_rock def r).
Proof.
  unfold fill_rock. revert r. induction def as [|kv l IH]; intros d N; auto. cbn [fold_left].
  apply IH. destruct (dmem (fst kv) d || _); auto. now apply dset_unique.
Qed.

(** ** The completion succeeds *)
Lemma prepare_again q def rs : keys_unique q -> dget #"default" q = Some (PDict def) -> keys_unique def ->
  dget #"rocks" q = Some (PDict rs) -> keys_unique rs ->
  Forall (fun kv => is_dict (snd kv) = true /\ keys_unique (entries (snd kv))) rs ->
  exists p', prepare q = Ok p' /\ completes q p' /\ keys_unique p' /\
    keys_unique (default_of p') /\ (forall name r, In (name, r) (rocks_of p') -> is_dict r = true /\ keys_unique (entries r)) /\
    is_seq (val #"title" p') = is_str (val_or (PStr []) #"title" q) || is_seq (val_or (PStr []) #"title" q).
Proof.
  intros U D UD R UR FR.
  assert (X : exists p', prepare q = Ok p' /\ keys_unique p' /\
    keys_unique (default_of p') /\ (forall name r, In (name, r) (rocks_of p') -> is_dict r = true /\ keys_unique (entries r)) /\
    is_seq (val #"title" p') = is_str (val_or (PStr []) #"title" q) || is_seq (val_or (PStr []) #"title" q)).
  { unfold prepare. set (p0 := dupdate d_Parameters q).
    assert (G0 : forall k, dget k p0 = pick (dget k q) (dget k d_Parameters)).
    { intros k. unfold p0. now rewrite dget_dupdate. }
    assert (K : forall k, In k top_keys -> dmem k p0 = true).
    { intros k Hk. apply dmem_dupdate. now apply dmem_in. }
    assert (U0 : keys_unique p0) by (apply dupdate_unique, no_dup_keys_ok; reflexivity).
    rewrite dgetE_val by (apply K; cbn; tauto). cbn [bind]. set (t := if is_str _ then _ else _).
    unfold get_dict at 1, dgetE at 1. rewrite dget_dset_other, G0, D by discriminate. cbn [pick bind as_dict].
    unfold get_dict at 1, dgetE at 1. rewrite !dget_dset_other, G0, R by discriminate. cbn [pick bind as_dict].
    rewrite (mapM_ok _ (fun kv => (fst kv, PDict (fill_rock (fill_default def) (entries (snd kv)))))).
    2:{ intros [k v] I. rewrite Forall_forall in FR. destruct (FR _ I) as [X _]. cbn [fst snd] in *.
        destruct v; try discriminate. reflexivity. }
    cbn [bind]. eexists. split; [reflexivity|]. split; [repeat apply dset_unique; auto|]. split; [|split].
    - unfold default_of, val. rewrite dget_dset_other, dget_dset_same by discriminate. cbn [entries]. now apply fill_default_unique.
    - intros name r I. unfold rocks_of, val in I. rewrite dget_dset_same in I. cbn [entries] in I.
      apply in_map_iff in I as (kv & E & I). apply (f_equal snd) in E. cbn [snd] in E. subst r. split; [reflexivity|]. cbn [entries].
      apply fill_rock_unique. rewrite Forall_forall in FR. now apply FR.
    - unfold val at 1. rewrite !dget_dset_other, dget_dset_same by discriminate. unfold t. unfold val, val_or. rewrite G0.
      unfold pick. destruct (dget #"title" q) as [v|]; [|reflexivity]. destruct v; reflexivity. }
  destruct X as (p' & E & X1 & X2 & X3 & X4). exists p'. split; [exact E|]. split.
  - apply prepare_completes; auto; unfold val; [now rewrite D|now rewrite R].
  - auto.
Qed.

(** ** What the parameters hold the second time *)
Definition rock_read (p : dict) (x : pyval) : dict :=
  let r := rock_named (rocks_of p) x in
  dupdate (rock_back r)
    (if indom_given p && has_condition r then [(#"initial_condition", sci_list 13 (condition_of r))] else []).
Record again (p p' : dict) : Prop := {
  ag_unique : keys_unique p';
  ag_top : forall k, ~ In k [#"title"; #"default"; #"rocks"] -> dget k p' = pick (FILE_entry p k) (dget k top_defaults);
  ag_title : titles_of p' = match titles_of p with [] => [PStr []] | l => l end;
  ag_title_seq : is_seq (val #"title" p') = true;
  ag_default : exists def, dget #"default" p' = Some (PDict def) /\ keys_unique def /\
    forall k, dget k def = pick (dget k (default_read p)) (dget k rock_defaults);
  ag_rocks : exists rs, dget #"rocks" p' = Some (PDict rs) /\ dkeys rs = map name_key (rocks_order_of p) /\
    forall x, In x (rocks_order_of p) -> exists r', dget (name_key x) rs = Some (PDict r') /\ keys_unique r' /\
      forall k, dget k r' = pick (dget k (rock_read p x)) (if existsb (key_eqb k) rock_own then None else dget k rock_defaults) }.

Lemma nodup_app {A} (a b : list A) : NoDup a -> NoDup b -> (forall x, In x a -> ~ In x b) -> NoDup (a ++ b).
Proof.
  induction 1 as [|x a N A1 IH]; intros B D; auto. cbn [app]. constructor.
  - intros I. apply in_app_or in I as [I|I]; [auto|]. now apply (D x (or_introl eq_refl)).
  - apply IH; auto. intros y I. apply D. now right.
Qed.
Lemma rock_back_unique r : keys_unique (rock_back r).
Proof.
  unfold rock_back, keys_unique. rewrite dkeys_app.
  apply nodup_app.
  - apply known_unique. apply no_dup_keys_ok. reflexivity.
  - apply models_back_unique.
  - intros k I J. apply known_keys in I.
    assert (X : In k model_keys).
    { unfold models_back in J. unfold dkeys in J. apply in_map_iff in J as (kv & <- & J). apply in_flat_map in J as (k' & I' & J).
      destruct (dget k' r) as [[]|]; try contradiction. destruct (is_none _); [contradiction|]. destruct J as [<-|[]]. exact I'. }
    cbn [model_keys In] in X. destruct X as [<-|[<-|[]]]; cbn in I; repeat destruct I as [I|I]; try discriminate; exact I.
Qed.

Lemma default_read_unique p : keys_unique (default_read p).
Proof. unfold default_read. apply dupdate_unique. destruct (rpcap_given p); [apply models_back_unique|constructor]. Qed.
Lemma dget_names (f : pyval -> pyval) l x : NoDup (map name_key l) -> In x l -> dget (name_key x) (map (fun x => (name_key x, f x)) l) = Some (f x).
Proof.
  intros N I. apply in_dget.
  - unfold keys_unique, dkeys. now rewrite map_map.
  - now apply (in_map (fun x => (name_key x, f x))).
Qed.
Lemma dget_names_none (f : pyval -> pyval) l k : ~ In k (map name_key l) -> dget k (map (fun x => (name_key x, f x)) l) = None.
Proof. intros N. apply dget_none_notin. unfold dkeys. now rewrite map_map. Qed.
Lemma rocks_read_get p : given #"flac" p = false -> ROCKS_ok p ->
  rocks_read p = map (fun x => (name_key x, PDict (rock_read p x))) (rocks_order_of p).
Proof.
  intros G H. pose proof (ROCKS_names p H) as A. destruct H as (_ & _ & _ & O & U & _).
  pose proof (name_keys_nodup p A U O) as N. unfold rocks_read. rewrite G.
  assert (I : forall r, dupdate (rock_back r) [] = rock_back r) by reflexivity.
  destruct (indom_given p) eqn:E.
  - unfold merge_rocks, rocks_back. rewrite map_map. apply map_ext_in. intros x X. cbn [fst snd entries]. unfold rock_read. rewrite E. cbn [andb]. f_equal.
    unfold indom_back, indom_rocks. destruct (has_condition (rock_named (rocks_of p) x)) eqn:C.
    + rewrite (dget_names (fun x => PDict [(#"initial_condition", sci_list 13 (condition_of (rock_named (rocks_of p) x)))])); [reflexivity| |].
      * now apply IndomProof.NoDup_map_filter.
      * now apply filter_In.
    + rewrite dget_names_none; [reflexivity|]. intros J. apply in_map_iff in J as (y & Y & J). apply filter_In in J as [J1 J2].
      assert (x = y); [|congruence]. clear - N X J1 Y. induction (rocks_order_of p) as [|a l IH]; [contradiction|].
      cbn [map] in N. inversion_clear N as [|? ? N1 N2]. destruct X as [<-|X], J1 as [<-|J1]; auto.
      * exfalso. apply N1. rewrite <- Y. now apply in_map.
      * exfalso. apply N1. rewrite Y. now apply in_map.
  - apply map_ext. intros x. unfold rock_read. now rewrite E.
Qed.
Lemma default_read_own p k : dmem k (default_read p) = true -> existsb (key_eqb k) rock_own = true.
Proof.
  unfold default_read, dmem.
  assert (V : keys_unique (conditions_back p)) by (unfold conditions_back; destruct (trim _); apply no_dup_keys_ok; reflexivity).
  rewrite dget_dupdate by exact V. unfold conditions_back. intros H.
  assert (X : k = #"initial_condition" \/ In k model_keys).
  { assert (M : dmem k (if rpcap_given p then models_back (default_of p) else []) = true -> In k model_keys).
    { unfold dmem. intros M. destruct (rpcap_given p); [|discriminate]. unfold models_back in M.
      destruct (dget k (flat_map _ _)) eqn:Z; [|discriminate]. apply dget_in in Z. apply in_flat_map in Z as (k' & I' & J).
      destruct (dget k' (default_of p)) as [[]|]; try contradiction. destruct (is_none _); [contradiction|]. destruct J as [J|[]].
      apply (f_equal fst) in J. cbn [fst] in J. now subst k'. }
    destruct (trim (map (sci 13) (conditions_of p))) as [|a l]; cbn [dget] in H; [right; now apply M|].
    destruct (key_eqb k #"initial_condition") eqn:Z; [left; now apply key_eqb_eq|]. right. now apply M. }
  cbn [model_keys In] in X. destruct X as [->|[<-|[<-|[]]]]; reflexivity.
Qed.

Theorem FILE_again p : FILE_ok p -> given #"flac" p = false -> exists p', prepare (FILE_back p) = Ok p' /\ again p p'.
Proof.
  intros H G. assert (CE : filled (val #"coordinates" p) = true -> filled (val #"elements" p) = true) by (intros C; now apply H).
  pose proof (FILE_lookup p CE) as L. pose proof H as (_ & TT & R & _).
  pose proof (ROCKS_names p R) as A. pose proof R as (_ & _ & _ & O & U & _).
  pose proof (name_keys_nodup p A U O) as N.
  destruct (prepare_again (FILE_back p) (default_read p) (rocks_read p)) as (p' & E & (C1 & C2 & C3 & C4) & K1 & K2 & K3 & K4).
  - apply FILE_back_unique.
  - now rewrite L.
  - apply default_read_unique.
  - now rewrite L.
  - rewrite rocks_read_get by auto. unfold keys_unique, dkeys. now rewrite map_map.
  - rewrite rocks_read_get by auto. apply Forall_forall. intros kv I. apply in_map_iff in I as (x & <- & I). split; [reflexivity|].
    cbn [snd entries]. unfold rock_read. apply dupdate_unique, rock_back_unique.
  - exists p'. split; [exact E|]. split.
    + exact K1.
    + intros k X. rewrite C1 by exact X. now rewrite L.
    + rewrite C2, L. cbn -[titles_of]. destruct (titles_of p) as [|v [|w l]] eqn:T; try reflexivity. cbn [one_or_list].
      rewrite Forall_forall in TT.
      destruct (TT v (or_introl eq_refl)) as (s & -> & _). reflexivity.
    + rewrite K4. unfold val_or. rewrite L. cbn -[titles_of].
      destruct (titles_of p) as [|v [|w l]] eqn:T; try reflexivity. cbn [one_or_list].
      rewrite Forall_forall in TT.
      destruct (TT v (or_introl eq_refl)) as (s & -> & _). reflexivity.
    + destruct C3 as (def & D1 & D2). exists def. split; [exact D1|]. split.
      * unfold default_of in K2. now rewrite (val_some _ _ _ D1) in K2.
      * intros k. rewrite D2. unfold val. now rewrite L.
    + destruct C4 as (rs & R1 & R2 & R3). exists rs. split; [exact R1|].
      assert (V : val #"rocks" (FILE_back p) = PDict (rocks_read p)) by (unfold val; now rewrite L).
      rewrite V in R2, R3. cbn [entries] in R2, R3. rewrite rocks_read_get in R2, R3 by auto.
      assert (KK : dkeys rs = map name_key (rocks_order_of p)) by (rewrite R2; unfold dkeys; now rewrite map_map).
      split; [exact KK|]. intros x X.
      assert (IK : In (name_key x) (dkeys rs)) by (rewrite KK; now apply in_map).
      apply dmem_in in IK. pose proof (dget_val _ _ IK) as GV. set (r := val (name_key x) rs) in *.
      assert (UR : keys_unique rs) by (unfold keys_unique; now rewrite KK).
      pose proof (dget_in _ _ _ GV) as IN. destruct (R3 _ _ IN) as (own & O1 & O2).
      destruct (K3 (name_key x) r) as [Q1 Q2]; [unfold rocks_of; rewrite (val_some _ _ _ R1); exact IN|].
      destruct r as [| | | | | | |r']; try discriminate. exists r'. split; [exact GV|]. split; [exact Q2|].
      intros k. cbn [entries] in O2. rewrite O2.
      rewrite (dget_names (fun x => PDict (rock_read p x))) in O1 by auto. assert (own = rock_read p x) by congruence. subst own.
      f_equal. destruct (existsb (key_eqb k) rock_own) eqn:W; [reflexivity|]. unfold default_of.
      destruct C3 as (def & D1 & D2). rewrite (val_some _ _ _ D1). cbn [entries]. rewrite D2. unfold val. rewrite L.
      change (FILE_entry p #"default") with (Some (PDict (default_read p))). cbn [entries].
      destruct (dget k (default_read p)) eqn:Z; [|reflexivity]. exfalso.
      assert (dmem k (default_read p) = true) by (unfold dmem; now rewrite Z). apply default_read_own in H0. congruence.
Qed.
