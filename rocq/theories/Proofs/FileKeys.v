(** The entries of the parameters read from a file, and the completion made by
    the writer. *)
From Coq Require Import String Ascii ZArith Bool Lia FinFun List.
From Verif Require Import Base.Str Base.Digits Base.Flt Base.FltText Base.FltInt.
From Verif Require Import Model.Py Model.Records Model.Write Model.Read.
From Verif Require Import Spec.Fields Spec.Values Spec.Types Spec.Layouts Spec.Rocks Spec.Flac Spec.Simple Spec.Param
  Spec.Indom Spec.Outpu Spec.Labels Spec.Mesh Spec.Incon Spec.Gener Spec.File.
From Verif Require Import Proofs.RecordLemmas Proofs.DictLemmas Proofs.FlacProof Proofs.FileProof.
Import ListNotations.
Local Open Scope Z_scope.

Definition touched : list (list key) :=
  [[#"default"]; [#"rocks"; #"flac"]; [#"n_component"; #"isothermal"; #"n_phase"]; [#"solver"]; [#"start"];
   [#"options"; #"extra_options"; #"default"]; [#"selections"]; [#"rocks"]; [#"more_options"]; [#"times"]; [#"element_history"];
   [#"connection_history"]; [#"generator_history"]; [#"generators"]; [#"diffusion"]; [#"output"];
   [#"elements"; #"elements_order"; #"coordinates"]; [#"elements"; #"coordinates"]; [#"connections"; #"connections_order"];
   [#"initial_conditions"; #"initial_conditions_order"]; [#"nover"]].
Lemma dget_dset_notin k k' v q : existsb (key_eqb k) [k'] = false -> dget k (dset k' v q) = dget k q.
Proof. cbn [existsb]. rewrite orb_false_r. intros N. now rewrite dget_dset, N. Qed.
Lemma existsb_cons_false (f : key -> bool) x l : existsb f (x :: l) = false -> existsb f [x] = false /\ existsb f l = false.
Proof. cbn [existsb]. rewrite orb_false_r. now intros H%orb_false_iff. Qed.
Ltac skipset := repeat match goal with
  | N : existsb ?f (?x :: ?y :: ?l) = false |- _ => apply existsb_cons_false in N as [? N]
  end; repeat (rewrite dget_dset_notin by assumption).
Lemma steps_touch p : Forall2 (fun s ks => forall k q, existsb (key_eqb k) ks = false -> dget k (snd s q) = dget k q) (FILE_steps p) touched.
Proof.
  unfold FILE_steps, touched.
  repeat (apply Forall2_cons; [intros k q N; cbn [snd]; try (now apply dget_not_in)|]); [| | | | | | | |constructor].
  - unfold with_default. now apply dget_dset_notin.
  - unfold FLAC_upd, with_rocks. skipset. reflexivity.
  - now apply dget_dset_notin.
  - unfold PARAM_upd. skipset. reflexivity.
  - unfold with_rocks. skipset. reflexivity.
  - unfold ELEME_upd. skipset. unfold dupdate. cbn [fold_left fst snd]. skipset. reflexivity.
  - unfold COORD_upd. skipset. reflexivity.
  - now apply dget_dset_notin.
Qed.

(** Each step only looks at the entry it changes. *)
Definition local (f : dict -> dict) : Prop := forall k q q', dget k q = dget k q' -> dget k (f q) = dget k (f q').
Lemma local_set k v : local (dset k v).
Proof. intros k' q q' E. rewrite !dget_dset. destruct (key_eqb k' k); auto. Qed.
Lemma local_update u : no_dup_keys (dkeys u) = true -> local (fun q => dupdate q u).
Proof. intros U k q q' E. rewrite !dget_dupdate by now apply no_dup_keys_ok. destruct (dget k u); auto. Qed.
Lemma local_own k g : local (fun q => dset k (g (val k q)) q).
Proof.
  intros k' q q' E. rewrite !dget_dset. destruct (key_eqb k' k) eqn:X; auto. apply key_eqb_eq in X. subst.
  unfold val. now rewrite E.
Qed.
Lemma local_comp f g : local f -> local g -> local (fun q => f (g q)).
Proof. intros F G k q q' E. auto. Qed.
Lemma local_default u : local (with_default u).
Proof. exact (local_own #"default" (fun v => PDict (dupdate (entries v) u))). Qed.
Lemma local_rocks u : local (with_rocks u).
Proof. exact (local_own #"rocks" (fun v => PDict (merge_rocks u (entries v)))). Qed.
Lemma steps_local p : Forall (fun s => local (snd s)) (FILE_steps p).
Proof.
  unfold FILE_steps. repeat (apply Forall_cons; [cbn [snd]; try (now apply local_update); try apply local_set; try apply local_default; try apply local_rocks|]);
    [| | | |constructor].
  - unfold FLAC_upd. apply (local_comp (with_rocks _)); [apply local_rocks|apply local_set].
  - unfold PARAM_upd. cbv zeta.
    apply (local_comp (fun q => dset #"default" (PDict (dupdate (entries (val #"default" q)) (conditions_back p))) q)
      (fun q => dset #"extra_options" (PDict (options_back 24 (mop_of p))) (dset #"options" (PDict (PARAM_options p)) q))).
    + exact (local_default (conditions_back p)).
    + apply (local_comp (dset _ _)); apply local_set.
  - unfold ELEME_upd. apply (local_comp (dset _ _)); [apply local_set|now apply local_update].
  - unfold COORD_upd. apply (local_comp (dset _ _)); [apply local_set|].
    exact (local_own #"elements" (fun v => PDict (with_centers p (entries v)))).
Qed.
Fixpoint select {A} (m : list bool) (l : list A) : list A :=
  match m, l with
  | b :: m, x :: l => if b then x :: select m l else select m l
  | _, _ => []
  end.
Lemma run_local ss : Forall (fun s => local (snd s)) ss -> forall k q q', dget k q = dget k q' ->
  dget k (run_steps ss q) = dget k (run_steps ss q').
Proof.
  unfold run_steps. induction 1 as [|[b f] ss L F IH]; intros k q q' E; cbn [fold_left fst snd]; auto.
  apply IH. destruct b; auto.
Qed.
Lemma run_select k ss tt : Forall (fun s => local (snd s)) ss ->
  Forall2 (fun s ks => forall k q, existsb (key_eqb k) ks = false -> dget k (snd s q) = dget k q) ss tt ->
  forall q, dget k (run_steps ss q) = dget k (run_steps (select (map (existsb (key_eqb k)) tt) ss) q).
Proof.
  intros L F. induction F as [|[b f] ks ss tt T F IH]; intros q; auto.
  apply Forall_cons_iff in L as [L1 L2]. cbn [map select snd] in *. destruct (existsb (key_eqb k) ks) eqn:E.
  - change (dget k (run_steps ss (if b then f q else q)) = dget k (run_steps (select (map (existsb (key_eqb k)) tt) ss) (if b then f q else q))). auto.
  - rewrite <- IH by auto. change (dget k (run_steps ss (if b then f q else q)) = dget k (run_steps ss q)).
    apply run_local; auto. destruct b; auto.
Qed.
Lemma dget_back k p : dget k (FILE_back p) =
  dget k (run_steps (select (map (existsb (key_eqb k)) touched) (FILE_steps p)) (dupdate (title_back p) (ROCKS_back p))).
Proof. unfold FILE_back. apply run_select; [apply steps_local|apply steps_touch]. Qed.
Ltac at_key := match goal with |- context [map (existsb (key_eqb ?k)) touched] =>
    let m := eval vm_compute in (map (existsb (key_eqb k)) touched) in change (map (existsb (key_eqb k)) touched) with m end;
  unfold FILE_steps; cbn [select]; unfold run_steps; cbn [fold_left fst snd].
Lemma dget_start k p : dget k (dupdate (title_back p) (ROCKS_back p)) =
  match dget k (ROCKS_back p) with Some v => Some v | None => dget k (title_back p) end.
Proof. apply dget_dupdate. now apply no_dup_keys_ok. Qed.
Ltac start := rewrite dget_start; unfold title_back; destruct (titles_of _); reflexivity.
Ltac set_in := unfold dupdate; cbn [fold_left fst snd]; repeat first [rewrite dget_dset_same; reflexivity | rewrite dget_dset_other by discriminate].
Ltac one b := unfold when_some; destruct b; [set_in|start].
Ltac two b := destruct b; [rewrite dget_dupdate by (now apply no_dup_keys_ok); reflexivity|start].
Lemma FILE_lookup p : (filled (val #"coordinates" p) = true -> filled (val #"elements" p) = true) ->
  forall k, dget k (FILE_back p) = FILE_entry p k.
Proof.
  intros CE k. rewrite dget_back. unfold FILE_entry.
  destruct (key_eqb k #"title") eqn:E1; [apply key_eqb_eq in E1; subst k; at_key; start|].
  destruct (key_eqb k #"rocks") eqn:E2; [apply key_eqb_eq in E2; subst k; at_key|].
  { unfold rocks_read. set (q := dupdate _ _). assert (Q : dget #"rocks" q = Some (PDict (rocks_back p))) by (unfold q; now rewrite dget_start).
    clearbody q.
    assert (W : forall u q r, dget #"rocks" q = Some (PDict r) -> dget #"rocks" (with_rocks u q) = Some (PDict (merge_rocks u r))).
    { intros u q0 r X. unfold with_rocks. rewrite dget_dset_same. now rewrite (val_some _ _ _ X). }
    destruct (given #"flac" p), (indom_given p); auto; unfold FLAC_upd; repeat apply W; auto;
      rewrite dget_dset_other by discriminate; auto. }
  destruct (key_eqb k #"rocks_order") eqn:E3; [apply key_eqb_eq in E3; subst k; at_key; start|].
  destruct (key_eqb k #"default") eqn:E4; [apply key_eqb_eq in E4; subst k; at_key|].
  { unfold PARAM_upd, default_read. cbv zeta. rewrite dget_dset_same. do 3 f_equal.
    unfold val. rewrite !dget_dset_other by discriminate.
    set (q := dupdate _ _). assert (Q : dget #"default" q = None) by (unfold q; start). clearbody q.
    destruct (rpcap_given p); [|now rewrite Q].
    unfold with_default. rewrite dget_dset_same. unfold val. rewrite Q. cbn [entries].
    apply dupdate_nil. apply models_back_unique. }
  destruct (key_eqb k #"options") eqn:E5; [apply key_eqb_eq in E5; subst k; at_key; unfold PARAM_upd; cbv zeta; set_in|].
  destruct (key_eqb k #"extra_options") eqn:E6; [apply key_eqb_eq in E6; subst k; at_key; unfold PARAM_upd; cbv zeta; set_in|].
  destruct (key_eqb k #"start") eqn:E7; [apply key_eqb_eq in E7; subst k; at_key; one (filled (val #"start" p))|].
  destruct (key_eqb k #"nover") eqn:E8; [apply key_eqb_eq in E8; subst k; at_key; one (filled (val #"nover" p))|].
  destruct (key_eqb k #"flac") eqn:E9; [apply key_eqb_eq in E9; subst k; at_key; unfold FLAC_upd, with_rocks; one (given #"flac" p)|].
  destruct (existsb (key_eqb k) [#"n_component"; #"isothermal"; #"n_phase"]) eqn:E10.
  { apply existsb_exists in E10 as (k' & I & X). apply key_eqb_eq in X. subst k'. cbn [In] in I.
    destruct I as [<-|[<-|[<-|[]]]]; at_key; two (multi_given p). }
  destruct (key_eqb k #"solver") eqn:E11; [apply key_eqb_eq in E11; subst k; at_key; two (filled (val #"solver" p))|].
  destruct (key_eqb k #"selections") eqn:E12; [apply key_eqb_eq in E12; subst k; at_key; two (filled (val #"selections" p))|].
  destruct (key_eqb k #"more_options") eqn:E13; [apply key_eqb_eq in E13; subst k; at_key; two (filled (val #"more_options" p))|].
  destruct (key_eqb k #"times") eqn:E14; [apply key_eqb_eq in E14; subst k; at_key; two (given #"times" p)|].
  destruct (existsb (key_eqb k) [#"element_history"; #"connection_history"; #"generator_history"]) eqn:E15.
  { apply existsb_exists in E15 as (k' & I & X). apply key_eqb_eq in X. subst k'. cbn [In] in I.
    destruct I as [<-|[<-|[<-|[]]]]; at_key; match goal with |- context [given ?k p] => two (given k p) end. }
  destruct (key_eqb k #"generators") eqn:E16; [apply key_eqb_eq in E16; subst k; at_key; two (filled (val #"generators" p))|].
  destruct (key_eqb k #"diffusion") eqn:E17; [apply key_eqb_eq in E17; subst k; at_key; two (given #"diffusion" p)|].
  destruct (key_eqb k #"output") eqn:E18; [apply key_eqb_eq in E18; subst k; at_key; two (filled (val #"output" p))|].
  destruct (key_eqb k #"elements") eqn:E19; [apply key_eqb_eq in E19; subst k; at_key|].
  { unfold when_some. destruct (filled (val #"elements" p)).
    - assert (Q : forall q, dget #"elements" (ELEME_upd p q) = Some (PDict (elements_back p))).
      { intros q. unfold ELEME_upd. set_in. }
      destruct (filled (val #"coordinates" p)); [|apply Q]. unfold COORD_upd.
      rewrite dget_dset_other, dget_dset_same by discriminate. now rewrite (val_some _ _ _ (Q _)).
    - destruct (filled (val #"coordinates" p)); [discriminate (CE eq_refl)|start]. }
  destruct (key_eqb k #"elements_order") eqn:E20; [apply key_eqb_eq in E20; subst k; at_key; unfold ELEME_upd; one (filled (val #"elements" p))|].
  destruct (key_eqb k #"coordinates") eqn:E21; [apply key_eqb_eq in E21; subst k; at_key|].
  { unfold when_some, COORD_upd, ELEME_upd. destruct (filled (val #"elements" p)), (filled (val #"coordinates" p)); try apply dget_dset_same; [discriminate (CE eq_refl)|start]. }
  destruct (existsb (key_eqb k) [#"connections"; #"connections_order"]) eqn:E22.
  { apply existsb_exists in E22 as (k' & I & X). apply key_eqb_eq in X. subst k'. cbn [In] in I.
    destruct I as [<-|[<-|[]]]; at_key; two (filled (val #"connections" p)). }
  destruct (existsb (key_eqb k) [#"initial_conditions"; #"initial_conditions_order"]) eqn:E23.
  { apply existsb_exists in E23 as (k' & I & X). apply key_eqb_eq in X. subst k'. cbn [In] in I.
    destruct I as [<-|[<-|[]]]; at_key; two (filled (val #"initial_conditions" p)). }
  cbn [existsb] in E10, E15, E22, E23. repeat match goal with E : _ || _ = false |- _ => apply orb_false_iff in E as [? ?] end.
  unfold touched. cbn [map existsb].
  repeat match goal with E : key_eqb k _ = false |- _ => rewrite ?E; revert E end. intros. cbn [orb select].
  unfold FILE_steps. cbn [select]. unfold run_steps. cbn [fold_left]. rewrite dget_start.
  unfold ROCKS_back. cbn [dget]. rewrite E2, E3. unfold title_back. destruct (titles_of p); [reflexivity|].
  cbn [dget]. now rewrite E1.
Qed.

(** ** The completion *)
Lemma fill_fold (skip : key -> bool) k l : forall d, NoDup (dkeys l) ->
  dget k (fold_left (fun acc kv => if dmem (fst kv) acc || skip (fst kv) then acc else dset (fst kv) (snd kv) acc) l d)
  = pick (dget k d) (if skip k then None else dget k l).
Proof.
  induction l as [|[a w] l IH]; intros d N; cbn [fold_left fst snd].
  - unfold pick. cbn [dget]. destruct (dget k d), (skip k); reflexivity.
  - cbn [dkeys map fst] in N. inversion_clear N as [|? ? N1 N2]. rewrite IH by auto. cbn [dget].
    destruct (key_eqb k a) eqn:E.
    + apply key_eqb_eq in E. subst a. assert (L : dget k l = None) by now apply dget_none_notin. rewrite L.
      unfold dmem. destruct (dget k d) eqn:D; cbn [orb].
      * now rewrite D.
      * destruct (skip k); [now rewrite D|]. now rewrite dget_dset_same.
    + destruct (dmem a d || skip a); auto. rewrite dget_dset, E. reflexivity.
Qed.
Lemma fill_default_get k def : dget k (fill_default def) = pick (dget k def) (dget k rock_defaults).
Proof.
  unfold fill_default.
  assert (E : forall l d, fold_left (fun acc kv => if dmem (fst kv) acc then acc else dset (fst kv) (snd kv) acc) l d =
    fold_left (fun acc kv => if dmem (fst kv) acc || (fun _ : key => false) (fst kv) then acc else dset (fst kv) (snd kv) acc) l d).
  { induction l as [|kv l IH]; intros d; auto. cbn [fold_left]. rewrite orb_false_r. apply IH. }
  rewrite E, (fill_fold (fun _ => false)) by (apply no_dup_keys_ok; reflexivity). cbv iota beta. f_equal.
  assert (K : forall k, dget k d_default = dget k rock_defaults); [|apply K].
  clear. intros k. unfold d_default, rock_defaults, blank_dict, scalar_keys, extra_keys, model_of, bare_model, pnil, pnones.
  cbn [map app dget repeat].
  repeat match goal with |- context [key_eqb k ?x] => let E := fresh in destruct (key_eqb k x) eqn:E; [apply key_eqb_eq in E; subst k; reflexivity|] end.
  reflexivity.
Qed.
Lemma fill_rock_get k def r : NoDup (dkeys def) ->
  dget k (fill_rock def r) = pick (dget k r) (if existsb (key_eqb k) rock_own then None else dget k def).
Proof. intros N. unfold fill_rock. now rewrite (fill_fold (fun k => existsb (key_eqb k) rock_own)). Qed.
Lemma dset_unique k v d : keys_unique d -> keys_unique (dset k v d).
Proof.
  unfold keys_unique. intros N. destruct (dget k d) eqn:E.
  - rewrite dkeys_dset; auto. apply dmem_in. unfold dmem. now rewrite E.
  - rewrite dset_fresh, dkeys_app by auto. apply dget_none_notin in E. change (dkeys [(k, v)]) with [k].
    apply NoDup_rev in N. rewrite <- (rev_involutive (dkeys d ++ [k])). apply NoDup_rev. rewrite rev_app_distr. cbn [rev app].
    constructor; auto. intros X. apply E. now apply in_rev.
Qed.
Lemma fill_default_unique def : keys_unique def -> keys_unique (fill_default def).
Proof.
  unfold fill_default. generalize d_default. intros l. revert def. induction l as [|kv l IH]; intros d N; auto. cbn [fold_left].
  apply IH. destruct (dmem (fst kv) d); auto. now apply dset_unique.
Qed.
Lemma mapM_keys (f : dict -> dict) (d : dict) rs :
  mapM (fun kv => let* r := as_dict (snd kv) in Ok (fst kv, PDict (f r))) d = Ok rs ->
  dkeys rs = dkeys d /\ forall name r, In (name, r) rs -> exists own, In (name, PDict own) d /\ r = PDict (f own).
Proof.
  revert rs. induction d as [|[k v] d IH]; intros rs E; cbn [mapM] in E.
  - injection E as <-. split; auto. intros ? ? [].
  - cbn [fst snd] in E. destruct v as [| | | | | | |own]; try discriminate. cbn [as_dict bind] in E.
    destruct (mapM _ d) as [rs'|] eqn:X; [|discriminate]. cbn [bind] in E. injection E as <-.
    destruct (IH rs' eq_refl) as [H1 H2]. split; [cbn [dkeys map fst]; unfold dkeys in H1; now rewrite H1|].
    intros name r [I|I].
    + injection I as <- <-. exists own. split; auto. now left.
    + destruct (H2 name r I) as (o & O1 & O2). exists o. split; auto. now right.
Qed.
Lemma top_same k : ~ In k [#"title"; #"default"; #"rocks"] -> dget k d_Parameters = dget k top_defaults.
Proof.
  intros N. unfold d_Parameters, top_defaults, blank_dict. cbn [map app dget].
  repeat match goal with |- context [key_eqb k ?x] => let E := fresh in destruct (key_eqb k x) eqn:E;
    [apply key_eqb_eq in E; subst k; first [reflexivity | exfalso; apply N; cbn [In]; tauto]|] end.
  reflexivity.
Qed.

Lemma prepare_completes u p : keys_unique u -> keys_unique (entries (val #"default" u)) -> keys_unique (entries (val #"rocks" u)) ->
  prepare u = Ok p -> completes u p.
Proof.
  intros U UD UR. unfold prepare. set (p0 := dupdate d_Parameters u).
  assert (G0 : forall k, dget k p0 = pick (dget k u) (dget k d_Parameters)).
  { intros k. unfold p0. now rewrite dget_dupdate. }
  assert (K : forall k, In k top_keys -> dmem k p0 = true).
  { intros k Hk. apply dmem_dupdate. now apply dmem_in. }
  rewrite dgetE_val by (apply K; cbn; tauto). cbn [bind]. set (t := if is_str _ then _ else _).
  set (p1 := dset #"title" t p0).
  assert (G1 : forall k, k <> #"title" -> dget k p1 = dget k p0) by (intros; unfold p1; now rewrite dget_dset_other).
  unfold get_dict at 1, dgetE at 1. rewrite G1, G0 by discriminate.
  destruct (pick (dget #"default" u) (dget #"default" d_Parameters)) as [[| | | | | | |def]|] eqn:ED; try discriminate. cbn [bind as_dict].
  assert (DD : def = entries (val #"default" u)).
  { unfold val. unfold pick in ED. destruct (dget #"default" u) as [v|]; [now injection ED as ->|]. now injection ED as <-. }
  set (def' := fill_default def).
  assert (UF : keys_unique def') by (unfold def'; apply fill_default_unique; now rewrite DD).
  unfold get_dict at 1, dgetE at 1. rewrite dget_dset_other, G1, G0 by discriminate.
  destruct (pick (dget #"rocks" u) (dget #"rocks" d_Parameters)) as [[| | | | | | |rocks]|] eqn:ER; try discriminate. cbn [bind as_dict].
  assert (RR : rocks = entries (val #"rocks" u)).
  { unfold val. unfold pick in ER. destruct (dget #"rocks" u) as [v|]; [now injection ER as ->|]. now injection ER as <-. }
  destruct (mapM _ rocks) as [rs|] eqn:EM; [|discriminate]. cbn [bind]. intros E. injection E as <-.
  apply mapM_keys in EM as [M1 M2].
  assert (DP : forall x, dget #"default" (dset #"rocks" x (dset #"default" (PDict def') p1)) = Some (PDict def')).
  { intros x. rewrite dget_dset_other by discriminate. apply dget_dset_same. }
  split; [|split; [|split]].
  - intros k N. assert (N' : k <> #"title" /\ k <> #"default" /\ k <> #"rocks") by (repeat split; intros ->; apply N; cbn [In]; tauto).
    destruct N' as (N1 & N2 & N3). rewrite !dget_dset_other, G1, G0 by auto. now rewrite top_same.
  - unfold titles_of, val. rewrite !dget_dset_other by discriminate. unfold p1. rewrite dget_dset_same. unfold t, val. rewrite G0.
    unfold pick. destruct (dget #"title" u) as [v|]; [|reflexivity]. destruct v; reflexivity.
  - exists def'. split; [apply DP|]. intros k. unfold def'. rewrite <- DD. apply fill_default_get.
  - exists rs. split; [apply dget_dset_same|]. split; [now rewrite M1, RR|].
    intros name r I. destruct (M2 name r I) as (own & I1 & ->). exists own. split.
    + rewrite <- RR. apply in_dget; auto. now rewrite RR.
    + intros k. cbn [entries]. unfold default_of, val. rewrite DP. cbn [entries]. now apply fill_rock_get.
Qed.

(** ** The title *)
Lemma title_roundtrip u p ll fuel : prepare u = Ok p -> FILE_ok p -> label_choice ll -> FILE_known (label_given ll) p ->
  (List.length (titles_of p) < fuel)%nat ->
  exists t q, write_text u ($"all") = Ok t /\ read_text fuel ll t = Ok q /\
    dget #"title" q = match titles_of p with [] => None | l => Some (one_or_list l) end.
Proof.
  intros E H LC K L. destruct (FILE_roundtrip u p ll fuel E H LC K L) as (t & W & R).
  exists t, (FILE_back p). split; auto. split; auto. rewrite FILE_lookup; [reflexivity|]. intros C. now apply H.
Qed.
