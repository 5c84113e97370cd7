(** ROCKS and RPCAP: what is written is what is read. *)
From Coq Require Import String Ascii ZArith Bool Lia FinFun List.
From Verif Require Import Base.Str Base.Digits Base.Flt Base.FltText Base.FltInt.
From Verif Require Import Model.Py Model.Records Model.Write Model.Read.
From Verif Require Import Spec.Fields Spec.Values Spec.Types Spec.Layouts Spec.Rocks.
From Verif Require Import Proofs.RecordLemmas Proofs.DictLemmas Proofs.Layouts Proofs.Types Proofs.BlockTools.
Import ListNotations.
Local Open Scope Z_scope.

Lemma name_ok_spec w s : name_ok w s = true ->
  nonempty s = true /\ trimmed s = true /\ col_ok (CText w) (PStr s) = true.
Proof.
  unfold name_ok. rewrite !andb_true_iff. intros [[[H1 H2] H3] H4]. repeat split; auto.
  cbn [col_ok]. rewrite H2, H3, H4. now rewrite orb_true_r.
Qed.

(** ** Models *)
Definition model_vals (m : dict) : list pyval := val #"id" m :: PNone :: items (val #"parameters" m).

Lemma model_values_ok w k v m : v = PDict m -> model_ok w k v = true ->
  model_values v = Ok (model_vals m).
Proof.
  intros -> H. unfold model_ok in H. rewrite !andb_true_iff in H.
  destruct H as [[[[[H1 H2] H3] H4] H5] H6]. unfold model_values, subscript.
  rewrite !dgetE_val by auto. cbn [bind]. unfold model_vals.
  destruct (val #"parameters" m); try discriminate. reflexivity.
Qed.
Lemma model_rec_ok v m : v = PDict m -> model_ok 5 3 v = true -> rec_ok cols_RPCAP (model_vals m) = true.
Proof.
  intros -> H. unfold model_ok in H. rewrite !andb_true_iff in H.
  destruct H as [[[[[H1 H2] H3] H4] H5] H6].
  unfold cols_RPCAP, model_vals. rewrite !rec_ok_cons, H4, rec_ok_repeat. exact H6.
Qed.

(** The line of a model that may be missing. *)
Definition model_line (r : dict) (k : key) : str :=
  match dget k r with Some (PDict m) => rec_line cols_RPCAP (model_vals m) | _ => rec_line cols_RPCAP [] end.
Definition model_back1 (r : dict) (k : key) : dict :=
  match dget k r with
  | Some (PDict m) => if is_none (model_id m) then [] else [(k, model_back m)]
  | _ => []
  end.
Definition opt_model_ok (r : dict) (k : key) : bool :=
  match dget k r with Some m => model_ok 5 3 m | None => true end.

Lemma write_model_ok r k : opt_model_ok r k = true ->
  match dget k r with
  | Some m => let* vs := model_values m in write_record vs (str2format fmt_RPCAP [])
  | None => write_record [] []
  end = Ok [model_line r k].
Proof.
  unfold opt_model_ok, model_line. destruct (dget k r) as [v|]; intros H; [|apply write_blank].
  destruct v as [| | | | | | |m]; try discriminate.
  rewrite (model_values_ok 5 3 _ m) by auto. cbn [bind].
  apply write_record_ok; [apply f_RPCAP|now apply (model_rec_ok (PDict m))].
Qed.

Lemma read_model_ok r k rest : opt_model_ok r k = true ->
  read_model k (model_line r k :: rest) = Ok (model_back1 r k, rest).
Proof.
  unfold opt_model_ok, model_line, model_back1. intros H. unfold read_model. cbn [next bind].
  destruct (dget k r) as [v|].
  - destruct v as [| | | | | | |m]; try discriminate.
    rewrite (read_record_ok fmt_RPCAP cols_RPCAP _ f_RPCAP) by now apply (model_rec_ok (PDict m)).
    cbn [bind]. unfold cols_RPCAP, model_vals. rewrite !rec_val_cons.
    cbn [at_ nth skipn]. rewrite prune_trim, trim_rec_val. reflexivity.
  - rewrite (read_record_ok fmt_RPCAP cols_RPCAP _ f_RPCAP) by reflexivity. reflexivity.
Qed.
Lemma model_line_good r k : opt_model_ok r k = true -> good_line (model_line r k).
Proof.
  unfold opt_model_ok, model_line. intros H. destruct (dget k r) as [v|].
  - destruct v as [| | | | | | |m]; try discriminate. apply rec_line_good. now apply (model_rec_ok (PDict m)).
  - now apply rec_line_good.
Qed.

Lemma models_back_eq r : models_back r = model_back1 r #"relative_permeability" ++ model_back1 r #"capillarity".
Proof. unfold models_back, model_keys, model_back1. cbn [flat_map]. now rewrite app_nil_r. Qed.

Definition model_lines (r : dict) : list str := map (model_line r) model_keys.

Lemma read_rpcap_ok r rest : forallb (opt_model_ok r) model_keys = true ->
  read_rpcap (model_lines r ++ rest) = Ok (models_back r, rest).
Proof.
  cbn [model_keys forallb]. rewrite !andb_true_iff. intros (H1 & H2 & _).
  unfold read_rpcap, model_lines. cbn [model_keys map app].
  rewrite read_model_ok by auto. cbn [bind]. rewrite read_model_ok by auto. cbn [bind].
  now rewrite models_back_eq.
Qed.

(** ** One rock *)
Definition has_models (r : dict) : bool := dmem #"relative_permeability" r || dmem #"capillarity" r.
Definition has_extra (r : dict) : bool := existsb (fun k => not_none (val k r)) extra_keys.
Definition nad (r : dict) : pyval :=
  if has_models r then PInt 2 else if has_extra r then PInt 1 else PStr [].
Definition rock_vals (s : str) (r : dict) : list pyval :=
  [PStr s; nad r; val #"density" r; val #"porosity" r] ++ perms (val #"permeability" r)
  ++ [val #"conductivity" r; val #"specific_heat" r].
Definition rock_recs (s : str) (r : dict) : list str :=
  [rec_line cols_ROCKS_1 (rock_vals s r)]
  ++ (if has_extra r then [rec_line cols_ROCKS_2 (map (fun k => val k r) extra_keys)]
      else if has_models r then [rec_line cols_ROCKS_2 []] else [])
  ++ (if has_models r then model_lines r else []).

Record rock_facts (r : dict) : Prop := {
  rf_mem : forall k, In k (#"permeability" :: scalar_keys ++ extra_keys) -> dmem k r = true;
  rf_fit : forall k, In k (scalar_keys ++ extra_keys) -> col_ok (CSci 10 4) (val k r) = true;
  rf_perm : perm_ok (val #"permeability" r) = true;
  rf_models : forallb (opt_model_ok r) model_keys = true }.
Lemma rock_ok_facts r : rock_ok r = true -> rock_facts r.
Proof.
  unfold rock_ok. rewrite !andb_true_iff. intros [[[[H1 H2] H3] H4] H5]. split; auto.
  - intros k Hk. rewrite forallb_forall in H2. auto.
  - intros k Hk. rewrite forallb_forall in H3. now apply H3.
Qed.

Lemma perms_ok v : perm_ok v = true ->
  List.length (perms v) = 3%nat /\ forallb (col_ok (CSci 10 4)) (perms v) = true.
Proof.
  unfold perm_ok, perms, fits. intros H.
  destruct v; try discriminate; cbn [List.length forallb]; try (split; [auto|now rewrite H]).
  apply andb_true_iff in H as [H1 H2]. apply Nat.eqb_eq in H1. auto.
Qed.

Lemma rock_rec_ok s r : name_ok 5 s = true -> rock_facts r -> rec_ok cols_ROCKS_1 (rock_vals s r) = true.
Proof.
  intros N F. destruct (name_ok_spec _ _ N) as (_ & _ & N').
  unfold cols_ROCKS_1, rock_vals. cbn [app]. rewrite !rec_ok_cons, N'.
  assert (I : col_ok (CInt 5) (nad r) = true) by (unfold nad; destruct (has_models r), (has_extra r); reflexivity).
  rewrite I. cbn [andb]. rewrite rec_ok_repeat.
  destruct (perms_ok _ (rf_perm r F)) as [L P]. destruct (perms (val #"permeability" r)) as [|a [|b [|c [|]]]]; try discriminate.
  cbn [firstn app]. cbn [forallb] in *. rewrite !andb_true_iff in P. destruct P as (P1 & P2 & P3 & _).
  rewrite P1, P2, P3.
  rewrite !(rf_fit r F) by (cbn [scalar_keys app In]; tauto). reflexivity.
Qed.

Lemma perm_list_ok {A} v (f : list pyval -> res A) : perm_ok v = true ->
  (let* nd := py_ndim v in
   let* pl := (match (match nd with O => PSeq SList [v; v; v] | S _ => v end) with
               | PSeq _ l => if Nat.eqb (List.length l) 3 then Ok l else Err TypeError
               | _ => Err TypeError
               end) in f pl) = f (perms v).
Proof.
  intros H. destruct v; try reflexivity; try discriminate.
  cbn [perm_ok] in H. apply andb_true_iff in H as [L P]. apply Nat.eqb_eq in L.
  destruct l as [|a [|b [|c [|]]]]; try discriminate.
  cbn [forallb] in P. rewrite !andb_true_iff in P. destruct P as (P1 & P2 & P3 & _).
  assert (S : forall x, fits 4 x = true -> py_shape x = Ok []).
  { intros x Hx. destruct x; try reflexivity; discriminate. }
  unfold py_ndim. cbn [py_shape]. rewrite (S a), (S b), (S c) by auto. reflexivity.
Qed.

Lemma in_extra k : In k rock_keys2 -> In k (scalar_keys ++ extra_keys).
Proof. intros. apply in_or_app. now right. Qed.

Lemma write_rock_ok rocks s r : dget (KS s) rocks = Some (PDict r) -> name_ok 5 s = true -> rock_facts r ->
  write_rock rocks (PStr s) = Ok (rock_recs s r).
Proof.
  intros G N F. unfold write_rock, lookup. cbn [val_key bind]. unfold dgetE at 1. rewrite G. cbn [bind as_dict].
  rewrite (anyM_ok _ (fun k => not_none (val k r))).
  2:{ intros k Hk. rewrite dgetE_val by (apply (rf_mem r F); right; now apply in_extra). reflexivity. }
  cbn [bind]. fold (has_extra r). change (existsb _ rock_keys2) with (has_extra r).
  fold (has_models r).
  rewrite (dgetE_val #"permeability") by (apply (rf_mem r F); cbn [In]; tauto). cbn [bind].
  cbv zeta. rewrite perm_list_ok by apply (rf_perm r F).
  rewrite !dgetE_val by (apply (rf_mem r F); cbn [scalar_keys app In]; tauto). cbn [bind].
  match goal with |- context [write_record ?l (str2format fmt_ROCKS_1 [])] =>
    replace l with (rock_vals s r)
      by (unfold rock_vals, nad; destruct (has_models r), (has_extra r); reflexivity) end.
  rewrite (write_record_ok fmt_ROCKS_1 cols_ROCKS_1 _ f_ROCKS_1) by now apply rock_rec_ok.
  cbn [bind].
  assert (M : forall k, In k model_keys -> opt_model_ok r k = true) by
    (intros k Hk; pose proof (rf_models r F) as X; rewrite forallb_forall in X; auto).
  assert (R2 : (if has_extra r
         then let* vs := mapM (fun k => dgetE k r) rock_keys2 in write_record vs (str2format fmt_ROCKS_2 [])
         else when (Z.eqb (if has_models r then 2 else if has_extra r then 1 else 0) 2) (write_record [] []))
       = Ok (if has_extra r then [rec_line cols_ROCKS_2 (map (fun k => val k r) extra_keys)]
             else if has_models r then [rec_line cols_ROCKS_2 []] else [])).
  { destruct (has_extra r); [|destruct (has_models r); [apply write_blank|reflexivity]].
    rewrite (mapM_ok _ (fun k => val k r)) by (intros k Hk; apply dgetE_val, (rf_mem r F); right; now apply in_extra).
    cbn [bind]. apply write_record_ok; [apply f_ROCKS_2|].
    unfold cols_ROCKS_2. rewrite rec_ok_repeat. apply forallb_forall. intros x Hx.
    change (firstn 7 (map (fun k => val k r) extra_keys)) with (map (fun k => val k r) extra_keys) in Hx.
    apply in_map_iff in Hx as (k & <- & Hk). apply (rf_fit r F). apply in_or_app. now right. }
  rewrite R2. cbn [bind]. clear R2.
  assert (R3 : when (Z.eqb (if has_models r then 2 else if has_extra r then 1 else 0) 2)
     (concatM (fun key => match dget key r with
                         | Some m => let* vs := model_values m in write_record vs (str2format fmt_RPCAP [])
                         | None => write_record [] []
                         end) [#"relative_permeability"; #"capillarity"])
     = Ok (if has_models r then model_lines r else [])).
  { destruct (has_models r); [|destruct (has_extra r); reflexivity].
    change (Z.eqb 2 2) with true. unfold when.
    rewrite (concatM_ok _ (fun k => [model_line r k])) by (intros k Hk; apply write_model_ok; now apply M).
    reflexivity. }
  rewrite R3. reflexivity.
Qed.

(** ** Reading one rock *)
Definition rock_dict (r : dict) : dict :=
  [(#"density", sci 4 (val #"density" r)); (#"porosity", sci 4 (val #"porosity" r));
   (#"permeability", perm_back (val #"permeability" r));
   (#"conductivity", sci 4 (val #"conductivity" r));
   (#"specific_heat", sci 4 (val #"specific_heat" r))]
  ++ (if has_models r || has_extra r then map (fun k => (k, sci 4 (val k r))) extra_keys else [])
  ++ (if has_models r then models_back r else []).

Lemma no_extra_val r k : has_extra r = false -> In k extra_keys -> val k r = PNone.
Proof.
  unfold has_extra. intros H Hk.
  destruct (is_none (val k r)) eqn:E; [now destruct (val k r)|].
  assert (X : existsb (fun k => not_none (val k r)) extra_keys = true).
  { apply existsb_exists. exists k. split; auto. unfold not_none. now rewrite E. }
  congruence.
Qed.

Lemma models_back_none r : has_models r = false -> models_back r = [].
Proof.
  unfold has_models, dmem. intros H. rewrite models_back_eq. unfold model_back1.
  destruct (dget #"relative_permeability" r), (dget #"capillarity" r); try discriminate; reflexivity.
Qed.
Lemma models_back_known r : known (models_back r) = models_back r.
Proof.
  rewrite models_back_eq. unfold model_back1.
  destruct (dget #"relative_permeability" r) as [[]|]; try destruct (is_none _);
  destruct (dget #"capillarity" r) as [[]|]; try destruct (is_none _); reflexivity.
Qed.
Lemma rock_back_eq r : prune_nones_dict (rock_dict r) = rock_back r.
Proof.
  rewrite known_prune. unfold rock_dict, rock_back. rewrite !known_app, <- !app_assoc. f_equal.
  destruct (has_models r) eqn:Em; cbn [orb].
  - now rewrite models_back_known.
  - rewrite models_back_none by auto. destruct (has_extra r) eqn:Ee; auto.
    cbn [known]. rewrite !app_nil_r.
    assert (X : forall l, (forall k, In k l -> val k r = PNone) -> known (map (fun k => (k, sci 4 (val k r))) l) = []).
    { induction l as [|k l IH]; intros H; auto. cbn [map known]. rewrite H by now left. cbn [sci col_val num_of int_of is_none].
      apply IH. intros. apply H. now right. }
    symmetry. apply X. intros. now apply no_extra_val.
Qed.

Definition add_rock (st : dict * list pyval) (x : str * dict) : dict * list pyval :=
  (dset (KS (fst x)) (PDict (rock_dict (snd x))) (fst st), snd st ++ [PStr (fst x)]).

Lemma extra_vals r : rock_facts r -> forall vs,
  (has_extra r = true /\ vs = map (fun k => val k r) extra_keys) \/ (has_extra r = false /\ vs = []) ->
  rec_ok cols_ROCKS_2 vs = true /\ rec_val cols_ROCKS_2 vs = map (fun k => sci 4 (val k r)) extra_keys.
Proof.
  intros F vs [[E ->]|[E ->]].
  - split.
    + unfold cols_ROCKS_2. rewrite rec_ok_repeat. apply forallb_forall. intros x Hx.
      change (firstn 7 (map (fun k => val k r) extra_keys)) with (map (fun k => val k r) extra_keys) in Hx.
      apply in_map_iff in Hx as (k & <- & Hk). apply (rf_fit r F). apply in_or_app. now right.
    + reflexivity.
  - split; auto. change (rec_val cols_ROCKS_2 []) with (repeat PNone 7).
    cbn [extra_keys map]. rewrite !(no_extra_val r) by (cbn [extra_keys In]; tauto). reflexivity.
Qed.

Lemma models_unique r (d : dict) : dkeys d = [#"density"; #"porosity"; #"permeability"; #"conductivity"; #"specific_heat"] ++ extra_keys ->
  keys_unique (d ++ models_back r).
Proof.
  intros E. unfold keys_unique. rewrite dkeys_app, E, models_back_eq. unfold model_back1.
  apply no_dup_keys_ok.
  destruct (dget #"relative_permeability" r) as [[]|]; try destruct (is_none _);
  destruct (dget #"capillarity" r) as [[]|]; try destruct (is_none _); reflexivity.
Qed.

Lemma read_rock_ok s r st rest : name_ok 5 s = true -> rock_facts r ->
  read_rock st (rock_recs s r ++ rest) = Ok (true, add_rock st (s, r), rest).
Proof.
  intros N F. destruct (name_ok_spec _ _ N) as (N1 & N2 & N3).
  pose proof (rock_rec_ok s r N F) as R1.
  unfold read_rock, rock_recs. rewrite <- !app_assoc. cbn [app next bind].
  assert (B : blank (rec_line cols_ROCKS_1 (rock_vals s r)) = false) by
    (unfold rock_vals; cbn [app]; apply rec_line_not_blank; auto).
  rewrite B.
  rewrite (read_record_ok fmt_ROCKS_1 cols_ROCKS_1 _ f_ROCKS_1) by auto. cbn [bind].
  destruct (perms_ok _ (rf_perm r F)) as [L P].
  assert (V : exists a b c, perms (val #"permeability" r) = [a; b; c] /\
    rec_val cols_ROCKS_1 (rock_vals s r) =
      [PStr s; col_val (CInt 5) (nad r); sci 4 (val #"density" r); sci 4 (val #"porosity" r);
       sci 4 a; sci 4 b; sci 4 c; sci 4 (val #"conductivity" r); sci 4 (val #"specific_heat" r)]).
  { unfold rock_vals. destruct (perms (val #"permeability" r)) as [|a [|b [|c [|]]]]; try discriminate.
    exists a, b, c. split; auto. cbn [app]. unfold cols_ROCKS_1. cbn [repeat]. rewrite !rec_val_cons.
    cbn [rec_val]. replace (col_val (CText 5) (PStr s)) with (PStr s); auto.
    cbn [col_val absent]. destruct s; [discriminate|reflexivity]. }
  destruct V as (a & b & c & EP & ->).
  cbn [at_ nth firstn skipn val_key bind].
  assert (PB : (if all_equal3 (sci 4 a) (sci 4 b) (sci 4 c) then sci 4 a else PSeq SList [sci 4 a; sci 4 b; sci 4 c])
               = perm_back (val #"permeability" r)).
  { unfold perm_back. rewrite EP. cbn [map]. reflexivity. }
  rewrite PB.
  unfold add_rock. cbn [fst snd]. unfold rock_dict.
  destruct (has_models r) eqn:Em; [|destruct (has_extra r) eqn:Ee].
  - (* models *)
    assert (NA : col_val (CInt 5) (nad r) = PInt 2) by (unfold nad; now rewrite Em).
    rewrite NA. cbn [is_none orb].
    assert (X : exists vs, (if has_extra r then [rec_line cols_ROCKS_2 (map (fun k => val k r) extra_keys)]
                            else [rec_line cols_ROCKS_2 []]) = [rec_line cols_ROCKS_2 vs] /\
                ((has_extra r = true /\ vs = map (fun k => val k r) extra_keys) \/ (has_extra r = false /\ vs = []))).
    { destruct (has_extra r); eauto. }
    destruct X as (vs & -> & X). cbn [app next bind].
    destruct (extra_vals r F vs X) as [X1 X2].
    rewrite (read_record_ok fmt_ROCKS_2 cols_ROCKS_2 _ f_ROCKS_2) by auto. cbn [bind]. rewrite X2.
    rewrite dupdate_app_fresh by (apply no_dup_keys_ok; reflexivity).
    cbn [bind]. change (1 <? 2) with true. cbv iota.
    rewrite read_rpcap_ok by apply (rf_models r F). cbn [bind].
    rewrite dupdate_app_fresh by (apply models_unique; reflexivity).
    reflexivity.
  - assert (NA : col_val (CInt 5) (nad r) = PInt 1) by (unfold nad; now rewrite Em, Ee).
    rewrite NA. cbn [is_none orb app next bind].
    destruct (extra_vals r F (map (fun k => val k r) extra_keys)) as [X1 X2]; [auto|].
    rewrite (read_record_ok fmt_ROCKS_2 cols_ROCKS_2 _ f_ROCKS_2) by auto. cbn [bind]. rewrite X2.
    rewrite dupdate_app_fresh by (apply no_dup_keys_ok; reflexivity).
    cbn [bind]. change (1 <? 1) with false. cbv iota. cbn [bind]. reflexivity.
  - assert (NA : col_val (CInt 5) (nad r) = PNone) by (unfold nad; now rewrite Em, Ee).
    rewrite NA. cbn [is_none orb app bind]. reflexivity.
Qed.

(** ** The order of the rocks *)
Definition all_names (l : list key) : Prop := Forall (fun k => exists s, k = KS s) l.
Lemma in_names l s : (existsb (simple_eqb (PStr s)) l = true) <-> In (PStr s) l.
Proof.
  rewrite existsb_exists. split.
  - intros (x & Hx & E). destruct x; try discriminate. cbn [simple_eqb] in E. apply streqb_eq in E. now subst.
  - intros H. exists (PStr s). split; auto. cbn [simple_eqb]. now apply streqb_eq.
Qed.
Lemma key_val_inj a b : key_val a = key_val b -> a = b.
Proof. destruct a, b; simpl; congruence. Qed.

Definition ext_step (o : pyval) (rock : key) : res pyval :=
  match o with
  | PSeq k l =>
      if existsb (simple_eqb (key_val rock)) l then Ok o
      else match k with SList => Ok (PSeq k (l ++ [key_val rock])) | _ => Err AttributeError end
  | _ => Err TypeError
  end.
Lemma extend_list ks : forall l done, all_names (done ++ ks) -> NoDup (done ++ ks) ->
  foldM ext_step (PSeq SList (l ++ filter (fun x => negb (existsb (simple_eqb x) l)) (map key_val done))) ks
  = Ok (PSeq SList (l ++ filter (fun x => negb (existsb (simple_eqb x) l)) (map key_val (done ++ ks)))).
Proof.
  induction ks as [|k ks IH]; intros l done A N; cbn [foldM]; [now rewrite app_nil_r|].
  assert (X : exists s, k = KS s).
  { unfold all_names in A. rewrite Forall_app in A. destruct A as [_ A]. now inversion_clear A. }
  destruct X as [s ->].
  assert (ND : ~ In (KS s) done).
  { apply NoDup_remove_2 in N. intros H. apply N. apply in_or_app. now left. }
  cbn [ext_step key_val].
  assert (E : existsb (simple_eqb (PStr s)) (l ++ filter (fun x => negb (existsb (simple_eqb x) l)) (map key_val done))
              = existsb (simple_eqb (PStr s)) l).
  { rewrite existsb_app. rewrite (existsb_false (simple_eqb (PStr s)) (filter _ _)); [apply orb_false_r|].
    intros x Hx. apply filter_In in Hx as [Hx _]. apply in_map_iff in Hx as (k' & <- & Hk').
    destruct k'; try reflexivity. cbn [key_val simple_eqb]. apply not_true_iff_false. rewrite streqb_eq.
    intros ->. auto. }
  rewrite E.
  specialize (IH l (done ++ [KS s])). rewrite <- app_assoc in IH. cbn [app] in IH. specialize (IH A N).
  rewrite map_app, filter_app in IH. cbn [map filter key_val] in IH.
  destruct (existsb (simple_eqb (PStr s)) l) eqn:E2; cbn [negb bind] in *.
  - rewrite app_nil_r in IH. exact IH.
  - rewrite <- app_assoc. exact IH.
Qed.
Lemma extend_full k l ks : all_names ks -> (forall s, In (KS s) ks -> In (PStr s) l) ->
  foldM ext_step (PSeq k l) ks = Ok (PSeq k l).
Proof.
  induction ks as [|x ks IH]; intros A H; auto. cbn [foldM].
  inversion_clear A as [|? ? [s ->] A']. cbn [ext_step key_val].
  assert (X : existsb (simple_eqb (PStr s)) l = true) by (apply in_names, H; now left).
  rewrite X. cbn [bind]. apply IH; auto. intros. apply H. now right.
Qed.
Lemma full_order_full l ks : all_names ks -> (forall s, In (KS s) ks -> In (PStr s) l) ->
  filter (fun x => negb (existsb (simple_eqb x) l)) (map key_val ks) = [].
Proof.
  induction ks as [|x ks IH]; intros A H; auto. cbn [map filter].
  inversion_clear A as [|? ? [s ->] A']. cbn [key_val].
  assert (X : existsb (simple_eqb (PStr s)) l = true) by (apply in_names, H; now left).
  rewrite X. cbn [negb]. apply IH; auto. intros. apply H. now right.
Qed.

Lemma extend_order_ok k l d : all_names (dkeys d) -> keys_unique d -> order_ok (PSeq k l) d ->
  extend_order (PSeq k l) d = Ok (PSeq k (full_order (PSeq k l) d)).
Proof.
  intros A U (N & F & K). unfold extend_order. change (foldM ext_step (PSeq k l) (dkeys d) = Ok (PSeq k (full_order (PSeq k l) d))).
  unfold full_order. destruct K as [->|K].
  - pose proof (extend_list (dkeys d) l [] A U) as X. cbn [map filter app] in X. rewrite app_nil_r in X. exact X.
  - rewrite extend_full by auto. rewrite full_order_full by auto. now rewrite app_nil_r.
Qed.

Lemma full_order_in given d x : all_names (dkeys d) -> order_ok given d ->
  In x (full_order given d) -> exists s, x = PStr s /\ In (KS s) (dkeys d).
Proof.
  intros A O H.
  assert (X : In x (map key_val (dkeys d)) -> exists s, x = PStr s /\ In (KS s) (dkeys d)).
  { intros Hx. apply in_map_iff in Hx as (k & <- & Hk). unfold all_names in A. rewrite Forall_forall in A.
    destruct (A k Hk) as [s ->]. exists s. auto. }
  destruct given; cbn [order_ok] in O; try contradiction; unfold full_order in H; auto.
  apply in_app_or in H as [H|H].
  - destruct O as (_ & F & _). rewrite Forall_forall in F. now apply F.
  - apply filter_In in H as [H _]. auto.
Qed.
Lemma full_order_nodup given d : all_names (dkeys d) -> keys_unique d -> order_ok given d ->
  NoDup (full_order given d).
Proof.
  intros A U O.
  assert (M : NoDup (map key_val (dkeys d))).
  { apply FinFun.Injective_map_NoDup; auto. intros a b. apply key_val_inj. }
  destruct given; cbn [order_ok] in O; try contradiction; unfold full_order; auto.
  destruct O as (N & F & _).
  assert (G : forall a b : list pyval, NoDup a -> NoDup b -> (forall x, In x b -> ~ In x a) -> NoDup (a ++ b)).
  { clear. induction a as [|x a IH]; intros b Na Nb H; auto. inversion_clear Na as [|? ? N1 N2].
    cbn [app]. constructor.
    - intros X. apply in_app_or in X as [X|X]; auto. apply (H x X). now left.
    - apply IH; auto. intros y Hy Hy2. apply (H y Hy). now right. }
  apply G; auto.
  - now apply NoDup_filter.
  - intros x Hx Hl. apply filter_In in Hx as [Hx E]. apply negb_true_iff in E.
    apply in_map_iff in Hx as (k1 & <- & Hk). unfold all_names in A. rewrite Forall_forall in A.
    destruct (A k1 Hk) as [s ->]. cbn [key_val] in *. apply in_names in Hl. congruence.
Qed.
Lemma full_order_complete given d s : order_ok given d -> In (KS s) (dkeys d) ->
  In (PStr s) (full_order given d).
Proof.
  intros O H. assert (X : In (PStr s) (map key_val (dkeys d))) by now apply (in_map key_val) in H.
  destruct given; cbn [order_ok] in O; try contradiction; unfold full_order; auto.
  apply in_or_app. destruct (existsb (simple_eqb (PStr s)) l) eqn:E.
  - left. now apply in_names.
  - right. apply filter_In. split; auto. now rewrite E.
Qed.

(** ** The block *)
Definition rock_item (d : dict) (x : pyval) : str * dict :=
  (match x with PStr s => s | _ => [] end, rock_named d x).
Definition ROCKS_body (p : dict) : list str :=
  concat (map (fun x => rock_recs (fst (rock_item (rocks_of p) x)) (rock_named (rocks_of p) x))
              (rocks_order_of p)) ++ [[nl]].
(** the parameters handed to the following blocks *)
Definition ROCKS_after (p : dict) : dict :=
  match val #"rocks_order" p with
  | PSeq k _ => dset #"rocks_order" (PSeq k (rocks_order_of p)) p
  | _ => p
  end.

Lemma ROCKS_names p : ROCKS_ok p -> all_names (dkeys (rocks_of p)).
Proof.
  intros (_ & _ & _ & _ & _ & F). unfold all_names. apply Forall_forall. intros k Hk.
  unfold dkeys in Hk. apply in_map_iff in Hk as (kv & <- & Hkv).
  rewrite Forall_forall in F. destruct (F kv Hkv) as (s & r & -> & _). now exists s.
Qed.
Lemma ROCKS_item p x : ROCKS_ok p -> In x (rocks_order_of p) ->
  exists s r, x = PStr s /\ dget (KS s) (rocks_of p) = Some (PDict r) /\ rock_named (rocks_of p) x = r /\
    name_ok 5 s = true /\ rock_ok r = true.
Proof.
  intros H Hx. pose proof (ROCKS_names p H) as A.
  destruct H as (_ & _ & _ & O & U & F).
  destruct (full_order_in _ _ _ A O Hx) as (s & -> & Hs).
  unfold dkeys in Hs. apply in_map_iff in Hs as (kv & E & Hkv).
  rewrite Forall_forall in F. destruct (F kv Hkv) as (s' & r & -> & N & R). cbn [fst] in E. injection E as ->.
  exists s, r. pose proof (in_dget _ _ _ U Hkv) as G. repeat split; auto.
  unfold rock_named. now rewrite (val_some _ _ _ G).
Qed.

Lemma rock_ok_typed r : rock_ok r = true -> well_typed kinds_ROCKS r = true.
Proof. unfold rock_ok. rewrite !andb_true_iff. tauto. Qed.
Lemma model_typed w k v : model_ok w k v = true -> exists y, v = PDict y /\ well_typed kinds_MODEL y = true.
Proof. destruct v; try discriminate. cbn [model_ok]. rewrite !andb_true_iff. intros H. exists d. tauto. Qed.
Lemma rock_models_typed r k : rock_ok r = true -> In k model_keys ->
  match dget k r with Some m => exists y, m = PDict y /\ well_typed kinds_MODEL y = true | None => True end.
Proof.
  intros H Hk. pose proof (rf_models r (rock_ok_facts r H)) as M. rewrite forallb_forall in M.
  specialize (M k Hk). unfold opt_model_ok in M. destruct (dget k r); auto. eapply model_typed; eauto.
Qed.

Lemma write_rocks_ok p : ROCKS_ok p ->
  write_rocks p = Ok (head ($"ROCKS") :: ROCKS_body p, ROCKS_after p).
Proof.
  intros H. pose proof H as ((def & D1 & D2) & R & RO & O & U & F). rewrite Forall_forall in F.
  unfold write_rocks.
  rewrite (check_at_ok dt_ROCKS kinds_ROCKS #"default" p def st_ROCKS) by auto.
  rewrite (check_list_ok dt_ROCKS kinds_ROCKS #"rocks" p (rocks_of p) st_ROCKS); auto.
  2:{ intros k v Hk. destruct (F _ Hk) as (s & r & E & _ & Hr). injection E as -> ->. exists r. split; auto.
      now apply rock_ok_typed. }
  assert (M : forall k, In k model_keys -> check_list dt_MODEL #"rocks" [k] p = Ok tt).
  { intros k Hk. apply (check_list_sub_ok dt_MODEL kinds_MODEL _ _ _ (rocks_of p) st_MODEL); auto.
    intros k' v Hkv. destruct (F _ Hkv) as (s & r & E & _ & Hr). injection E as -> ->. exists r. split; auto.
    now apply rock_models_typed. }
  rewrite !M by (cbn [model_keys In]; tauto).
  cbn [bind]. unfold get_dict at 1, dgetE at 1. rewrite R. cbn [bind as_dict].
  rewrite dgetE_val by auto. cbn [bind].
  assert (OE : (if is_none (val #"rocks_order" p) then Ok (map key_val (dkeys (rocks_of p)), p)
     else let* o' := extend_order (val #"rocks_order" p) (rocks_of p) in
          let* l := py_iter o' in
          Ok (l, dset #"rocks_order" o' p)) = Ok (rocks_order_of p, ROCKS_after p)).
  { unfold ROCKS_after, rocks_order_of in *. destruct (val #"rocks_order" p); cbn [order_ok] in O; try contradiction; auto.
    cbn [is_none]. rewrite extend_order_ok; auto using ROCKS_names. }
  rewrite OE. cbn [bind].
  rewrite (concatM_ok _ (fun x => rock_recs (fst (rock_item (rocks_of p) x)) (rock_named (rocks_of p) x))).
  - reflexivity.
  - intros x Hx. destruct (ROCKS_item p x H Hx) as (s & r & -> & G & E & N & Hr). rewrite E. cbn [rock_item fst].
    apply write_rock_ok; auto. now apply rock_ok_facts.
Qed.

Lemma rock_recs_nonempty s r : rock_recs s r <> [].
Proof. unfold rock_recs. discriminate. Qed.

Lemma prune_values_map {A} (k : A -> key) (d : A -> dict) l :
  prune_values (map (fun x => (k x, PDict (d x))) l) = map (fun x => (k x, PDict (prune_nones_dict (d x)))) l.
Proof. unfold prune_values. now rewrite map_map. Qed.

Lemma read_rocks_ok p rest : ROCKS_ok p -> read_rocks (ROCKS_body p ++ rest) = Ok (ROCKS_back p, rest).
Proof.
  intros H. unfold read_rocks, ROCKS_body. rewrite <- app_assoc. cbn [app].
  set (recs := fun x => rock_recs (fst (rock_item (rocks_of p) x)) (rock_named (rocks_of p) x)).
  rewrite (iter_lines_spec read_rock recs (fun st x => add_rock st (rock_item (rocks_of p) x))).
  - cbn [bind].
    assert (E : fold_left (fun st x => add_rock st (rock_item (rocks_of p) x)) (rocks_order_of p) ([], [])
      = (map (fun x => (name_key x, PDict (rock_dict (rock_named (rocks_of p) x)))) (rocks_order_of p), rocks_order_of p)).
    { unfold add_rock.
      rewrite (fold_pair (fun d x => dset (KS (fst (rock_item (rocks_of p) x))) (PDict (rock_dict (snd (rock_item (rocks_of p) x)))) d)
               (fun o x => o ++ [PStr (fst (rock_item (rocks_of p) x))])).
      rewrite fold_snoc. cbn [app].
      assert (EK : forall x, In x (rocks_order_of p) -> KS (fst (rock_item (rocks_of p) x)) = name_key x /\ PStr (fst (rock_item (rocks_of p) x)) = x).
      { intros x Hx. destruct (ROCKS_item p x H Hx) as (s & r & -> & _). auto. }
      rewrite (fold_dset_fresh (fun x => KS (fst (rock_item (rocks_of p) x)))
               (fun x => PDict (rock_dict (snd (rock_item (rocks_of p) x))))); auto.
      - cbn [app]. f_equal.
        + apply map_ext_in. intros x Hx. destruct (EK x Hx) as [-> _]. reflexivity.
        + rewrite <- (map_id (rocks_order_of p)) at 2. apply map_ext_in. intros x Hx. now destruct (EK x Hx).
      - pose proof (full_order_nodup (val #"rocks_order" p) (rocks_of p) (ROCKS_names p H)) as ND.
        destruct H as (_ & _ & _ & O & U & _). specialize (ND U O). fold (rocks_order_of p) in ND.
        revert ND EK. generalize (rocks_order_of p). clear. induction l as [|x l IH]; intros N E; cbn [map]; [constructor|].
        inversion_clear N as [|? ? N1 N2]. constructor.
        + intros X. apply in_map_iff in X as (y & Ey & Hy). apply N1.
          destruct (E x (or_introl eq_refl)) as [_ E1]. destruct (E y (or_intror Hy)) as [_ E2].
          assert (X : y = x) by (rewrite <- E1, <- E2; congruence). now rewrite <- X.
        + apply IH; auto. intros y Hy. apply E. now right. }
    rewrite E. cbn [fst snd]. rewrite (prune_values_map name_key). unfold ROCKS_back, rocks_back.
    rewrite (map_ext _ (fun x => (name_key x, PDict (rock_back (rock_named (rocks_of p) x))))); auto.
    intros x. now rewrite rock_back_eq.
  - intros st x r Hx. destruct (ROCKS_item p x H Hx) as (s & r' & -> & G & E & N & Hr).
    unfold recs, rock_item. rewrite E. cbn [fst]. apply read_rock_ok; auto. now apply rock_ok_facts.
  - intros st r. reflexivity.
  - rewrite app_length. cbn [List.length].
    pose proof (concat_len_ge recs (rocks_order_of p) (fun x _ => rock_recs_nonempty _ _)). lia.
Qed.

Lemma rock_recs_good s r : name_ok 5 s = true -> rock_facts r -> Forall good_line (rock_recs s r).
Proof.
  intros N F. unfold rock_recs. repeat (apply Forall_app; split).
  - constructor; auto. apply rec_line_good. now apply rock_rec_ok.
  - destruct (has_extra r) eqn:E; [|destruct (has_models r)]; constructor; auto; apply rec_line_good; auto.
    apply (extra_vals r F). auto.
  - destruct (has_models r); auto. pose proof (rf_models r F) as M. rewrite forallb_forall in M.
    apply Forall_forall. intros l Hl. apply in_map_iff in Hl as (k & <- & Hk). apply model_line_good. now apply M.
Qed.

Lemma ROCKS_good p : ROCKS_ok p -> Forall good_line (ROCKS_body p).
Proof.
  intros H. unfold ROCKS_body. apply Forall_app. split; [|constructor; auto using good_nl].
  apply Forall_concat. intros x Hx. destruct (ROCKS_item p x H Hx) as (s & r' & -> & G & E & N & Hr).
  unfold rock_item. rewrite E. cbn [fst]. apply rock_recs_good; auto. now apply rock_ok_facts.
Qed.

Lemma ROCKS_block p : ROCKS_ok p ->
  write_rocks p = Ok (head ($"ROCKS") :: ROCKS_body p, ROCKS_after p) /\
  Forall good_line (ROCKS_body p) /\
  reads_as (head ($"ROCKS")) (ROCKS_body p) (fun q => dupdate q (ROCKS_back p)).
Proof.
  intros H. split; [now apply write_rocks_ok|]. split; [now apply ROCKS_good|].
  intros ll q rest. unfold read_block. change (startswith ($"ROCKS") (head ($"ROCKS"))) with true. cbv iota.
  rewrite read_rocks_ok by auto. reflexivity.
Qed.
