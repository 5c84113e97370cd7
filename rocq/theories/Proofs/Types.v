(** The package's type checks accept exactly the documented kinds. *)
From Coq Require Import String Ascii ZArith Bool Lia List.
From Verif Require Import Base.Str Base.Flt Model.Py Model.Records Spec.Values Spec.Types Proofs.DictLemmas.
Import ListNotations.

Definition dtype_of (k : kind) : dtype :=
  match k with
  | Integer => TInt | Number => TScalar | Boolean => TBool | Text => TStr | TextOrInteger => TStrInt
  | Sequence => TArray | Dictionary => TDict | NumberOrSequence => TScalarArray
  | TextOrSequence => TStrArray
  end.
Lemma has_type_kind k v : has_type (dtype_of k) v = of_kind k v.
Proof. destruct k, v; reflexivity. Qed.

(** Two tables with the same content. *)
Definition same_table (dt : dtable) (t : kinds) : Prop :=
  forall k, tget k dt = option_map dtype_of (kind_of k t).

Fixpoint dt_keys_in (dt : dtable) (t : kinds) : bool :=
  match dt with
  | [] => true
  | (k, d) :: r => match kind_of k t with
                   | Some kd => match d, dtype_of kd with
                                | TInt, TInt | TStr, TStr | TBool, TBool | TStrInt, TStrInt
                                | TArray, TArray | TDict, TDict | TScalar, TScalar
                                | TScalarArray, TScalarArray | TStrArray, TStrArray => true
                                | _, _ => false end
                   | None => false end && dt_keys_in r t
  end.
Fixpoint kinds_in (t : kinds) (dt : dtable) : bool :=
  match t with
  | [] => true
  | (k, _) :: r => match tget k dt with Some _ => true | None => false end && kinds_in r dt
  end.
Lemma tget_in k dt d : tget k dt = Some d -> In (k, d) dt.
Proof.
  induction dt as [|[a x] dt IH]; simpl; [discriminate|].
  destruct (key_eqb k a) eqn:E; auto. apply key_eqb_eq in E. subst. intros [= ->]. auto.
Qed.
Lemma kind_of_in k t d : kind_of k t = Some d -> In (k, d) t.
Proof.
  induction t as [|[a x] dt IH]; simpl; [discriminate|].
  destruct (key_eqb k a) eqn:E; auto. apply key_eqb_eq in E. subst. intros [= ->]. auto.
Qed.
Lemma dt_keys_in_spec dt t k d : dt_keys_in dt t = true -> In (k, d) dt ->
  exists kd, kind_of k t = Some kd /\ d = dtype_of kd.
Proof.
  induction dt as [|[a x] dt IH]; simpl; [tauto|]. intros H [E|E]; apply andb_true_iff in H as [H1 H2]; auto.
  injection E as -> ->. destruct (kind_of k t) as [kd|]; [|discriminate]. exists kd. split; auto.
  destruct d, kd; simpl in *; congruence.
Qed.
Lemma kinds_in_spec t dt k kd : kinds_in t dt = true -> In (k, kd) t -> exists d, tget k dt = Some d.
Proof.
  induction t as [|[a x] t IH]; simpl; [tauto|]. intros H [E|E]; apply andb_true_iff in H as [H1 H2]; auto.
  injection E as -> ->. destruct (tget k dt); [eauto|discriminate].
Qed.
Lemma same_table_check dt t : dt_keys_in dt t = true -> kinds_in t dt = true -> same_table dt t.
Proof.
  intros H1 H2 k. destruct (tget k dt) as [d|] eqn:E.
  - destruct (dt_keys_in_spec dt t k d H1 (tget_in _ _ _ E)) as (kd & -> & ->). reflexivity.
  - destruct (kind_of k t) as [kd|] eqn:E2; auto.
    destruct (kinds_in_spec t dt k kd H2 (kind_of_in _ _ _ E2)). congruence.
Qed.

Lemma check_dict_ok dt t d : same_table dt t ->
  check_dict dt (PDict d) = if well_typed t d then Ok tt else Err TypeError.
Proof.
  intros S. unfold check_dict, as_dict, well_typed. cbn [bind].
  induction d as [|[k v] d IH]; auto. cbn [mapM forallb].
  unfold check_entry at 1, entry_typed at 1. cbn [fst snd]. rewrite S.
  destruct (kind_of k t) as [kd|]; cbn [option_map].
  - rewrite has_type_kind. destruct (is_none v || of_kind kd v); cbn [guard bind andb].
    + destruct (mapM (check_entry dt) d); cbn [bind] in *; destruct (forallb (entry_typed t) d); congruence.
    + reflexivity.
  - cbn [bind andb]. destruct (mapM (check_entry dt) d); cbn [bind] in *; destruct (forallb (entry_typed t) d); congruence.
Qed.

Ltac table := apply same_table_check; vm_compute; reflexivity.
Lemma st_PARAMETERS : same_table dt_PARAMETERS kinds_PARAMETERS. Proof. table. Qed.
Lemma st_ROCKS : same_table dt_ROCKS kinds_ROCKS. Proof. table. Qed.
Lemma st_FLAC : same_table dt_FLAC kinds_FLAC. Proof. table. Qed.
Lemma st_MODEL : same_table dt_MODEL kinds_MODEL. Proof. table. Qed.
Lemma st_PARAM : same_table dt_PARAM kinds_PARAM. Proof. table. Qed.
Lemma st_MOP : same_table dt_MOP (numbered 24). Proof. table. Qed.
Lemma st_MOMOP : same_table dt_MOMOP (numbered 40). Proof. table. Qed.
Lemma st_SELEC : same_table dt_SELEC kinds_SELEC. Proof. table. Qed.
Lemma st_SOLVR : same_table dt_SOLVR kinds_SOLVR. Proof. table. Qed.
Lemma st_GENER : same_table dt_GENER kinds_GENER. Proof. table. Qed.
Lemma st_OUTPU : same_table dt_OUTPU kinds_OUTPU. Proof. table. Qed.
Lemma st_ELEME : same_table dt_ELEME kinds_ELEME. Proof. table. Qed.
Lemma st_CONNE : same_table dt_CONNE kinds_CONNE. Proof. table. Qed.
Lemma st_INCON : same_table dt_INCON kinds_INCON. Proof. table. Qed.

(** Checks at a key of the parameters. *)
Lemma check_at_ok dt t k0 p d : same_table dt t -> dget k0 p = Some (PDict d) -> well_typed t d = true ->
  check_at dt k0 [] p = Ok tt.
Proof.
  intros S G W. unfold check_at, dgetE. rewrite G. cbn [bind descend].
  rewrite (check_dict_ok dt t) by auto. now rewrite W.
Qed.
Lemma check_at_sub_ok dt t k0 k1 p d m : same_table dt t -> dget k0 p = Some (PDict d) ->
  dget k1 d = Some (PDict m) -> well_typed t m = true -> check_at dt k0 [k1] p = Ok tt.
Proof.
  intros S G G1 W. unfold check_at, dgetE. rewrite G. cbn [bind descend subscript].
  unfold dgetE. rewrite G1. cbn [bind]. rewrite (check_dict_ok dt t) by auto. now rewrite W.
Qed.
(** Every entry of a dictionary of dictionaries. *)
Lemma check_list_ok dt t k0 p d : same_table dt t -> dget k0 p = Some (PDict d) ->
  (forall k v, In (k, v) d -> exists x, v = PDict x /\ well_typed t x = true) ->
  check_list dt k0 [] p = Ok tt.
Proof.
  intros S G W. unfold check_list, dgetE. rewrite G. cbn [bind as_dict].
  rewrite (mapM_ok _ (fun _ => tt)); auto. intros [k v] H.
  destruct (W k v H) as (x & -> & Wx). cbn [snd descend].
  rewrite (check_dict_ok dt t) by auto. now rewrite Wx.
Qed.
Lemma check_list_sub_ok dt t k0 k1 p d : same_table dt t -> dget k0 p = Some (PDict d) ->
  (forall k v, In (k, v) d -> exists x, v = PDict x /\
     match dget k1 x with Some m => exists y, m = PDict y /\ well_typed t y = true | None => True end) ->
  check_list dt k0 [k1] p = Ok tt.
Proof.
  intros S G W. unfold check_list, dgetE. rewrite G. cbn [bind as_dict].
  rewrite (mapM_ok _ (fun _ => tt)); auto. intros [k v] H.
  destruct (W k v H) as (x & -> & Wx). cbn [snd descend subscript]. unfold dgetE.
  destruct (dget k1 x) as [m|]; auto. destruct Wx as (y & -> & Wy). cbn [bind].
  rewrite (check_dict_ok dt t) by auto. now rewrite Wy.
Qed.
