(** The writer does not depend on the order of the entries of the dictionaries, nor on the
    entries whose names it does not know. *)
From Coq Require Import String Ascii ZArith Bool Lia Permutation List.
From Verif Require Import Base.Str Base.Digits Base.Flt.
From Verif Require Import Model.Py Model.Records Model.Write.
From Verif Require Import Proofs.DictLemmas Spec.DictOrder Spec.Known.
Import ListNotations.
Local Open Scope nat_scope.

(** The entries whose keys are picked by [N]. *)
Definition ea (N : key -> bool) (R : key -> pyval -> pyval -> Prop) (d d' : dict) : Prop :=
  NoDup (dkeys d) /\ NoDup (dkeys d') /\
  forall k, N k = true -> match dget k d, dget k d' with Some v, Some w => R k v w | None, None => True | _, _ => False end.
Notation every := (fun _ : key => true).
Lemma alike_every R d d' : entries_alike R d d' <-> ea every R d d'.
Proof. split; intros (A & B & C); (split; [exact A|]; split; [exact B|]; intros k; try intros _; now apply C). Qed.
Definition rres {A B} (R : A -> B -> Prop) (x : res A) (y : res B) : Prop :=
  match x, y with Ok a, Ok b => R a b | Err e, Err e' => e = e' | _, _ => False end.
Lemma bind_r {A B C} (R : A -> B -> Prop) x y (f : A -> res C) (g : B -> res C) : rres R x y -> (forall a b, R a b -> f a = g b) -> bind x f = bind y g.
Proof. destruct x, y; cbn; intros H K; try contradiction; [auto|congruence]. Qed.
Lemma bind_rr {A B C D} (R : A -> B -> Prop) (Q : C -> D -> Prop) x y (f : A -> res C) (g : B -> res D) :
  rres R x y -> (forall a b, R a b -> rres Q (f a) (g b)) -> rres Q (bind x f) (bind y g).
Proof. destruct x, y; cbn; intros H K; try contradiction; auto. Qed.
Lemma rres_eq {A} (x y : res A) : rres eq x y -> x = y.
Proof. destruct x, y; cbn; intros H; try contradiction; congruence. Qed.
Lemma bind_e {A C} (x y : res A) (f g : A -> res C) : x = y -> (forall a, f a = g a) -> bind x f = bind y g.
Proof. intros -> H. destruct y; cbn; auto. Qed.

(** ** Dictionaries *)
Lemma ea_get N (R : key -> pyval -> pyval -> Prop) d d' k : N k = true -> ea N R d d' -> match dget k d, dget k d' with Some v, Some w => R k v w | None, None => True | _, _ => False end.
Proof. intros K (_ & _ & H). now apply H. Qed.
Lemma ea_eq N (R : key -> pyval -> pyval -> Prop) d d' k : N k = true -> (forall v w, R k v w -> v = w) -> ea N R d d' -> dget k d = dget k d'.
Proof. intros K Q H. pose proof (ea_get N R d d' k K H) as X. destruct (dget k d), (dget k d'); try contradiction; auto. f_equal. auto. Qed.
Lemma ea_mem N R d d' k : N k = true -> ea N R d d' -> dmem k d = dmem k d'.
Proof. intros K H. pose proof (ea_get N R d d' k K H) as X. unfold dmem. destruct (dget k d), (dget k d'); try contradiction; auto. Qed.
Lemma ea_perm R d d' : ea every R d d' -> Permutation (dkeys d) (dkeys d').
Proof.
  intros (N & N' & H). apply NoDup_Permutation; auto. intros k. specialize (H k eq_refl).
  pose proof (dget_none_notin k d) as A. pose proof (dget_none_notin k d') as B.
  destruct (dget k d) eqn:E, (dget k d') eqn:E'; try contradiction.
  - apply dget_in in E, E'. split; intros _; [exact (in_map fst _ _ E')|exact (in_map fst _ _ E)].
  - split; intros I; [now apply A in I|now apply B in I].
Qed.
Lemma in_dset k k' v d : In k (dkeys (dset k' v d)) -> k = k' \/ In k (dkeys d).
Proof.
  induction d as [|[a w] d IH]; cbn [dset dkeys map fst In]; [intros [<-|[]]; auto|]. destruct (key_eqb k' a) eqn:E; cbn [dkeys map fst In].
  - intros [<-|I]; auto.
  - intros [<-|I]; auto. destruct (IH I); auto.
Qed.
Lemma nodup_dset k v d : NoDup (dkeys d) -> NoDup (dkeys (dset k v d)).
Proof.
  induction d as [|[a w] d IH]; cbn [dset dkeys map fst]; intros N; [repeat constructor; auto|]. inversion N as [|? ? N1 N2]; subst.
  destruct (key_eqb k a) eqn:E; cbn [dkeys map fst]; [auto|]. constructor; [|now apply IH]. intros I. apply in_dset in I as [->|I]; [|contradiction].
  assert (X : key_eqb k k = true) by (apply key_eqb_eq; reflexivity). congruence.
Qed.
Lemma nodup_update u : forall d, NoDup (dkeys d) -> NoDup (dkeys (dupdate d u)).
Proof. unfold dupdate. induction u as [|x u IH]; intros d N; cbn [fold_left]; auto using nodup_dset. Qed.
Lemma ea_set N (R : key -> pyval -> pyval -> Prop) k v w d d' : R k v w -> ea N R d d' -> ea N R (dset k v d) (dset k w d').
Proof.
  intros H (D & D' & E). split; [now apply nodup_dset|]. split; [now apply nodup_dset|]. intros a K. rewrite !dget_dset.
  destruct (key_eqb a k) eqn:X; [|now apply E]. apply key_eqb_eq in X as ->. exact H.
Qed.
Lemma ea_update2 N R c c' d d' : ea N R c c' -> ea N R d d' -> ea N R (dupdate c d) (dupdate c' d').
Proof.
  intros (C & C' & CC) (D & D' & E). split; [now apply nodup_update|]. split; [now apply nodup_update|]. intros k K.
  rewrite !dget_dupdate by assumption. specialize (E k K). specialize (CC k K). destruct (dget k d), (dget k d'); try contradiction; auto.
Qed.
Lemma ea_update N R c d d' : ea N R c c -> ea N R d d' -> ea N R (dupdate c d) (dupdate c d').
Proof. apply ea_update2. Qed.
Lemma ea_nil R d d' : ea every R d d' -> match d with [] => false | _ => true end = match d' with [] => false | _ => true end.
Proof. intros H. pose proof (Permutation_length (ea_perm R d d' H)) as L. unfold dkeys in L. rewrite !map_length in L. destruct d, d'; cbn in L; try discriminate L; auto. Qed.

(** ** Values *)
Notation kn := (ea known).
Notation vk := (known_in inside_known).
Definition same_kind (v w : pyval) : Prop := is_none v = is_none w /\ (forall t, has_type t v = has_type t w) /\ is_str v = is_str w.
Lemma kind_refl v : same_kind v v. Proof. repeat split. Qed.
Lemma kind_sym v w : same_kind v w -> same_kind w v. Proof. intros (A & B & C). repeat split; auto. Qed.
Lemma kind_dict d d' : same_kind (PDict d) (PDict d'). Proof. split; [reflexivity|]. split; [intros []; reflexivity|reflexivity]. Qed.
Lemma mixed_cases R v w : mixed R v w -> v = w \/ exists d d', v = PDict d /\ w = PDict d' /\ ea every R d d'.
Proof. destruct v, w; cbn [mixed]; intros H; try (left; exact H). right. eexists. eexists. split; [reflexivity|]. split; [reflexivity|]. now apply alike_every. Qed.
Lemma known_cases R v w : known_in R v w -> v = w \/ exists d d', v = PDict d /\ w = PDict d' /\ kn R d d'.
Proof. destruct v, w; cbn [known_in]; intros H; try (left; exact H). right. eexists. eexists. split; [reflexivity|]. split; [reflexivity|exact H]. Qed.
Lemma rows_cases R v w : rows R v w -> v = w \/ exists d d', v = PDict d /\ w = PDict d' /\ Forall2 (fun a b => fst a = fst b /\ R (snd a) (snd b)) d d'.
Proof. destruct v, w; cbn [rows]; intros H; try (left; exact H). right. eexists. eexists. split; [reflexivity|]. split; [reflexivity|exact H]. Qed.
Lemma kind_mixed R v w : mixed R v w -> same_kind v w.
Proof. intros H. apply mixed_cases in H as [->|(d & d' & -> & -> & H)]; [apply kind_refl|apply kind_dict]. Qed.
Lemma truth_mixed R v w : mixed R v w -> truthy v = truthy w.
Proof. intros H. apply mixed_cases in H as [->|(d & d' & -> & -> & H)]; [reflexivity|]. cbn [truthy]. pose proof (ea_nil _ _ _ H) as X. destruct d, d'; try discriminate X; reflexivity. Qed.
Lemma kind_known R v w : known_in R v w -> same_kind v w.
Proof. intros H. apply known_cases in H as [->|(d & d' & -> & -> & H)]; [apply kind_refl|apply kind_dict]. Qed.
Lemma kind_rows R v w : rows R v w -> same_kind v w.
Proof. intros H. apply rows_cases in H as [->|(d & d' & -> & -> & H)]; [apply kind_refl|apply kind_dict]. Qed.
Lemma truth_rows R v w : rows R v w -> truthy v = truthy w.
Proof. intros H. apply rows_cases in H as [->|(d & d' & -> & -> & H)]; [reflexivity|]. destruct H; reflexivity. Qed.
Lemma kind_exact k v w : inside k v w -> same_kind v w.
Proof. unfold inside. destruct (existsb _ _); [apply kind_mixed|intros ->; apply kind_refl]. Qed.
Lemma kind_inside k v w : inside_known k v w -> same_kind v w.
Proof. unfold inside_known. destruct (key_eqb _ _); [apply kind_mixed|]. destruct (existsb _ _); [apply kind_known|intros ->; apply kind_refl]. Qed.
Lemma kind_parameter k v w : parameter_known k v w -> same_kind v w.
Proof.
  unfold parameter_known. destruct (existsb _ _); [apply kind_mixed|]. destruct (existsb _ _); [intros (H & _); exact (kind_known _ _ _ H)|].
  destruct (existsb _ _); [apply kind_known|]. destruct (existsb _ _); [apply kind_rows|intros ->; apply kind_refl].
Qed.
Definition loose (k : key) : bool := existsb (key_eqb k) [#"options"; #"default"; #"flac"].
Lemma truth_parameter k v w : loose k = false -> parameter_known k v w -> truthy v = truthy w.
Proof.
  intros L. unfold parameter_known. destruct (existsb (key_eqb k) number_names) eqn:A; [apply truth_mixed|]. destruct (existsb (key_eqb k) switch_names) eqn:B.
  - intros (H & I). apply known_cases in H as [->|(d & d' & -> & -> & _)]; [reflexivity|]. cbn [truthy]. destruct d, d'; try reflexivity; exfalso; destruct I as [I J]; [discriminate (I eq_refl)|discriminate (J eq_refl)].
  - destruct (existsb (key_eqb k) group_names) eqn:C; [|destruct (existsb (key_eqb k) table_names); [apply truth_rows|now intros ->]].
    exfalso. unfold loose, number_names, switch_names, group_names in *. cbn [existsb] in *. repeat match goal with H : context [key_eqb k ?x] |- _ => destruct (key_eqb k x) end; cbn in *; discriminate.
Qed.
Definition plain (k : key) : bool := known k && negb (existsb (key_eqb k) model_names).
Definition model_key (k : key) : bool := known k && negb (key_eqb k #"integers") && existsb (key_eqb k) model_names.
Lemma model_inside k v w : model_key k = true -> inside_known k v w -> known_in (fun _ => eq) v w.
Proof. unfold model_key, inside_known. destruct (key_eqb k _); [rewrite andb_false_r; discriminate|]. destruct (existsb (key_eqb k) model_names); [auto|rewrite andb_false_r; discriminate]. Qed.
Lemma plain_inside k v w : plain k = true -> inside_known k v w -> v = w.
Proof.
  unfold plain, inside_known. destruct (key_eqb k #"integers") eqn:E.
  - apply key_eqb_eq in E as ->. discriminate.
  - destruct (existsb (key_eqb k) model_names); [rewrite andb_false_r; discriminate|auto].
Qed.
Lemma plain_known k : plain k = true -> known k = true. Proof. unfold plain. intros H. now apply andb_true_iff in H. Qed.
Lemma model_known k : model_key k = true -> known k = true. Proof. unfold model_key. intros H. apply andb_true_iff in H as [H _]. now apply andb_true_iff in H. Qed.
Lemma in_get d d' k : plain k = true -> kn inside_known d d' -> dget k d = dget k d'.
Proof. intros E. apply ea_eq; [now apply plain_known|]. intros v w. now apply plain_inside. Qed.
Lemma in_getE d d' k : plain k = true -> kn inside_known d d' -> dgetE k d = dgetE k d'.
Proof. intros E H. unfold dgetE. now rewrite (in_get d d' k E H). Qed.
Lemma as_mixed R v w : mixed R v w -> rres (ea every R) (as_dict v) (as_dict w).
Proof. destruct v, w; cbn; intros H; try discriminate H; auto. now apply alike_every. Qed.
Lemma as_known R v w : known_in R v w -> rres (kn R) (as_dict v) (as_dict w).
Proof. destruct v, w; cbn; intros H; try discriminate H; auto. Qed.
Lemma known_subscript R v w k : known k = true -> known_in R v w -> rres (R k) (subscript v k) (subscript w k).
Proof.
  intros K. destruct v, w; cbn [known_in subscript rres]; intros H; try discriminate H; auto. unfold dgetE. pose proof (ea_get known _ _ _ k K H) as X.
  destruct (dget k d), (dget k d0); try contradiction; auto. reflexivity.
Qed.
Lemma model_same v w : known_in (fun _ => eq) v w -> model_values v = model_values w.
Proof.
  intros H. unfold model_values. rewrite (rres_eq _ _ (known_subscript _ v w #"id" eq_refl H)). apply bind_e; [reflexivity|]. intros a.
  now rewrite (rres_eq _ _ (known_subscript _ v w #"parameters" eq_refl H)).
Qed.

(** ** Checks *)
Definition good_entry (t : dtable) (kv : key * pyval) : bool := match tget (fst kv) t with None => true | Some ty => is_none (snd kv) || has_type ty (snd kv) end.
Lemma check_forallb t d : check_dict t (PDict d) = if forallb (good_entry t) d then Ok tt else Err TypeError.
Proof.
  unfold check_dict. cbn [as_dict bind]. induction d as [|x d IH]; [reflexivity|]. cbn [mapM forallb]. unfold check_entry at 1, good_entry at 1.
  destruct (tget (fst x) t) as [ty|]; cbn [bind andb].
  - destruct (is_none (snd x) || has_type ty (snd x)); cbn [guard bind andb]; [|reflexivity]. destruct (mapM (check_entry t) d); cbn [bind] in *; exact IH.
  - destruct (mapM (check_entry t) d); cbn [bind] in *; exact IH.
Qed.
Definition covers (N : key -> bool) (t : dtable) : bool := forallb (fun kt => N (fst kt)) t.
Lemma covers_get N t k : covers N t = true -> tget k t <> None -> N k = true.
Proof.
  induction t as [|[a y] t IH]; cbn [covers forallb tget fst]; [congruence|]. intros H K. apply andb_true_iff in H as [A B]. destruct (key_eqb k a) eqn:E; [apply key_eqb_eq in E as ->; exact A|]. now apply IH.
Qed.
Lemma check_sub N (R : key -> pyval -> pyval -> Prop) t d d' : covers N t = true -> (forall k v w, R k v w -> same_kind v w) -> ea N R d d' -> forallb (good_entry t) d = true -> forallb (good_entry t) d' = true.
Proof.
  intros C K (D & D' & E) F. apply forallb_forall. intros [k w] I. unfold good_entry. cbn [fst snd]. destruct (tget k t) as [y|] eqn:T; [|reflexivity].
  assert (G : N k = true) by (apply (covers_get N t k C); congruence). apply in_dget in I; auto. specialize (E k G). rewrite I in E. destruct (dget k d) as [v|] eqn:X; [|contradiction].
  apply dget_in in X. rewrite forallb_forall in F. specialize (F _ X). unfold good_entry in F. cbn [fst snd] in F. rewrite T in F. destruct (K _ _ _ E) as (A & B & _). now rewrite <- A, <- B.
Qed.
Lemma ea_sym N (R : key -> pyval -> pyval -> Prop) d d' : ea N R d d' -> ea N (fun k v w => R k w v) d' d.
Proof. intros (A & B & C). split; auto. split; auto. intros k K. specialize (C k K). destruct (dget k d), (dget k d'); auto. Qed.
Lemma check_alike N (R : key -> pyval -> pyval -> Prop) t d d' : covers N t = true -> (forall k v w, R k v w -> same_kind v w) -> ea N R d d' -> check_dict t (PDict d) = check_dict t (PDict d').
Proof.
  intros C K E. rewrite !check_forallb. destruct (forallb (good_entry t) d) eqn:A, (forallb (good_entry t) d') eqn:B; auto.
  - rewrite (check_sub N R t d d' C K E A) in B. discriminate.
  - rewrite (check_sub N (fun k v w => R k w v) t d' d C) in A; [discriminate| |now apply ea_sym|exact B]. intros k v w X. apply kind_sym, (K _ _ _ X).
Qed.
Lemma covers_every t : covers every t = true. Proof. apply forallb_forall. reflexivity. Qed.
Lemma check_mixed (R : key -> pyval -> pyval -> Prop) t v w : (forall k v w, R k v w -> same_kind v w) -> mixed R v w -> check_dict t v = check_dict t w.
Proof. intros K H. apply mixed_cases in H as [->|(d & d' & -> & -> & H)]; [reflexivity|]. exact (check_alike every R t _ _ (covers_every t) K H). Qed.
Lemma check_known (R : key -> pyval -> pyval -> Prop) t v w : covers known t = true -> (forall k v w, R k v w -> same_kind v w) -> known_in R v w -> check_dict t v = check_dict t w.
Proof. intros C K H. apply known_cases in H as [->|(d & d' & -> & -> & H)]; [reflexivity|]. exact (check_alike known R t _ _ C K H). Qed.
Lemma kind_eq (k : key) (v w : pyval) : v = w -> same_kind v w. Proof. intros ->. apply kind_refl. Qed.

(** ** The parameters *)
Notation alike := (kn parameter_known).
Definition trows : dict -> dict -> Prop := Forall2 (fun a b => fst a = fst b /\ vk (snd a) (snd b)).
Definition free (k : key) : bool := known k && negb (existsb (key_eqb k) number_names) && negb (existsb (key_eqb k) switch_names) && negb (existsb (key_eqb k) group_names) && negb (existsb (key_eqb k) table_names).
Definition grouped (k : key) : bool := known k && negb (existsb (key_eqb k) number_names) && existsb (key_eqb k) group_names.
Definition tabled (k : key) : bool := known k && negb (existsb (key_eqb k) number_names) && negb (existsb (key_eqb k) switch_names) && negb (existsb (key_eqb k) group_names) && existsb (key_eqb k) table_names.
Ltac splits H := repeat (apply andb_true_iff in H as [H ?]); repeat match goal with X : negb _ = true |- _ => apply negb_true_iff in X end.
Lemma free_eq k v w : free k = true -> parameter_known k v w <-> v = w.
Proof. unfold free, parameter_known. intros F. splits F. repeat match goal with X : existsb _ _ = _ |- _ => rewrite X end. reflexivity. Qed.
Lemma free_known k : free k = true -> known k = true. Proof. unfold free. intros F. splits F. exact F. Qed.
Lemma p_getE p p' k : free k = true -> alike p p' -> dgetE k p = dgetE k p'.
Proof. intros F H. unfold dgetE. rewrite (ea_eq known parameter_known p p' k (free_known k F)); auto. intros v w. now apply free_eq. Qed.
Lemma ea_getE N R p p' k : N k = true -> ea N R p p' -> rres (R k) (dgetE k p) (dgetE k p').
Proof. intros K H. unfold dgetE. pose proof (ea_get _ _ _ _ k K H) as X. destruct (dget k p), (dget k p'); try contradiction; cbn; auto. Qed.
Lemma rres_imp {A B} (R Q : A -> B -> Prop) x y : (forall a b, R a b -> Q a b) -> rres R x y -> rres Q x y.
Proof. intros H. destruct x, y; cbn; auto. Qed.
Lemma p_groupE p p' k : grouped k = true -> alike p p' -> rres vk (dgetE k p) (dgetE k p').
Proof.
  unfold grouped. intros F H. splits F. eapply rres_imp; [|exact (ea_getE _ _ _ _ k F H)]. intros a b. unfold parameter_known.
  repeat match goal with X : existsb _ _ = _ |- _ => rewrite X end. destruct (existsb (key_eqb k) switch_names); [intros (X & _); exact X|auto].
Qed.
Lemma p_group p p' k : grouped k = true -> alike p p' -> rres (kn inside_known) (get_dict k p) (get_dict k p').
Proof. intros F H. unfold get_dict. eapply bind_rr; [apply p_groupE; auto|]. intros a b. apply as_known. Qed.
Lemma p_numbersE p p' k : known k && existsb (key_eqb k) number_names = true -> alike p p' -> rres (mixed inside) (dgetE k p) (dgetE k p').
Proof. intros F H. splits F. eapply rres_imp; [|exact (ea_getE _ _ _ _ k F H)]. intros a b. unfold parameter_known. match goal with X : existsb _ _ = true |- _ => rewrite X end. auto. Qed.
Lemma p_numbers p p' k : known k && existsb (key_eqb k) number_names = true -> alike p p' -> rres (ea every inside) (get_dict k p) (get_dict k p').
Proof. intros F H. unfold get_dict. eapply bind_rr; [apply p_numbersE; auto|]. intros a b. apply as_mixed. Qed.
Lemma p_tableE p p' k : tabled k = true -> alike p p' -> rres (rows vk) (dgetE k p) (dgetE k p').
Proof.
  unfold tabled. intros F H. splits F. eapply rres_imp; [|exact (ea_getE _ _ _ _ k F H)]. intros a b. unfold parameter_known.
  repeat match goal with X : existsb _ _ = _ |- _ => rewrite X end. auto.
Qed.
Lemma as_rows v w : rows vk v w -> rres trows (as_dict v) (as_dict w).
Proof. destruct v, w; cbn; intros H; try discriminate H; auto. Qed.
Lemma p_table p p' k : tabled k = true -> alike p p' -> rres trows (get_dict k p) (get_dict k p').
Proof. intros F H. unfold get_dict. eapply bind_rr; [apply p_tableE; auto|]. intros a b. apply as_rows. Qed.
Lemma p_kindE p p' k : known k = true -> alike p p' -> rres same_kind (dgetE k p) (dgetE k p').
Proof. intros K H. eapply rres_imp; [|exact (ea_getE _ _ _ _ k K H)]. intros a b. apply kind_parameter. Qed.
Lemma p_truthE p p' k : known k && negb (loose k) = true -> alike p p' -> rres (fun v w => truthy v = truthy w) (dgetE k p) (dgetE k p').
Proof. intros K H. splits K. eapply rres_imp; [|exact (ea_getE _ _ _ _ k K H)]. intros a b. now apply truth_parameter. Qed.

Definition path (ks : list key) : Prop := ks = [] \/ exists k, ks = [k] /\ model_key k = true.
Lemma check_descend t v w ks : covers known t = true -> vk v w -> path ks ->
  match descend v ks with Ok v' => check_dict t v' | Err KeyError => Ok tt | Err e => Err e end
  = match descend w ks with Ok v' => check_dict t v' | Err KeyError => Ok tt | Err e => Err e end
  /\ bind (descend v ks) (check_dict t) = bind (descend w ks) (check_dict t).
Proof.
  intros C H [->|(k & -> & K)].
  - cbn [descend bind]. rewrite (check_known inside_known t v w C kind_inside H). auto.
  - cbn [descend]. pose proof (known_subscript _ _ _ k (model_known k K) H) as X. destruct (subscript v k) as [a|e], (subscript w k) as [b|e']; cbn [rres bind] in *; try contradiction; [|subst; auto].
    apply model_inside in X; auto. rewrite (check_known _ t a b C kind_eq X). auto.
Qed.
Lemma check_at_same t k ks p p' : covers known t = true -> grouped k = true -> path ks -> alike p p' -> check_at t k ks p = check_at t k ks p'.
Proof. intros C G K H. unfold check_at. eapply bind_r; [apply p_groupE; auto|]. intros a b X. now apply (check_descend t a b ks C X K). Qed.
Lemma check_numbers t k p p' : known k && existsb (key_eqb k) number_names = true -> alike p p' -> check_at t k [] p = check_at t k [] p'.
Proof. intros G H. unfold check_at. eapply bind_r; [apply p_numbersE; auto|]. intros a b X. cbn [descend bind]. exact (check_mixed inside t a b kind_exact X). Qed.
Lemma mapM_rows {A B} (R : A -> A -> Prop) (f g : A -> res B) l l' : Forall2 R l l' -> (forall a b, R a b -> f a = g b) -> mapM f l = mapM g l'.
Proof. intros F H. induction F as [|a b l l' X F IH]; cbn [mapM]; [reflexivity|]. now rewrite (H _ _ X), IH. Qed.
Lemma mapM_rr {A B} (R : A -> A -> Prop) (Q : B -> B -> Prop) (f g : A -> res B) l l' : Forall2 R l l' -> (forall a b, R a b -> rres Q (f a) (g b)) -> rres (Forall2 Q) (mapM f l) (mapM g l').
Proof.
  intros F H. induction F as [|a b l l' X F IH]; cbn [mapM]; [constructor|]. eapply bind_rr; [apply H, X|]. intros y y' Y. eapply bind_rr; [exact IH|]. intros z z' Z. now constructor.
Qed.
Lemma check_list_same t k ks p p' : covers known t = true -> tabled k = true -> path ks -> alike p p' -> check_list t k ks p = check_list t k ks p'.
Proof.
  intros C T K H. unfold check_list. eapply bind_r; [apply p_tableE; auto|]. intros a b X. eapply bind_r; [apply as_rows, X|]. intros d d' Y.
  rewrite (mapM_rows _ _ (fun kv => match descend (snd kv) ks with Ok v' => check_dict t v' | Err KeyError => Ok tt | Err e => Err e end) d d' Y); [reflexivity|].
  intros x y (_ & Z). apply (check_descend t _ _ ks C Z K).
Qed.
Lemma rows_keys d d' : trows d d' -> dkeys d = dkeys d'.
Proof. intros H. unfold dkeys. induction H as [|a b d d' (X & _) H IH]; cbn [map]; [reflexivity|]. now rewrite X, IH. Qed.
Lemma rows_lookup d d' k : trows d d' -> rres vk (lookup d k) (lookup d' k).
Proof.
  intros H. unfold lookup. destruct (val_key k) as [x|e]; cbn [bind rres]; [|reflexivity]. unfold dgetE. induction H as [|[a v] [b w] d d' (X & Y) H IH]; [reflexivity|].
  cbn [fst snd] in *. subst b. cbn [dget]. destruct (key_eqb x a); auto.
Qed.
Lemma rows_data d d' k : trows d d' -> rres (ea known inside_known) (bind (lookup d k) as_dict) (bind (lookup d' k) as_dict).
Proof. intros H. eapply bind_rr; [apply rows_lookup, H|]. intros a b. apply as_known. Qed.
Lemma concatM_ext {A} (f g : A -> res (list str)) l : (forall a, f a = g a) -> concatM f l = concatM g l.
Proof. intros H. induction l as [|a l IH]; cbn [concatM]; [reflexivity|]. now rewrite H, IH. Qed.
Lemma concatM_rows {A} (R : A -> A -> Prop) (f g : A -> res (list str)) l l' : Forall2 R l l' -> (forall a b, R a b -> f a = g b) -> concatM f l = concatM g l'.
Proof. intros F H. induction F as [|a b l l' X F IH]; cbn [concatM]; [reflexivity|]. now rewrite (H _ _ X), IH. Qed.
Lemma mapM_ext {A B} (f g : A -> res B) l : (forall a, f a = g a) -> mapM f l = mapM g l.
Proof. intros H. induction l as [|a l IH]; cbn [mapM]; [reflexivity|]. now rewrite H, IH. Qed.

(** ** Sorted keys *)
Lemma insert_comm x y l : insert_Z x (insert_Z y l) = insert_Z y (insert_Z x l).
Proof.
  induction l as [|a l IH]; cbn [insert_Z].
  - destruct (Z.leb_spec x y), (Z.leb_spec y x); auto; try lia. now replace y with x by lia.
  - destruct (Z.leb_spec y a), (Z.leb_spec x a); cbn [insert_Z]; repeat match goal with |- context [Z.leb ?a ?b] => destruct (Z.leb_spec a b) end; auto; try lia.
    + now replace y with x by lia.
    + now rewrite IH.
Qed.
Lemma sort_perm l l' : Permutation l l' -> fold_right insert_Z [] l = fold_right insert_Z [] l'.
Proof. induction 1; cbn [fold_right]; auto; [now f_equal|apply insert_comm|congruence]. Qed.
Definition int_key (k : key) : res Z := match k with KI z => Ok z | _ => Err TypeError end.
Lemma ints_perm l l' : Permutation l l' -> rres (@Permutation Z) (mapM int_key l) (mapM int_key l').
Proof.
  induction 1 as [|x l l' P IH|x y l|l l' l'' P IH P' IH']; cbn [mapM].
  - constructor.
  - destruct (int_key x); cbn [bind rres]; [|reflexivity]. eapply bind_rr; [exact IH|]. intros u u' X. cbn. now constructor.
  - destruct x, y; cbn [int_key bind]; try reflexivity. destruct (mapM int_key l); cbn; [constructor|reflexivity].
  - destruct (mapM int_key l), (mapM int_key l'), (mapM int_key l''); cbn in *; try contradiction; [eapply Permutation_trans; eassumption|congruence].
Qed.
Lemma sorted_same R d d' : ea every R d d' -> sorted_keys d = sorted_keys d'.
Proof.
  intros H. unfold sorted_keys. eapply bind_r; [exact (ints_perm _ _ (ea_perm _ _ _ H))|]. intros a b X. now rewrite (sort_perm a b X).
Qed.
Lemma option_string_same d d' : ea every inside d d' -> option_string d = option_string d'.
Proof.
  intros H. unfold option_string. rewrite (sorted_same _ _ _ H). apply bind_e; [reflexivity|]. intros l.
  rewrite (mapM_ext _ (fun z => let* v := dgetE (KI z) d' in if is_none v then Ok ($" ") else py_str v)); [reflexivity|].
  intros z. unfold dgetE. rewrite (ea_eq every inside d d' (KI z) eq_refl); auto.
Qed.

(** ** Blocks *)
Ltac gets H := match type of H with ea known inside_known ?d ?d' =>
  repeat match goal with |- context [dgetE ?k d] => rewrite (in_getE d d' k eq_refl H) end end.
Ltac steps := repeat (apply bind_e; [reflexivity|intros ?]).
Ltac pgets H := match type of H with ea known parameter_known ?d ?d' =>
  repeat match goal with |- context [dgetE ?k d] => rewrite (p_getE d d' k eq_refl H) end end.
Ltac unpack H := match type of H with ea known inside_known ?d ?d' => let a := fresh "data" in let b := fresh "data'" in generalize dependent d'; generalize d as a; intros a b H end.
Lemma exact_self c : forallb (fun kv => negb (existsb (key_eqb (fst kv)) model_names)) c = true -> NoDup (dkeys c) -> ea every inside c c.
Proof.
  intros F N. split; auto. split; auto. intros k _. destruct (dget k c) as [v|] eqn:E; auto. apply dget_in in E. rewrite forallb_forall in F. specialize (F _ E). cbn [fst] in F. unfold inside.
  destruct (existsb (key_eqb k) model_names); [discriminate|reflexivity].
Qed.
Lemma ea_self c : forallb (fun kv => negb (existsb (key_eqb (fst kv)) model_names)) c = true -> NoDup (dkeys c) -> kn inside_known c c.
Proof.
  intros F N. split; auto. split; auto. intros k _. destruct (dget k c) as [v|] eqn:E; auto. apply dget_in in E. rewrite forallb_forall in F. specialize (F _ E). cbn [fst] in F. unfold inside_known.
  destruct (key_eqb k #"integers") eqn:X; [apply key_eqb_eq in X as ->; discriminate F|]. destruct (existsb (key_eqb k) model_names); [discriminate|reflexivity].
Qed.
Lemma nodup_ok (l : list key) : no_dup_keys l = true -> NoDup l.
Proof. apply no_dup_keys_ok. Qed.
Lemma self_options : kn inside_known d_options d_options. Proof. apply ea_self; [reflexivity|]. apply nodup_ok. vm_compute. reflexivity. Qed.
Lemma self_extra : ea every inside d_extra_options d_extra_options. Proof. apply exact_self; [reflexivity|]. apply nodup_ok. vm_compute. reflexivity. Qed.
Lemma self_more : ea every inside d_more_options d_more_options. Proof. apply exact_self; [reflexivity|]. apply nodup_ok. vm_compute. reflexivity. Qed.
Lemma self_solver : kn inside_known d_solver d_solver. Proof. apply ea_self; [reflexivity|]. apply nodup_ok. vm_compute. reflexivity. Qed.
Lemma self_flac : kn inside_known d_flac d_flac. Proof. apply ea_self; [reflexivity|]. apply nodup_ok. vm_compute. reflexivity. Qed.
Lemma self_output : kn inside_known d_output d_output. Proof. apply ea_self; [reflexivity|]. apply nodup_ok. vm_compute. reflexivity. Qed.
Lemma self_elements : kn inside_known d_elements d_elements. Proof. apply ea_self; [reflexivity|]. apply nodup_ok. vm_compute. reflexivity. Qed.
Lemma self_connections : kn inside_known d_connections d_connections. Proof. apply ea_self; [reflexivity|]. apply nodup_ok. vm_compute. reflexivity. Qed.
Lemma self_initial : kn inside_known d_initial_conditions d_initial_conditions. Proof. apply ea_self; [reflexivity|]. apply nodup_ok. vm_compute. reflexivity. Qed.
Lemma self_generators : kn inside_known d_generators d_generators. Proof. apply ea_self; [reflexivity|]. apply nodup_ok. vm_compute. reflexivity. Qed.
Lemma eq_self N c : NoDup (dkeys c) -> ea N (fun _ => eq) c c.
Proof. intros D. split; auto. split; auto. intros k _. destruct (dget k c); auto. Qed.
Lemma self_default : kn inside_known d_default d_default.
Proof.
  split; [apply nodup_ok; vm_compute; reflexivity|]. split; [apply nodup_ok; vm_compute; reflexivity|]. intros k _. destruct (dget k d_default) as [v|] eqn:E; auto. apply dget_in in E.
  assert (V : match v with PDict d => no_dup_keys (dkeys d) = true | _ => True end).
  { assert (X : forallb (fun kv => match snd kv with PDict d => no_dup_keys (dkeys d) | _ => true end) d_default = true) by (vm_compute; reflexivity).
    rewrite forallb_forall in X. specialize (X _ E). cbn [snd] in X. destruct v; auto. }
  unfold inside_known. destruct (key_eqb k #"integers").
  - destruct v; try reflexivity. cbn [mixed]. apply alike_every, eq_self, nodup_ok, V.
  - destruct (existsb (key_eqb k) model_names) eqn:M; [|reflexivity]. destruct v; try reflexivity. cbn [known_in]. apply (eq_self known), nodup_ok, V.
Qed.
Lemma block_e k b x y : x = y -> block k b x = block k b y.
Proof. now intros ->. Qed.
Lemma solvr_same p p' : alike p p' -> write_solvr p = write_solvr p'.
Proof.
  intros H. unfold write_solvr. rewrite (check_at_same dt_SOLVR #"solver" _ p p' eq_refl eq_refl (or_introl eq_refl) H). apply bind_e; [reflexivity|]. intros _. apply block_e.
  eapply bind_r; [exact (p_group p p' #"solver" eq_refl H)|]. intros a b X. pose proof (ea_update _ _ _ _ _ self_solver X) as Y. cbv zeta. unpack Y. gets Y. reflexivity.
Qed.
Lemma momop_same p p' : alike p p' -> write_momop p = write_momop p'.
Proof.
  intros H. unfold write_momop. rewrite (check_numbers dt_MOMOP #"more_options" p p' eq_refl H). apply bind_e; [reflexivity|]. intros _. apply block_e.
  eapply bind_r; [exact (p_numbers p p' #"more_options" eq_refl H)|]. intros a b X. now rewrite (option_string_same _ _ (ea_update _ _ _ _ _ self_more X)).
Qed.
Lemma outpu_same p p' : alike p p' -> write_outpu p = write_outpu p'.
Proof.
  intros H. unfold write_outpu. rewrite (check_at_same dt_OUTPU #"output" _ p p' eq_refl eq_refl (or_introl eq_refl) H). apply bind_e; [reflexivity|]. intros _. apply block_e.
  eapply bind_r; [exact (p_group p p' #"output" eq_refl H)|]. intros a b X. pose proof (ea_update _ _ _ _ _ self_output X) as Y. cbv zeta. unpack Y. gets Y. reflexivity.
Qed.
Lemma param_same p p' : alike p p' -> write_param p = write_param p'.
Proof.
  intros H. unfold write_param. rewrite (check_at_same dt_PARAM #"options" _ p p' eq_refl eq_refl (or_introl eq_refl) H). apply bind_e; [reflexivity|]. intros _.
  rewrite (check_numbers dt_MOP #"extra_options" p p' eq_refl H). apply bind_e; [reflexivity|]. intros _. apply block_e.
  eapply bind_r; [exact (p_group p p' #"options" eq_refl H)|]. intros a b X. pose proof (ea_update _ _ _ _ _ self_options X) as Y. cbv zeta. unpack Y. gets Y.
  apply bind_e; [reflexivity|]. intros ts.
  eapply bind_r; [exact (p_numbers p p' #"extra_options" eq_refl H)|]. intros xo xo' XO. rewrite (option_string_same _ _ (ea_update _ _ _ _ _ self_extra XO)).
  steps.
  eapply bind_r; [exact (p_group p p' #"default" eq_refl H)|]. intros c c' C. gets C. reflexivity.
Qed.
Lemma multi_same p p' : alike p p' -> write_multi p = write_multi p'.
Proof. intros H. unfold write_multi. pgets H. reflexivity. Qed.
Lemma times_same p p' : alike p p' -> write_times p = write_times p'.
Proof. intros H. unfold write_times. pgets H. reflexivity. Qed.
Lemma oft_same kw k f p p' : free k = true -> alike p p' -> write_oft kw k f p = write_oft kw k f p'.
Proof. intros F H. unfold write_oft. now rewrite (p_getE p p' k F H). Qed.
Lemma diffu_same p p' : alike p p' -> write_diffu p = write_diffu p'.
Proof. intros H. unfold write_diffu. pgets H. reflexivity. Qed.
Lemma title_same p p' : alike p p' -> write_title p = write_title p'.
Proof. intros H. unfold write_title. pgets H. reflexivity. Qed.

Lemma selec_same p p' : alike p p' -> write_selec p = write_selec p'.
Proof.
  intros H. unfold write_selec. rewrite (check_at_same dt_SELEC #"selections" _ p p' eq_refl eq_refl (or_introl eq_refl) H). apply bind_e; [reflexivity|]. intros _. apply block_e.
  eapply bind_r; [exact (p_group p p' #"selections" eq_refl H)|]. intros s s' X.
  eapply bind_r; [exact (ea_getE known inside_known s s' #"integers" eq_refl X)|]. intros i i' I. change (mixed (fun _ => eq) i i') in I.
  rewrite (truth_mixed _ _ _ I). apply bind_e; [reflexivity|]. intros t.
  assert (Z : rres (ea every (fun _ => eq)) (if t then let* d := as_dict i in Ok (dupdate d_integers d) else Ok d_integers) (if t then let* d := as_dict i' in Ok (dupdate d_integers d) else Ok d_integers)).
  { assert (C : ea every (fun _ => eq) d_integers d_integers) by (apply (eq_self every), nodup_ok; vm_compute; reflexivity). destruct t; [|exact C].
    eapply bind_rr; [apply as_mixed, I|]. intros d d' D. exact (ea_update _ _ _ _ _ C D). }
  eapply bind_r; [exact Z|]. clear Z. intros n n' N. rewrite (in_getE s s' #"floats" eq_refl X). apply bind_e; [reflexivity|]. intros f.
  apply bind_e; [reflexivity|]. intros nf.
  apply bind_r with (R := fun a b => snd a = snd b /\ ea every (fun _ => eq) (fst a) (fst b)).
  - destruct nf; [cbn; auto|]. apply bind_rr with (R := eq); [destruct (index f 0); reflexivity|]. intros f0 ? <-.
    assert (K : forall v, ea every (fun _ => eq) (dset (KI 1) v n) (dset (KI 1) v n')) by (intros v; now apply ea_set).
    destruct f0; try (apply bind_rr with (R := eq); [destruct (guard _ _); reflexivity|]; intros ? ? _; cbn; auto).
    apply bind_rr with (R := eq); [destruct (py_iter f); reflexivity|]. intros y ? <-. apply bind_rr with (R := fun _ _ => True); [destruct (mapM _ y); cbn; auto|]. intros ? ? _. cbn. auto.
  - intros [a nd] [b nd'] (E & A). cbn [fst snd] in *. subst nd'. rewrite (sorted_same _ _ _ A). apply bind_e; [reflexivity|]. intros ks.
    rewrite (mapM_ext (fun z => dgetE (KI z) a) (fun z => dgetE (KI z) b)); [reflexivity|]. intros z. unfold dgetE. rewrite (ea_eq every (fun _ => eq) a b (KI z) eq_refl); auto.
Qed.

(** *** Rocks *)
Lemma extend_same o d d' : trows d d' -> extend_order o d = extend_order o d'.
Proof. intros H. unfold extend_order. now rewrite (rows_keys d d' H). Qed.
Lemma rock_order_same p p' d d' : alike p p' -> trows d d' -> rock_order p d = rock_order p' d'.
Proof. intros H D. unfold rock_order. pgets H. rewrite (rows_keys d d' D). apply bind_e; [reflexivity|]. intros o. now rewrite (extend_same o d d' D). Qed.
Lemma order_same k p p' d d' : free k = true -> alike p p' -> trows d d' -> order_of k p d = order_of k p' d'.
Proof. intros F H D. unfold order_of. now rewrite (p_getE p p' k F H), (rows_keys d d' D). Qed.
Lemma key_len_same d d' : trows d d' -> max_key_len d = max_key_len d'.
Proof. intros D. unfold max_key_len. now rewrite (rows_keys d d' D). Qed.
Definition model_rec (o : option pyval) : res (list str) :=
  match o with Some m => let* vs := model_values m in write_record vs (str2format fmt_RPCAP []) | None => write_record [] [] end.
Lemma model_rec_same d d' k : model_key k = true -> kn inside_known d d' -> model_rec (dget k d) = model_rec (dget k d').
Proof.
  intros M H. pose proof (ea_get _ _ _ _ k (model_known k M) H) as X. destruct (dget k d), (dget k d'); try contradiction; [|reflexivity]. apply model_inside in X; auto. unfold model_rec. now rewrite (model_same _ _ X).
Qed.
Lemma models_same d d' : kn inside_known d d' ->
  concatM (fun key => match dget key d with Some m => let* vs := model_values m in write_record vs (str2format fmt_RPCAP []) | None => write_record [] [] end) [#"relative_permeability"; #"capillarity"]
  = concatM (fun key => match dget key d' with Some m => let* vs := model_values m in write_record vs (str2format fmt_RPCAP []) | None => write_record [] [] end) [#"relative_permeability"; #"capillarity"].
Proof.
  intros H. change (concatM (fun key => model_rec (dget key d)) [#"relative_permeability"; #"capillarity"] = concatM (fun key => model_rec (dget key d')) [#"relative_permeability"; #"capillarity"]).
  unfold concatM. now rewrite (model_rec_same d d' #"relative_permeability" eq_refl H), (model_rec_same d d' #"capillarity" eq_refl H).
Qed.
Lemma mapM_in {A B} (f g : A -> res B) l : (forall a, In a l -> f a = g a) -> mapM f l = mapM g l.
Proof. induction l as [|a l IH]; intros H; cbn [mapM]; [reflexivity|]. rewrite (H a) by (left; reflexivity). rewrite IH; [reflexivity|]. intros b I. apply H. now right. Qed.
Lemma anyM_in {A} (f g : A -> res bool) l : (forall a, In a l -> f a = g a) -> anyM f l = anyM g l.
Proof. induction l as [|a l IH]; intros H; cbn [anyM]; [reflexivity|]. rewrite (H a) by (left; reflexivity). rewrite IH; [reflexivity|]. intros b I. apply H. now right. Qed.
Lemma in_list_get d d' l k : forallb plain l = true -> kn inside_known d d' -> In k l -> dgetE k d = dgetE k d'.
Proof. intros F H I. rewrite forallb_forall in F. specialize (F k I). now apply in_getE. Qed.
Lemma rock_same d d' k : trows d d' -> write_rock d k = write_rock d' k.
Proof.
  intros D. unfold write_rock. eapply bind_r; [exact (rows_data d d' k D)|]. intros r r' R. cbv zeta.
  rewrite (anyM_in _ (fun k => let* v := dgetE k r' in Ok (not_none v)) rock_keys2) by (intros a I; now rewrite (in_list_get r r' rock_keys2 a eq_refl R I)).
  rewrite (ea_mem known _ r r' #"relative_permeability" eq_refl R), (ea_mem known _ r r' #"capillarity" eq_refl R), (models_same r r' R). gets R.
  apply bind_e; [reflexivity|]. intros c. rewrite (mapM_in (fun k => dgetE k r) (fun k => dgetE k r') rock_keys2) by (intros a I; exact (in_list_get r r' rock_keys2 a eq_refl R I)). reflexivity.
Qed.
Lemma set_alike p p' k v : free k = true -> alike p p' -> alike (dset k v p) (dset k v p').
Proof. intros F. apply ea_set. now apply free_eq. Qed.
Lemma one_model k : model_key k = true -> path [k].
Proof. intros H. right. exists k. auto. Qed.
Lemma rocks_same p p' : alike p p' -> rres (fun a b => fst a = fst b /\ alike (snd a) (snd b)) (write_rocks p) (write_rocks p').
Proof.
  intros H. unfold write_rocks. rewrite (check_at_same dt_ROCKS #"default" _ p p' eq_refl eq_refl (or_introl eq_refl) H).
  rewrite (check_list_same dt_ROCKS #"rocks" _ p p' eq_refl eq_refl (or_introl eq_refl) H).
  rewrite (check_list_same dt_MODEL #"rocks" _ p p' eq_refl eq_refl (one_model #"relative_permeability" eq_refl) H).
  rewrite (check_list_same dt_MODEL #"rocks" _ p p' eq_refl eq_refl (one_model #"capillarity" eq_refl) H).
  do 4 (apply bind_rr with (R := fun _ _ => True); [match goal with |- rres _ ?x _ => destruct x; cbn; auto end|intros _ _ _]).
  eapply bind_rr; [exact (p_table p p' #"rocks" eq_refl H)|]. intros d d' D. pgets H.
  apply bind_rr with (R := eq); [destruct (dgetE _ p'); reflexivity|]. intros o ? <-.
  apply bind_rr with (R := fun a b => fst a = fst b /\ alike (snd a) (snd b)).
  - destruct (is_none o); [cbn; now rewrite (rows_keys d d' D)|]. rewrite (extend_same o d d' D). apply bind_rr with (R := eq); [destruct (extend_order o d'); reflexivity|]. intros o' ? <-.
    apply bind_rr with (R := eq); [destruct (py_iter o'); reflexivity|]. intros l ? <-. cbn [rres fst snd]. split; [reflexivity|]. now apply set_alike.
  - intros [l q] [l' q'] (E & Q). cbn [fst snd] in *. subst l'. rewrite (concatM_ext (write_rock d) (write_rock d') l) by (intros a; now apply rock_same).
    apply bind_rr with (R := eq); [destruct (block _ _ _); reflexivity|]. intros x ? <-. cbn. auto.
Qed.
Lemma rpcap_same p p' : alike p p' -> write_rpcap p = write_rpcap p'.
Proof.
  intros H. unfold write_rpcap. rewrite (check_at_same dt_MODEL #"default" _ p p' eq_refl eq_refl (one_model #"relative_permeability" eq_refl) H). apply bind_e; [reflexivity|]. intros _.
  rewrite (check_at_same dt_MODEL #"default" _ p p' eq_refl eq_refl (one_model #"capillarity" eq_refl) H). apply bind_e; [reflexivity|]. intros _. apply block_e.
  eapply bind_r; [exact (p_group p p' #"default" eq_refl H)|]. intros a b X. cbv zeta. exact (models_same _ _ (ea_update _ _ _ _ _ self_default X)).
Qed.
Lemma in_model_r d d' k : model_key k = true -> kn inside_known d d' -> rres (known_in (fun _ => eq)) (dgetE k d) (dgetE k d').
Proof. intros M H. eapply rres_imp; [|exact (ea_getE _ _ _ _ k (model_known k M) H)]. intros a b. now apply model_inside. Qed.
Lemma flac_rock_same c c' d d' k : kn inside_known c c' -> trows d d' -> write_flac_rock c d k = write_flac_rock c' d' k.
Proof.
  intros C D. unfold write_flac_rock. eapply bind_r; [exact (rows_data d d' k D)|]. intros r r' R. cbv zeta.
  pose proof (ea_update2 _ _ _ _ _ _ (ea_update _ _ _ _ _ self_default C) R) as X. unpack X.
  eapply bind_r; [exact (in_model_r _ _ #"permeability_model" eq_refl X)|]. intros m m' M. rewrite (model_same m m' M). steps.
  eapply bind_r; [exact (in_model_r _ _ #"equivalent_pore_pressure" eq_refl X)|]. intros n n' N. rewrite (model_same n n' N). reflexivity.
Qed.
Lemma flac_same p p' : alike p p' -> write_flac p = write_flac p'.
Proof.
  intros H. unfold write_flac. rewrite (check_at_same dt_FLAC #"flac" _ p p' eq_refl eq_refl (or_introl eq_refl) H). apply bind_e; [reflexivity|]. intros _.
  rewrite (check_at_same dt_MODEL #"default" _ p p' eq_refl eq_refl (one_model #"permeability_model" eq_refl) H). apply bind_e; [reflexivity|]. intros _.
  rewrite (check_at_same dt_MODEL #"default" _ p p' eq_refl eq_refl (one_model #"equivalent_pore_pressure" eq_refl) H). apply bind_e; [reflexivity|]. intros _.
  rewrite (check_list_same dt_MODEL #"rocks" _ p p' eq_refl eq_refl (one_model #"permeability_model" eq_refl) H). apply bind_e; [reflexivity|]. intros _.
  rewrite (check_list_same dt_MODEL #"rocks" _ p p' eq_refl eq_refl (one_model #"equivalent_pore_pressure" eq_refl) H). apply bind_e; [reflexivity|]. intros _. apply block_e.
  eapply bind_r; [exact (p_group p p' #"flac" eq_refl H)|]. intros f f' F. cbv zeta. pose proof (ea_update _ _ _ _ _ self_flac F) as Y. unpack Y. gets Y.
  eapply bind_r; [exact (p_table p p' #"rocks" eq_refl H)|]. intros d d' D. rewrite (rock_order_same p p' d d' H D). steps.
  eapply bind_r; [exact (p_group p p' #"default" eq_refl H)|]. intros c c' C.
  match goal with |- bind (concatM _ ?l) _ = _ => rewrite (concatM_ext (write_flac_rock c d) (write_flac_rock c' d') l) end; [reflexivity|]. intros k. now apply flac_rock_same.
Qed.
Lemma indom_same p p' : alike p p' -> write_indom p = write_indom p'.
Proof.
  intros H. unfold write_indom. apply block_e. eapply bind_r; [exact (p_table p p' #"rocks" eq_refl H)|]. intros d d' D. rewrite (rock_order_same p p' d d' H D). steps.
  apply concatM_ext. intros k. unfold write_indom_rock. eapply bind_r; [exact (rows_data d d' k D)|]. intros r r' R. now rewrite (in_get r r' #"initial_condition" eq_refl R).
Qed.

(** *** Generators *)
Definition pair_alike (a b : key * dict) : Prop := fst a = fst b /\ (snd a = snd b \/ kn inside_known (snd a) (snd b)).
Lemma Forall2_self (l : list (key * dict)) : Forall2 pair_alike l l.
Proof. induction l as [|a l IH]; constructor; auto. split; auto. Qed.
Lemma split_same a b : fst a = fst b -> vk (snd a) (snd b) -> rres (Forall2 pair_alike) (split_generator a) (split_generator b).
Proof.
  intros K M. unfold split_generator. eapply bind_rr; [apply as_known, M|]. intros v v' V. cbv zeta. pose proof (ea_update _ _ _ _ _ self_generators V) as Y. unpack Y.
  rewrite (in_getE data data' #"type" eq_refl Y), K. apply bind_rr with (R := eq); [destruct (dgetE _ data'); reflexivity|]. intros ty ? <-.
  destruct (is_str ty).
  - rewrite (mapM_in _ (fun k => let* x := dgetE k data' in let* n := py_ndim x in guard (Nat.leb n 1) ValueError) gener_keys) by (intros k I; now rewrite (in_list_get data data' gener_keys k eq_refl Y I)).
    apply bind_rr with (R := fun _ _ => True); [destruct (mapM _ gener_keys); cbn; auto|]. intros _ _ _. cbn [rres]. constructor; [|constructor]. split; [reflexivity|]. now right.
  - apply bind_rr with (R := eq); [destruct (py_len ty); reflexivity|]. intros n ? <-.
    rewrite (mapM_in _ (fun k => let* x := dgetE k data' in if is_none x then Ok tt else let* _ := guard (is_seq x) TypeError in let* m := py_len x in guard (Nat.eqb m n) ValueError) gener_keys)
      by (intros k I; now rewrite (in_list_get data data' gener_keys k eq_refl Y I)).
    apply bind_rr with (R := fun _ _ => True); [destruct (mapM _ gener_keys); cbn; auto|]. intros _ _ _.
    rewrite (mapM_in _ (fun i => let* d := mapM (fun k => let* x := dgetE k data' in let* y := (if is_none x then Ok PNone else index x i) in Ok (k, y)) (dkeys d_generators) in Ok (fst b, d)) (seq 0 n)).
    + destruct (mapM _ (seq 0 n)); cbn [rres]; [apply Forall2_self|reflexivity].
    + intros i _. rewrite (mapM_in _ (fun k => let* x := dgetE k data' in let* y := (if is_none x then Ok PNone else index x i) in Ok (k, y)) (dkeys d_generators)); [reflexivity|].
      intros k I. now rewrite (in_list_get data data' (dkeys d_generators) k eq_refl Y I).
Qed.
Lemma generator_same f a b : pair_alike a b -> write_generator f a = write_generator f b.
Proof.
  destruct a as [k d], b as [k' d']. intros (K & X). cbn [fst snd] in K, X. subst k'. destruct X as [->|X]; [reflexivity|]. unfold write_generator. cbn [fst snd]. cbv zeta. gets X. reflexivity.
Qed.
Lemma Forall2_concat {A} (R : A -> A -> Prop) l l' : Forall2 (Forall2 R) l l' -> Forall2 R (concat l) (concat l').
Proof. induction 1; cbn [concat]; [constructor|]. now apply Forall2_app. Qed.
Lemma gener_same p p' : alike p p' -> write_gener p = write_gener p'.
Proof.
  intros H. unfold write_gener. rewrite (check_list_same dt_GENER #"generators" _ p p' eq_refl eq_refl (or_introl eq_refl) H). apply bind_e; [reflexivity|]. intros _. apply block_e.
  eapply bind_r; [exact (p_table p p' #"generators" eq_refl H)|]. intros d d' D.
  eapply bind_r; [apply (mapM_rr _ (Forall2 pair_alike) split_generator split_generator d d' D); intros a b (K & M); now apply split_same|]. intros g g' G.
  rewrite (key_len_same d d' D). steps. apply (concatM_rows pair_alike); [now apply Forall2_concat|]. intros x y. apply generator_same.
Qed.

(** *** Elements, connections and initial conditions *)
Lemma element_same f d d' k : trows d d' -> write_element f d k = write_element f d' k.
Proof.
  intros D. unfold write_element. eapply bind_r; [exact (rows_data d d' k D)|]. intros r r' R. cbv zeta. pose proof (ea_update _ _ _ _ _ self_elements R) as Y. unpack Y. gets Y. reflexivity.
Qed.
Lemma eleme_same p p' : alike p p' -> write_eleme p = write_eleme p'.
Proof.
  intros H. unfold write_eleme. rewrite (check_list_same dt_ELEME #"elements" _ p p' eq_refl eq_refl (or_introl eq_refl) H). apply bind_e; [reflexivity|]. intros _. apply block_e.
  eapply bind_r; [exact (p_table p p' #"elements" eq_refl H)|]. intros d d' D. rewrite (order_same #"elements_order" p p' d d' eq_refl H D), (key_len_same d d' D). steps.
  apply concatM_ext. intros k. now apply element_same.
Qed.
Lemma coord_same p p' : alike p p' -> write_coord p = write_coord p'.
Proof.
  intros H. unfold write_coord. apply block_e.
  eapply bind_r; [exact (p_table p p' #"elements" eq_refl H)|]. intros d d' D. rewrite (order_same #"elements_order" p p' d d' eq_refl H D). steps.
  apply concatM_ext. intros k. eapply bind_r; [exact (rows_lookup d d' k D)|]. intros v w V. pose proof (known_subscript _ v w #"center" eq_refl V) as X. now rewrite (rres_eq _ _ X).
Qed.
Lemma connection_same f d d' k : trows d d' -> write_connection f d k = write_connection f d' k.
Proof.
  intros D. unfold write_connection. eapply bind_r; [exact (rows_data d d' k D)|]. intros r r' R. cbv zeta. pose proof (ea_update _ _ _ _ _ self_connections R) as Y. unpack Y. gets Y. reflexivity.
Qed.
Lemma conne_same p p' : alike p p' -> write_conne p = write_conne p'.
Proof.
  intros H. unfold write_conne. rewrite (check_list_same dt_CONNE #"connections" _ p p' eq_refl eq_refl (or_introl eq_refl) H). apply bind_e; [reflexivity|]. intros _. apply block_e.
  eapply bind_r; [exact (p_table p p' #"connections" eq_refl H)|]. intros d d' D. rewrite (order_same #"connections_order" p p' d d' eq_refl H D), (key_len_same d d' D). steps.
  apply concatM_ext. intros k. now apply connection_same.
Qed.
Lemma initial_same f d d' k : trows d d' -> write_initial f d k = write_initial f d' k.
Proof.
  intros D. unfold write_initial. eapply bind_r; [exact (rows_data d d' k D)|]. intros r r' R. cbv zeta. pose proof (ea_update _ _ _ _ _ self_initial R) as Y. unpack Y. gets Y. reflexivity.
Qed.
Lemma incon_same p p' : alike p p' -> write_incon p = write_incon p'.
Proof.
  intros H. unfold write_incon. rewrite (check_list_same dt_INCON #"initial_conditions" _ p p' eq_refl eq_refl (or_introl eq_refl) H). apply bind_e; [reflexivity|]. intros _. apply block_e.
  eapply bind_r; [exact (p_table p p' #"initial_conditions" eq_refl H)|]. intros d d' D. rewrite (order_same #"initial_conditions_order" p p' d d' eq_refl H D), (key_len_same d d' D). steps.
  apply concatM_ext. intros k. now apply initial_same.
Qed.

(** ** The file *)
Lemma model_set_same d d' k : model_key k = true -> kn inside_known d d' -> model_set d k = model_set d' k.
Proof.
  intros M H. unfold model_set. pose proof (ea_get _ _ _ _ k (model_known k M) H) as X. destruct (dget k d), (dget k d'); try contradiction; [|reflexivity]. apply model_inside in X; auto.
  now rewrite (rres_eq _ _ (known_subscript _ _ _ #"id" eq_refl X)).
Qed.
Lemma indom_flag_same d d' : trows d d' -> indom_flag d = indom_flag d'.
Proof.
  intros H. unfold indom_flag. induction H as [|a b d d' (K & M) H IH]; cbn [anyM]; [reflexivity|]. rewrite IH. f_equal.
  eapply bind_r; [apply as_known, M|]. intros r r' R. now rewrite (in_get r r' #"initial_condition" eq_refl R).
Qed.
Lemma if_some_same k f p p' : known k = true -> alike p p' -> f p = f p' -> if_some k f p = if_some k f p'.
Proof. intros K H E. unfold if_some. eapply bind_r; [exact (p_kindE p p' k K H)|]. intros v w (N & _). unfold not_none. now rewrite N, E. Qed.
Lemma if_true_same k f p p' : known k && negb (loose k) = true -> alike p p' -> f p = f p' -> if_true k f p = if_true k f p'.
Proof. intros K H E. unfold if_true. eapply bind_r; [exact (p_truthE p p' k K H)|]. intros v w T. now rewrite T, E. Qed.
Lemma buffer_same p p' sel : alike p p' -> write_buffer p sel = write_buffer p' sel.
Proof.
  intros H. unfold write_buffer. rewrite (check_alike known parameter_known dt_PARAMETERS p p' eq_refl kind_parameter H). pgets H. steps.
  eapply bind_r; [exact (p_group p p' #"default" eq_refl H)|]. intros c c' C.
  rewrite (model_set_same c c' #"relative_permeability" eq_refl C), (model_set_same c c' #"capillarity" eq_refl C). steps. cbv zeta.
  eapply bind_r; [exact (p_table p p' #"rocks" eq_refl H)|]. intros d d' D. rewrite (indom_flag_same d d' D). steps.
  apply bind_r with (R := fun a b => fst a = fst b /\ alike (snd a) (snd b)).
  - destruct sel; try (split; [reflexivity|exact H]). rewrite (title_same p p' H).
    apply bind_rr with (R := eq); [destruct (write_title p'); reflexivity|]. intros o0 ? <-.
    eapply bind_rr; [exact (rocks_same p p' H)|]. intros [o1 q] [o1' q'] (E & Q). cbn [fst snd] in *. subst o1'.
    rewrite (rpcap_same q q' Q), (multi_same q q' Q), (param_same q q' Q), (indom_same q q' Q).
    rewrite (if_some_same #"flac" write_flac q q' eq_refl Q (flac_same q q' Q)), (if_true_same #"solver" write_solvr q q' eq_refl Q (solvr_same q q' Q)),
      (if_true_same #"start" (fun _ => write_start) q q' eq_refl Q eq_refl), (if_true_same #"selections" write_selec q q' eq_refl Q (selec_same q q' Q)),
      (if_true_same #"more_options" write_momop q q' eq_refl Q (momop_same q q' Q)), (if_some_same #"times" write_times q q' eq_refl Q (times_same q q' Q)),
      (if_some_same #"element_history" write_foft q q' eq_refl Q (oft_same ($"FOFT") #"element_history" fmt_FOFT q q' eq_refl Q)), (if_some_same #"connection_history" write_coft q q' eq_refl Q (oft_same ($"COFT") #"connection_history" fmt_COFT q q' eq_refl Q)),
      (if_some_same #"generator_history" write_goft q q' eq_refl Q (oft_same ($"GOFT") #"generator_history" fmt_GOFT q q' eq_refl Q)).
    repeat (apply bind_rr with (R := eq); [match goal with |- rres _ ?x _ => destruct x; reflexivity end|intros ? ? <-]). cbn [rres fst snd]. auto.
  - intros [o q] [o' q'] (E & Q). cbn [fst snd] in *. subst o'.
    rewrite (if_true_same #"generators" write_gener q q' eq_refl Q (gener_same q q' Q)), (if_some_same #"diffusion" write_diffu q q' eq_refl Q (diffu_same q q' Q)), (if_true_same #"output" write_outpu q q' eq_refl Q (outpu_same q q' Q)),
      (if_true_same #"elements" write_eleme q q' eq_refl Q (eleme_same q q' Q)), (if_true_same #"coordinates" write_coord q q' eq_refl Q (coord_same q q' Q)), (if_true_same #"connections" write_conne q q' eq_refl Q (conne_same q q' Q)),
      (if_true_same #"initial_conditions" write_incon q q' eq_refl Q (incon_same q q' Q)), (if_true_same #"nover" (fun _ => write_nover) q q' eq_refl Q eq_refl). reflexivity.
Qed.

(** *** The defaults *)
Lemma fill_default_same d d' : kn inside_known d d' -> kn inside_known (fill_default d) (fill_default d').
Proof.
  unfold fill_default. assert (F : Forall (fun kv => known (fst kv) = true /\ inside_known (fst kv) (snd kv) (snd kv)) d_default).
  { apply Forall_forall. intros [k v] I. assert (K : known k = true).
    { assert (X : forallb (fun kv => known (fst kv)) d_default = true) by (vm_compute; reflexivity). rewrite forallb_forall in X. exact (X _ I). }
    split; [exact K|]. pose proof (ea_get _ _ _ _ k K self_default) as X. assert (G : dget k d_default = Some v) by (apply in_dget; [apply nodup_ok; vm_compute; reflexivity|exact I]). rewrite G in X. exact X. }
  revert d d'. induction F as [|kv l (K & X) F IH]; intros d d' H; cbn [fold_left]; [exact H|]. apply IH. rewrite (ea_mem known _ d d' (fst kv) K H). destruct (dmem (fst kv) d'); [exact H|]. now apply ea_set.
Qed.
Definition kept_out (k : key) : bool := existsb (key_eqb k) [#"initial_condition"; #"relative_permeability"; #"capillarity"].
Lemma dget_fill k def : forall r, dget k (fill_rock def r) = match dget k r with Some v => Some v | None => if kept_out k then None else dget k def end.
Proof.
  unfold fill_rock. induction def as [|[a v] def IH]; intros r; cbn [fold_left dget].
  - destruct (dget k r); [reflexivity|]. now destruct (kept_out k).
  - rewrite IH. cbn [fst snd]. fold (kept_out a). destruct (key_eqb k a) eqn:E.
    + apply key_eqb_eq in E as <-. unfold dmem. destruct (dget k r) eqn:G; cbn [orb]; [now rewrite G|]. destruct (kept_out k); [now rewrite G|]. rewrite dget_dset, key_eqb_refl. reflexivity.
    + destruct (dmem a r || kept_out a); [reflexivity|]. rewrite dget_dset, E. reflexivity.
Qed.
Lemma nodup_fill def : forall r, NoDup (dkeys r) -> NoDup (dkeys (fill_rock def r)).
Proof. unfold fill_rock. induction def as [|kv def IH]; intros r N; cbn [fold_left]; [exact N|]. apply IH. destruct (_ || _); [exact N|now apply nodup_dset]. Qed.
Lemma fill_rock_same c c' r r' : kn inside_known c c' -> kn inside_known r r' -> kn inside_known (fill_rock c r) (fill_rock c' r').
Proof.
  intros C (N & N' & R). split; [now apply nodup_fill|]. split; [now apply nodup_fill|]. intros k K. rewrite !dget_fill. specialize (R k K). pose proof (ea_get _ _ _ _ k K C) as X.
  destruct (dget k r), (dget k r'); try contradiction; auto. destruct (kept_out k); auto.
Qed.
Lemma self_parameters : alike d_Parameters d_Parameters.
Proof.
  split; [apply nodup_ok; vm_compute; reflexivity|]. split; [apply nodup_ok; vm_compute; reflexivity|]. intros k _. destruct (dget k d_Parameters) as [v|] eqn:E; auto. apply dget_in in E.
  assert (V : match v with PDict d => d = [] | _ => True end).
  { assert (X : forallb (fun kv => match snd kv with PDict [] => true | PDict _ => false | _ => true end) d_Parameters = true) by (vm_compute; reflexivity).
    rewrite forallb_forall in X. specialize (X _ E). cbn [snd] in X. destruct v as [| | | | | | |[|? ?]]; auto. discriminate. }
  assert (K : kn inside_known [] []) by (split; [constructor|]; split; [constructor|]; intros a _; exact I).
  assert (M : ea every inside [] []) by (split; [constructor|]; split; [constructor|]; intros a _; exact I).
  assert (KV : vk v v) by (destruct v; try reflexivity; subst d; exact K).
  unfold parameter_known. destruct (existsb (key_eqb k) number_names); [|destruct (existsb (key_eqb k) switch_names); [|destruct (existsb (key_eqb k) group_names); [|destruct (existsb (key_eqb k) table_names)]]]; auto.
  - destruct v; try reflexivity. subst d. apply alike_every, M.
  - split; [exact KV|tauto].
  - destruct v; try reflexivity. subst d. constructor.
Qed.
Lemma prepare_same u u' : alike u u' -> rres alike (prepare u) (prepare u').
Proof.
  intros H. unfold prepare. cbv zeta. pose proof (ea_update _ _ _ _ _ self_parameters H) as P. revert P. generalize (dupdate d_Parameters u) as p, (dupdate d_Parameters u') as p'. intros p p' P.
  pgets P. apply bind_rr with (R := eq); [destruct (dgetE _ p'); reflexivity|]. intros t ? <-.
  pose proof (set_alike p p' #"title" (if is_str t then PSeq SList [t] else t) eq_refl P) as Q. revert Q. generalize (dset #"title" (if is_str t then PSeq SList [t] else t) p) as q, (dset #"title" (if is_str t then PSeq SList [t] else t) p') as q'. intros q q' Q.
  eapply bind_rr; [exact (p_group q q' #"default" eq_refl Q)|]. intros c c' C. apply fill_default_same in C. revert C. generalize (fill_default c) as f, (fill_default c') as f'. intros f f' F.
  assert (S1 : alike (dset #"default" (PDict f) q) (dset #"default" (PDict f') q')) by (apply ea_set; [exact F|exact Q]).
  eapply bind_rr; [exact (p_table _ _ #"rocks" eq_refl S1)|]. intros d d' D.
  eapply bind_rr; [apply (mapM_rr _ (fun a b => fst a = fst b /\ vk (snd a) (snd b)) _ (fun kv => let* r := as_dict (snd kv) in Ok (fst kv, PDict (fill_rock f' r))) d d' D)|].
  - intros a b (K & M). eapply bind_rr; [apply as_known, M|]. intros r r' R. cbn [rres fst snd known_in]. split; [exact K|]. now apply fill_rock_same.
  - intros l l' L. cbn [rres]. apply ea_set; [exact L|exact S1].
Qed.
Theorem text_same u u' blk : alike u u' -> write_text u blk = write_text u' blk.
Proof.
  intros H. unfold write_text. destruct (sel_of blk) as [sel|]; [|reflexivity]. eapply bind_r; [exact (prepare_same u u' H)|]. intros p p' P. now rewrite (buffer_same p p' sel P).
Qed.

