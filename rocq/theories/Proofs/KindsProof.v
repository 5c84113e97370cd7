(** The writer does not depend on the kinds of sequences and integers. *)
From Coq Require Import String Ascii ZArith Bool Lia List.
From Verif Require Import Base.Str Base.Digits Base.Flt.
From Verif Require Import Model.Py Model.Records Model.Write.
From Verif Require Import Proofs.DictLemmas Proofs.KnownProof Spec.Kinds.
Import ListNotations.
Local Open Scope nat_scope.

Notation okd := other_kinds.
(** Two values of the same contents, or two dictionaries. *)
Definition sim (v w : pyval) : Prop := same_contents v w \/ exists d d', v = PDict d /\ w = PDict d' /\ okd d d'.
Lemma sim_refl v : sim v v. Proof. left. reflexivity. Qed.
Lemma sim_of k v w : other_kind k v w -> sim v w.
Proof. intros [d d' H|v' w' H _ _ _]; [right; eauto|left; exact H]. Qed.

Lemma lists_sim l l' : map listed l = map listed l' -> Forall2 sim l l'.
Proof. revert l'. induction l as [|a l IH]; intros [|b l'] H; try discriminate H; constructor; injection H as A B; [now left|now apply IH]. Qed.
Lemma contents_cases v w : same_contents v w -> v = w \/ (exists z, (v = PInt z \/ v = PNpInt z) /\ (w = PInt z \/ w = PNpInt z)) \/
  exists s s' l l', v = PSeq s l /\ w = PSeq s' l' /\ map listed l = map listed l'.
Proof.
  unfold same_contents. destruct v, w; cbn [listed]; intros H; try discriminate H; try (left; exact H).
  - injection H as ->. right. left. eauto.
  - injection H as ->. right. left. eauto.
  - injection H as ->. right. left. eauto.
  - injection H as H. right. right. exists k, k0, l, l0. auto.
Qed.
Lemma sim_cases v w : sim v w -> v = w \/ (exists z, (v = PInt z \/ v = PNpInt z) /\ (w = PInt z \/ w = PNpInt z)) \/
  (exists s s' l l', v = PSeq s l /\ w = PSeq s' l' /\ map listed l = map listed l') \/ exists d d', v = PDict d /\ w = PDict d' /\ okd d d'.
Proof. intros [H|H]; [apply contents_cases in H as [H|[H|H]]; auto|auto]. Qed.
Ltac cases H := apply sim_cases in H as [->|[(z & [-> | ->] & [-> | ->])|[(s & s' & l & l' & -> & -> & H)|(d & d' & -> & -> & H)]]].
Lemma okd_keys d d' : okd d d' -> dkeys d = dkeys d'.
Proof. intros H. unfold dkeys. induction H as [|a b d d' (X & _) H IH]; cbn [map]; [reflexivity|]. now rewrite X, IH. Qed.
Lemma okd_get d d' k : okd d d' -> match dget k d, dget k d' with Some v, Some w => other_kind k v w | None, None => True | _, _ => False end.
Proof.
  intros H. induction H as [|[a v] [b w] d d' (X & Y) H IH]; cbn [dget]; [exact I|]. cbn [fst snd] in *. subst b. destruct (key_eqb k a) eqn:E; [apply key_eqb_eq in E as ->; exact Y|exact IH].
Qed.
Lemma okd_getE d d' k : okd d d' -> rres (other_kind k) (dgetE k d) (dgetE k d').
Proof. intros H. unfold dgetE. pose proof (okd_get d d' k H) as X. destruct (dget k d), (dget k d'); try contradiction; cbn; auto. Qed.
Lemma okd_simE d d' k : okd d d' -> rres sim (dgetE k d) (dgetE k d').
Proof. intros H. eapply rres_imp; [|exact (okd_getE d d' k H)]. intros a b. apply sim_of. Qed.
Lemma okd_set d d' k v w : other_kind k v w -> okd d d' -> okd (dset k v d) (dset k w d').
Proof.
  intros V H. induction H as [|[a x] [b y] d d' (X & Y) H IH]; cbn [dset].
  - constructor; [split; [reflexivity|exact V]|constructor].
  - cbn [fst snd] in *. subst b. destruct (key_eqb k a) eqn:E; [apply key_eqb_eq in E as <-; constructor; [split; [reflexivity|exact V]|exact H]|]. constructor; [split; [reflexivity|exact Y]|exact IH].
Qed.
Lemma okd_update c c' d d' : okd c c' -> okd d d' -> okd (dupdate c d) (dupdate c' d').
Proof.
  unfold dupdate. intros C H. revert c c' C. induction H as [|a b d d' (X & Y) H IH]; intros c c' C; cbn [fold_left]; [exact C|]. apply IH. rewrite <- X. now apply okd_set.
Qed.
Lemma okd_mem d d' k : okd d d' -> dmem k d = dmem k d'.
Proof. intros H. unfold dmem. pose proof (okd_get d d' k H) as X. destruct (dget k d), (dget k d'); try contradiction; auto. Qed.

(** ** Operations on values *)
Lemma Forall2_sim_refl l : Forall2 sim l l.
Proof. induction l; constructor; auto using sim_refl. Qed.
Lemma sim_none v w : sim v w -> is_none v = is_none w. Proof. intros H. cases H; reflexivity. Qed.
Lemma sim_type v w t : sim v w -> has_type t v = has_type t w. Proof. intros H. cases H; destruct t; reflexivity. Qed.
Lemma sim_str v w : sim v w -> is_str v = is_str w. Proof. intros H. cases H; reflexivity. Qed.
Lemma sim_seq v w : sim v w -> is_seq v = is_seq w. Proof. intros H. cases H; reflexivity. Qed.
Lemma sim_format v w sp : sim v w -> py_format sp v = py_format sp w. Proof. intros H. cases H; reflexivity. Qed.
Lemma sim_to_str v w sp : sim v w -> to_str v sp = to_str w sp. Proof. intros H. cases H; reflexivity. Qed.
Lemma sim_py_str v w : sim v w -> py_str v = py_str w. Proof. intros H. cases H; reflexivity. Qed.
Lemma other_refl k v : other_kind k v v.
Proof. apply other_value; auto. reflexivity. Qed.
Lemma okd_refl d : okd d d.
Proof. induction d as [|a d IH]; constructor; [split; [reflexivity|apply other_refl]|exact IH]. Qed.
Lemma rres_refl {A} (R : A -> A -> Prop) x : (forall a, R a a) -> rres R x x.
Proof. intros H. destruct x; cbn; auto. Qed.
Lemma sim_dict v w : sim v w -> rres okd (as_dict v) (as_dict w).
Proof. intros H. cases H; try reflexivity; [apply rres_refl, okd_refl|exact H]. Qed.
Lemma sim_subscript v w k : sim v w -> rres (other_kind k) (subscript v k) (subscript w k).
Proof. intros H. cases H; try reflexivity; [apply rres_refl, other_refl|]. cbn [subscript]. now apply okd_getE. Qed.
Lemma Forall2_len {A B} (R : A -> B -> Prop) l l' : Forall2 R l l' -> List.length l = List.length l'.
Proof. induction 1; cbn [List.length]; congruence. Qed.
Lemma listed_len l l' : map listed l = map listed l' -> List.length l = List.length l'.
Proof. intros H. apply (f_equal (@List.length pyval)) in H. now rewrite !map_length in H. Qed.
Lemma sim_len v w : sim v w -> py_len v = py_len w.
Proof. intros H. cases H; try reflexivity; cbn [py_len]; [now rewrite (listed_len l l' H)|now rewrite (Forall2_len _ _ _ H)]. Qed.
Lemma sim_iter v w : sim v w -> rres (Forall2 sim) (py_iter v) (py_iter w).
Proof.
  intros H. cases H; try reflexivity; [apply rres_refl, Forall2_sim_refl|now apply lists_sim|]. cbn [py_iter rres]. rewrite (okd_keys d d' H). apply Forall2_sim_refl.
Qed.
Lemma sim_py_seq v w : sim v w -> rres (Forall2 sim) (py_seq v) (py_seq w).
Proof. intros H. cases H; try reflexivity; [apply rres_refl, Forall2_sim_refl|now apply lists_sim]. Qed.
Lemma Forall2_nth {A B} (R : A -> B -> Prop) l l' i : Forall2 R l l' -> match nth_error l i, nth_error l' i with Some a, Some b => R a b | None, None => True | _, _ => False end.
Proof. intros H. revert i. induction H as [|a b l l' X H IH]; intros [|i]; cbn [nth_error]; auto; exact (IH i). Qed.
Lemma sim_index v w i : sim v w -> rres sim (index v i) (index w i).
Proof.
  intros H. cases H; try reflexivity; [apply rres_refl, sim_refl| |].
  - cbn [index]. pose proof (Forall2_nth sim l l' i (lists_sim l l' H)) as X. destruct (nth_error l i), (nth_error l' i); try contradiction; cbn; auto.
  - cbn [index]. now apply okd_simE.
Qed.
Lemma Forall2_firstn {A B} (R : A -> B -> Prop) n : forall l l', Forall2 R l l' -> Forall2 R (firstn n l) (firstn n l').
Proof. induction n as [|n IH]; intros l l' H; cbn [firstn]; [constructor|]. destruct H; constructor; auto. Qed.
Lemma Forall2_skipn {A B} (R : A -> B -> Prop) n : forall l l', Forall2 R l l' -> Forall2 R (skipn n l) (skipn n l').
Proof. induction n as [|n IH]; intros l l' H; cbn [skipn]; [exact H|]. destruct H; [constructor|auto]. Qed.
Lemma sim_slice_to n v w : sim v w -> rres sim (slice_to n v) (slice_to n w).
Proof. intros H. cases H; try reflexivity; [apply rres_refl, sim_refl|]. cbn [slice_to rres]. left. unfold same_contents. cbn [listed]. now rewrite <- !firstn_map, H. Qed.
Lemma sim_slice_from n v w : sim v w -> rres sim (slice_from n v) (slice_from n w).
Proof. intros H. cases H; try reflexivity; [apply rres_refl, sim_refl|]. cbn [slice_from rres]. left. unfold same_contents. cbn [listed]. now rewrite <- !skipn_map, H. Qed.
Fixpoint shapes (l : list pyval) : res (option (list nat)) :=
  match l with
  | [] => Ok None
  | x :: r => let* sx := py_shape x in let* sr := shapes r in
              match sr with None => Ok (Some sx) | Some s => if list_eq_dec Nat.eq_dec s sx then Ok (Some s) else Err Unmodelled end
  end.
Lemma shape_seq s l : py_shape (PSeq s l) = let* x := shapes l in match x with None => Ok [O] | Some x => Ok (List.length l :: x) end.
Proof. reflexivity. Qed.
Fixpoint shape_listed (v : pyval) : py_shape (listed v) = py_shape v.
Proof.
  destruct v as [| | | | | |s l|]; try reflexivity. cbn [listed]. rewrite !shape_seq, map_length.
  assert (E : shapes (map listed l) = shapes l); [|now rewrite E].
  induction l as [|a l IH]; [reflexivity|]. cbn [map shapes]. now rewrite shape_listed, IH.
Qed.
Lemma sim_ndim v w : sim v w -> py_ndim v = py_ndim w.
Proof. unfold py_ndim. intros [H|(d & d' & -> & -> & _)]; [|reflexivity]. rewrite <- (shape_listed v), <- (shape_listed w). now rewrite H. Qed.
Lemma record_same l l' f : Forall2 sim l l' -> write_record l f = write_record l' f.
Proof.
  intros H. unfold write_record. assert (E : mapM (fun p => to_str (fst p) (snd p)) (combine l f) = mapM (fun p => to_str (fst p) (snd p)) (combine l' f)); [|now rewrite E].
  revert f. induction H as [|a b l l' X H IH]; intros f; [reflexivity|]. destruct f as [|sp f]; [reflexivity|]. cbn [combine mapM fst snd]. now rewrite (sim_to_str a b sp X), IH.
Qed.
Lemma chunks_same n : forall f l l', Forall2 sim l l' -> Forall2 (Forall2 sim) (chunks_fuel f n l) (chunks_fuel f n l').
Proof.
  induction f as [|f IH]; intros l l' H; cbn [chunks_fuel]; [constructor|]. destruct H as [|a b l l' X H]; [constructor|]. constructor; [apply Forall2_firstn; now constructor|]. apply IH, Forall2_skipn. now constructor.
Qed.
Lemma multi_record_same l l' f : Forall2 sim l l' -> write_record_multi l f = write_record_multi l' f.
Proof.
  intros H. unfold write_record_multi. rewrite (mapM_rows (Forall2 sim) (fun d => write_record d f) (fun d => write_record d f) _ (chunks (List.length f) l')); [reflexivity| |intros a b; apply record_same].
  unfold chunks. rewrite (Forall2_len _ _ _ H). now apply chunks_same.
Qed.
Definition flagb (k : key) : bool := existsb (key_eqb k) flag_names.
Lemma okd_nil d d' : okd d d' -> match d with [] => false | _ => true end = match d' with [] => false | _ => true end.
Proof. intros []; reflexivity. Qed.
Lemma flag_truth k v w : flagb k = true -> other_kind k v w -> truthy v = truthy w.
Proof.
  intros F [d d' H|a b H N _ _]; [cbn [truthy]; now rewrite (okd_nil d d' H)|]. apply existsb_exists in F as (x & I & E). apply key_eqb_eq in E as <-. destruct (N I) as [->|[A B]]; [reflexivity|].
  apply contents_cases in H as [->|[(z & [-> | ->] & [-> | ->])|(s & s' & l & l' & -> & -> & H)]]; try reflexivity.
  pose proof (listed_len l l' H) as L. destruct s, s'; try contradiction; cbn [truthy]; destruct l, l'; try discriminate L; reflexivity.
Qed.

(** ** Checks *)
Lemma entry_same t a b : fst a = fst b -> sim (snd a) (snd b) -> check_entry t a = check_entry t b.
Proof. intros K H. unfold check_entry. rewrite K. destruct (tget (fst b) t); [|reflexivity]. now rewrite (sim_none _ _ H), (sim_type _ _ d H). Qed.
Lemma check_okd t d d' : okd d d' -> check_dict t (PDict d) = check_dict t (PDict d').
Proof.
  intros H. unfold check_dict. cbn [as_dict bind]. rewrite (mapM_rows _ (check_entry t) (check_entry t) d d' H); [reflexivity|]. intros a b (K & O). apply entry_same; [exact K|exact (sim_of _ _ _ O)].
Qed.
Lemma check_sim t v w : sim v w -> check_dict t v = check_dict t w.
Proof. intros H. cases H; try reflexivity. now apply check_okd. Qed.
Lemma descend_sim ks : forall v w, sim v w -> rres sim (descend v ks) (descend w ks).
Proof.
  induction ks as [|k ks IH]; intros v w H; cbn [descend]; [exact H|]. eapply bind_rr; [exact (sim_subscript v w k H)|]. intros a b O. apply IH. exact (sim_of _ _ _ O).
Qed.
Lemma check_at_kind t k ks p p' : okd p p' -> check_at t k ks p = check_at t k ks p'.
Proof. intros H. unfold check_at. eapply bind_r; [exact (okd_simE p p' k H)|]. intros a b S1. eapply bind_r; [exact (descend_sim ks a b S1)|]. intros x y. apply check_sim. Qed.
Lemma check_list_kind t k ks p p' : okd p p' -> check_list t k ks p = check_list t k ks p'.
Proof.
  intros H. unfold check_list. eapply bind_r; [exact (okd_simE p p' k H)|]. intros a b S1. eapply bind_r; [exact (sim_dict a b S1)|]. intros d d' D.
  rewrite (mapM_rows _ _ (fun kv => match descend (snd kv) ks with Ok v' => check_dict t v' | Err KeyError => Ok tt | Err e => Err e end) d d' D); [reflexivity|].
  intros x y (_ & O). pose proof (descend_sim ks _ _ (sim_of _ _ _ O)) as X. destruct (descend (snd x) ks), (descend (snd y) ks); cbn in X; try contradiction; [now apply check_sim|now subst].
Qed.

(** ** Blocks *)
Lemma okd_dict p p' k : okd p p' -> rres okd (get_dict k p) (get_dict k p').
Proof. intros H. unfold get_dict. eapply bind_rr; [exact (okd_simE p p' k H)|]. intros a b. apply sim_dict. Qed.
Lemma okd_lookup d d' k : okd d d' -> rres sim (lookup d k) (lookup d' k).
Proof. intros H. unfold lookup. destruct (val_key k); cbn [bind rres]; [|reflexivity]. now apply okd_simE. Qed.
Lemma okd_data d d' k : okd d d' -> rres okd (bind (lookup d k) as_dict) (bind (lookup d' k) as_dict).
Proof. intros H. eapply bind_rr; [exact (okd_lookup d d' k H)|]. intros a b. apply sim_dict. Qed.
Ltac getk H := match type of H with other_kinds ?d ?d' => match goal with |- bind (dgetE ?k d) _ = _ =>
  eapply bind_r; [exact (okd_getE d d' k H)|]; let a := fresh "a" in let b := fresh "b" in let O := fresh "O" in let Q := fresh "Q" in intros a b O; pose proof (sim_of _ _ _ O) as Q end end.
Ltac hide H := match type of H with other_kinds ?d ?d' => let a := fresh "data" in let b := fresh "data'" in generalize dependent d'; generalize d as a; intros a b H end.
Ltac sims := repeat first [apply Forall2_nil | apply Forall2_cons; [first [assumption|apply sim_refl]|] | apply Forall2_app | assumption | apply Forall2_sim_refl].
Ltac record := apply bind_e; [apply record_same; sims|intros ?].
Ltac truth t := match goal with O : other_kind ?k ?a ?b |- bind (truthy ?a) _ = bind (truthy ?b) _ => rewrite (flag_truth k a b eq_refl O); apply bind_e; [reflexivity|intros t] end.

Lemma solvr_kind p p' : okd p p' -> write_solvr p = write_solvr p'.
Proof.
  intros H. unfold write_solvr. rewrite (check_at_kind _ _ _ p p' H). apply bind_e; [reflexivity|]. intros _. apply block_e.
  eapply bind_r; [exact (okd_dict p p' _ H)|]. intros d d' D. cbv zeta. pose proof (okd_update _ _ _ _ (okd_refl d_solver) D) as Y. hide Y. do 5 getk Y. apply record_same. sims.
Qed.
Lemma get_list d d' ks : okd d d' -> rres (Forall2 sim) (mapM (fun k => dgetE k d) ks) (mapM (fun k => dgetE k d') ks).
Proof.
  intros H. induction ks as [|k ks IH]; cbn [mapM]; [constructor|]. eapply bind_rr; [exact (okd_simE d d' k H)|]. intros a b A. eapply bind_rr; [exact IH|]. intros x y X. cbn. now constructor.
Qed.
Lemma option_string_kind d d' : okd d d' -> option_string d = option_string d'.
Proof.
  intros H. unfold option_string, sorted_keys. rewrite (okd_keys d d' H). apply bind_e; [reflexivity|]. intros l.
  rewrite (mapM_ext _ (fun z => let* v := dgetE (KI z) d' in if is_none v then Ok ($" ") else py_str v)); [reflexivity|]. intros z. getk H. now rewrite (sim_none _ _ Q), (sim_py_str _ _ Q).
Qed.
Lemma momop_kind p p' : okd p p' -> write_momop p = write_momop p'.
Proof.
  intros H. unfold write_momop. rewrite (check_at_kind _ _ _ p p' H). apply bind_e; [reflexivity|]. intros _. apply block_e.
  eapply bind_r; [exact (okd_dict p p' _ H)|]. intros d d' D. now rewrite (option_string_kind _ _ (okd_update _ _ _ _ (okd_refl d_more_options) D)).
Qed.
Lemma multi_kind p p' : okd p p' -> write_multi p = write_multi p'.
Proof.
  intros H. unfold write_multi. apply block_e. getk H. truth t0. 
  assert (E : match a with PStr s => match eos_get s d_eos with Some l => Ok l | None => Err KeyError end | _ => Err KeyError end = match b with PStr s => match eos_get s d_eos with Some l => Ok l | None => Err KeyError end | _ => Err KeyError end)
    by (clear - Q; cases Q; reflexivity).
  rewrite E. apply bind_e; [reflexivity|]. intros base. destruct (map PInt base) as [|v0 [|v1 [|v2 [|v3 rest]]]]; try reflexivity.
  getk H. truth t1. cbv zeta. getk H. truth t2.
  assert (S0 : sim (if t1 then a0 else v0) (if t1 then b0 else v0)) by (destruct t1; [assumption|apply sim_refl]).
  eapply bind_r with (R := sim).
  { destruct t2; [exact S0|]. clear - S0. revert S0. generalize (if t1 then a0 else v0) as v, (if t1 then b0 else v0) as w. intros v w S0. cases S0; try reflexivity; try (cbn; left; reflexivity). apply rres_refl, sim_refl. }
  intros u u' U. getk H. truth t3. getk H. truth t4. getk H. truth t5. clear E. destruct t1, t3, t4, t5; apply record_same; sims.
Qed.
Lemma times_kind p p' : okd p p' -> write_times p = write_times p'.
Proof.
  intros H. unfold write_times. apply block_e. getk H. rewrite (sim_ndim a b Q). apply bind_e; [reflexivity|]. intros n.
  apply bind_r with (R := Forall2 sim); [destruct n; [cbn; sims|now apply sim_py_seq]|]. intros l l' L. rewrite (Forall2_len _ _ _ L). apply bind_e; [reflexivity|]. intros r. now rewrite (multi_record_same l l' _ L).
Qed.
Lemma oft_kind kw k f p p' : okd p p' -> write_oft kw k f p = write_oft kw k f p'.
Proof. intros H. unfold write_oft. apply block_e. getk H. eapply bind_r; [exact (sim_iter a b Q)|]. intros l l' L. now apply multi_record_same. Qed.
Lemma diffu_kind p p' : okd p p' -> write_diffu p = write_diffu p'.
Proof.
  intros H. unfold write_diffu. apply block_e. getk H. eapply bind_r; [exact (sim_iter a b Q)|]. intros l l' L. apply (concatM_rows sim); [exact L|].
  intros x y X. eapply bind_r; [exact (sim_py_seq x y X)|]. intros m m' M. now apply multi_record_same.
Qed.
Lemma title_kind p p' : okd p p' -> write_title p = write_title p'.
Proof.
  intros H. unfold write_title. getk H. eapply bind_r; [exact (sim_iter a b Q)|]. intros l l' L. apply (mapM_rows sim); [exact L|]. intros x y X. now rewrite (sim_format x y _ X).
Qed.
Lemma outpu_kind p p' : okd p p' -> write_outpu p = write_outpu p'.
Proof.
  intros H. unfold write_outpu. rewrite (check_at_kind _ _ _ p p' H). apply bind_e; [reflexivity|]. intros _. apply block_e.
  eapply bind_r; [exact (okd_dict p p' _ H)|]. intros d d' D. cbv zeta. pose proof (okd_update _ _ _ _ (okd_refl d_output) D) as Y. hide Y. getk Y. truth t0.
  assert (E : forall t f, when t match a with PStr s => write_record [PStr (upper s)] f | _ => Err AttributeError end = when t match b with PStr s => write_record [PStr (upper s)] f | _ => Err AttributeError end)
    by (clear - Q; intros t f; cases Q; reflexivity).
  rewrite E. apply bind_e; [reflexivity|]. intros r1. getk Y. truth t1. match goal with |- bind (when ?t _) _ = _ => destruct t end; [|reflexivity]. cbn [when]. apply bind_e; [|reflexivity].
  eapply bind_r; [exact (sim_dict a0 b0 Q0)|]. intros e e' EE. rewrite (mapM_rows _ write_variable write_variable e e' EE); [reflexivity|].
  intros [kx x] [ky y] (K & O1). cbn [fst snd] in *. subst ky. pose proof (sim_of _ _ _ O1) as X. unfold write_variable. cbn [fst snd]. cbv zeta. apply bind_e; [reflexivity|]. intros n.
  rewrite (sim_ndim x y X). apply bind_e; [reflexivity|]. intros [|nd]; [record; reflexivity|].
  eapply bind_r; [exact (sim_index x y 0 X)|]. intros i j I. rewrite (sim_ndim i j I). apply bind_e; [reflexivity|]. intros [|n0].
  - eapply bind_r; [exact (sim_iter x y X)|]. intros l l' L. record. reflexivity.
  - eapply bind_r; [exact (sim_iter x y X)|]. intros l l' L. rewrite (Forall2_len _ _ _ L). apply bind_e; [|reflexivity]. apply (concatM_rows sim); [exact L|].
    intros g h G. eapply bind_r; [exact (sim_iter g h G)|]. intros m m' M. apply record_same. sims.
Qed.
Lemma steps_same a b : sim a b -> Forall2 sim (match a with PSeq _ l => l | v => [v] end) (match b with PSeq _ l => l | v => [v] end).
Proof. intros Q. pose proof Q as Q'. cases Q; [|sims|sims|sims|sims|now apply lists_sim|sims]. apply Forall2_sim_refl. Qed.
Lemma param_kind p p' : okd p p' -> write_param p = write_param p'.
Proof.
  intros H. unfold write_param. rewrite (check_at_kind dt_PARAM _ _ p p' H). apply bind_e; [reflexivity|]. intros _. rewrite (check_at_kind dt_MOP _ _ p p' H). apply bind_e; [reflexivity|]. intros _. apply block_e.
  eapply bind_r; [exact (okd_dict p p' _ H)|]. intros d d' D. cbv zeta. pose proof (okd_update _ _ _ _ (okd_refl d_options) D) as Y. hide Y. getk Y.
  pose proof (steps_same a b Q) as T. revert T. generalize (match a with PSeq _ l => l | v => [v] end) as ts, (match b with PSeq _ l => l | v => [v] end) as ts'. intros ts ts' T.
  eapply bind_r; [exact (okd_dict p p' _ H)|]. intros xo xo' XO. rewrite (option_string_kind _ _ (okd_update _ _ _ _ (okd_refl d_extra_options) XO)). apply bind_e; [reflexivity|]. intros mop.
  do 7 getk Y. record. do 2 getk Y. rewrite (Forall2_len _ _ _ T). do 4 getk Y. record. rewrite (multi_record_same ts ts' _ T). apply bind_e; [reflexivity|]. intros ?. do 5 getk Y. record.
  eapply bind_r; [exact (okd_dict p p' _ H)|]. intros c c' C. getk C. match goal with Q : sim ?a ?b |- bind (py_len ?a) _ = _ => rewrite (sim_len a b Q); apply bind_e; [reflexivity|]; intros len;
    eapply bind_r; [exact (sim_slice_to _ a b Q)|]; intros v4 w4 V4; eapply bind_r; [exact (sim_iter v4 w4 V4)|]; intros l4 l4' L4; record; unfold when; destruct (Nat.ltb 4 len); [|reflexivity];
    apply bind_e; [|reflexivity]; eapply bind_r; [exact (sim_slice_from _ a b Q)|]; intros v5 w5 V5; eapply bind_r; [exact (sim_iter v5 w5 V5)|]; intros l5 l5' L5; apply record_same; exact L5 end.
Qed.
Definition special (k : key) : bool := existsb (key_eqb k) (flag_names ++ order_names ++ kept_names).
Lemma sim_other k v w : special k = false -> sim v w -> other_kind k v w.
Proof.
  intros N H. assert (X : forall l, In k l -> incl l (flag_names ++ order_names ++ kept_names) -> False).
  { intros l I J. unfold special in N. rewrite <- not_true_iff_false in N. apply N, existsb_exists. exists k. split; [apply J, I|apply key_eqb_refl]. }
  destruct H as [H|(d & d' & -> & -> & H)]; [|now apply other_dict].
  apply other_value; [exact H| | |]; intros I; exfalso; eapply X; try exact I; intros a A; apply in_app_iff; [left; exact A|right; apply in_app_iff; left; exact A|right; apply in_app_iff; right; exact A].
Qed.
Definition keptb (k : key) : bool := existsb (key_eqb k) kept_names.
Lemma kept_case k v w : keptb k = true -> other_kind k v w -> v = w \/ exists d d', v = PDict d /\ w = PDict d' /\ okd d d'.
Proof. intros F [d d' H|a b _ _ _ N]; [right; eauto|left]. apply existsb_exists in F as (x & I & E). apply key_eqb_eq in E as <-. auto. Qed.
Lemma kept_truth k v w : keptb k = true -> other_kind k v w -> truthy v = truthy w.
Proof. intros F O. destruct (kept_case k v w F O) as [->|(d & d' & -> & -> & H)]; [reflexivity|]. cbn [truthy]. now rewrite (okd_nil d d' H). Qed.
Definition orderb (k : key) : bool := existsb (key_eqb k) order_names.
Lemma order_iter k v w : orderb k = true -> other_kind k v w -> py_iter v = py_iter w.
Proof.
  intros F [d d' H|a b _ _ N _]; [cbn [py_iter]; now rewrite (okd_keys d d' H)|]. apply existsb_exists in F as (x & I & E). apply key_eqb_eq in E as <-.
  destruct (N I) as [->|(s & s' & l & -> & ->)]; reflexivity.
Qed.
Lemma order_kind k p p' d d' : orderb k = true -> okd p p' -> okd d d' -> order_of k p d = order_of k p' d'.
Proof. intros F H D. unfold order_of. getk H. now rewrite (sim_none _ _ Q), (okd_keys d d' D), (order_iter k a b F O). Qed.
Lemma extend_kind o o' d d' : other_kind #"rocks_order" o o' -> okd d d' -> rres (other_kind #"rocks_order") (extend_order o d) (extend_order o' d').
Proof.
  intros O D. unfold extend_order. rewrite (okd_keys d d' D). destruct (kept_case #"rocks_order" o o' eq_refl O) as [->|(e & e' & -> & -> & H)]; [apply rres_refl, other_refl|].
  destruct (dkeys d') as [|k ks]; cbn [foldM bind rres]; [exact O|reflexivity].
Qed.
Lemma kept_iter o o' : other_kind #"rocks_order" o o' -> py_iter o = py_iter o'.
Proof. intros O. destruct (kept_case #"rocks_order" o o' eq_refl O) as [->|(e & e' & -> & -> & H)]; [reflexivity|]. cbn [py_iter]. now rewrite (okd_keys e e' H). Qed.
Lemma model_kind m m' : sim m m' -> rres (Forall2 sim) (model_values m) (model_values m').
Proof.
  intros H. unfold model_values. eapply bind_rr; [exact (sim_subscript m m' _ H)|]. intros a b A. eapply bind_rr; [exact (sim_subscript m m' _ H)|]. intros c d C.
  eapply bind_rr; [exact (sim_iter c d (sim_of _ _ _ C))|]. intros l l' L. cbn [rres]. pose proof (sim_of _ _ _ A). sims.
Qed.
Lemma models_kind d d' f : okd d d' ->
  concatM (fun key => match dget key d with Some m => let* vs := model_values m in write_record vs f | None => write_record [] [] end) [#"relative_permeability"; #"capillarity"] =
  concatM (fun key => match dget key d' with Some m => let* vs := model_values m in write_record vs f | None => write_record [] [] end) [#"relative_permeability"; #"capillarity"].
Proof.
  intros H. apply concatM_ext. intros k. pose proof (okd_get d d' k H) as X. destruct (dget k d), (dget k d'); try contradiction; [|reflexivity].
  eapply bind_r; [exact (model_kind _ _ (sim_of _ _ _ X))|]. intros l l' L. now apply record_same.
Qed.
Lemma anyM_ext {A} (f g : A -> res bool) l : (forall a, f a = g a) -> anyM f l = anyM g l.
Proof. intros H. apply anyM_in. auto. Qed.
Lemma three_same n a b : sim a b ->
  rres (Forall2 sim) (match match n with O => PSeq SList [a; a; a] | S _ => a end with PSeq _ l => if Nat.eqb (List.length l) 3 then Ok l else Err TypeError | _ => Err TypeError end)
    (match match n with O => PSeq SList [b; b; b] | S _ => b end with PSeq _ l => if Nat.eqb (List.length l) 3 then Ok l else Err TypeError | _ => Err TypeError end).
Proof.
  intros Q. destruct n; [cbn; sims|]. cases Q; try reflexivity; [apply rres_refl, Forall2_sim_refl|]. rewrite (listed_len l l' Q). destruct (Nat.eqb _ 3); [now apply lists_sim|reflexivity].
Qed.
Lemma rock_kind d d' k : okd d d' -> write_rock d k = write_rock d' k.
Proof.
  intros H. unfold write_rock. eapply bind_r; [exact (okd_data d d' k H)|]. intros data data' D.
  rewrite (anyM_ext (fun k => let* v := dgetE k data in Ok (not_none v)) (fun k => let* v := dgetE k data' in Ok (not_none v))); [|intros x; getk D; unfold not_none; now rewrite (sim_none _ _ Q)].
  apply bind_e; [reflexivity|]. intros cond. cbv zeta. rewrite !(okd_mem data data' _ D). getk D. rewrite (sim_ndim a b Q). apply bind_e; [reflexivity|]. intros nd.
  eapply bind_r; [exact (three_same nd a b Q)|]. intros pl pl' PL. do 4 getk D.
  match goal with |- context [Z.eqb ?n 0] => generalize n end. intros nad. record.
  assert (X : (let* vs := mapM (fun k => dgetE k data) rock_keys2 in write_record vs (str2format fmt_ROCKS_2 [])) = (let* vs := mapM (fun k => dgetE k data') rock_keys2 in write_record vs (str2format fmt_ROCKS_2 [])))
    by (eapply bind_r; [exact (get_list data data' rock_keys2 D)|]; intros l l' L; now apply record_same).
  rewrite X. apply bind_e; [reflexivity|]. intros r2. rewrite (models_kind data data' (str2format fmt_RPCAP []) D). reflexivity.
Qed.
Lemma rocks_kind p p' : okd p p' -> rres (fun a b => fst a = fst b /\ okd (snd a) (snd b)) (write_rocks p) (write_rocks p').
Proof.
  intros H. unfold write_rocks. rewrite (check_at_kind _ _ _ p p' H), !(check_list_kind dt_ROCKS _ _ p p' H), !(check_list_kind dt_MODEL _ _ p p' H).
  repeat (apply bind_rr with (R := eq); [match goal with |- rres _ ?x _ => destruct x; reflexivity end|intros ? ? <-]).
  eapply bind_rr; [exact (okd_dict p p' #"rocks" H)|]. intros d d' D. eapply bind_rr; [exact (okd_getE p p' #"rocks_order" H)|]. intros o o' O. rewrite (sim_none o o' (sim_of _ _ _ O)).
  apply bind_rr with (R := fun a b => fst a = fst b /\ okd (snd a) (snd b)).
  - destruct (is_none o'); [cbn [rres fst snd]; now rewrite (okd_keys d d' D)|]. eapply bind_rr; [exact (extend_kind o o' d d' O D)|]. intros e e' E.
    rewrite (kept_iter e e' E). destruct (py_iter e'); cbn [bind rres fst snd]; [|reflexivity]. split; [reflexivity|now apply okd_set].
  - intros [l q] [l' q'] (E & X). cbn [fst snd] in *. subst l'. rewrite (concatM_ext (write_rock d) (write_rock d') l (fun k => rock_kind d d' k D)).
    apply bind_rr with (R := eq); [match goal with |- rres _ ?x _ => destruct x; reflexivity end|]. intros x ? <-. cbn [rres fst snd]. auto.
Qed.
Lemma rpcap_kind p p' : okd p p' -> write_rpcap p = write_rpcap p'.
Proof.
  intros H. unfold write_rpcap. rewrite !(check_at_kind _ _ _ p p' H). apply bind_e; [reflexivity|]. intros _. apply bind_e; [reflexivity|]. intros _. apply block_e.
  eapply bind_r; [exact (okd_dict p p' _ H)|]. intros d d' D. cbv zeta. exact (models_kind _ _ _ (okd_update _ _ _ _ (okd_refl d_default) D)).
Qed.
Lemma rock_order_kind p p' d d' : okd p p' -> okd d d' -> rock_order p d = rock_order p' d'.
Proof.
  intros H D. unfold rock_order. getk H. rewrite (kept_truth #"rocks_order" a b eq_refl O). apply bind_e; [reflexivity|]. intros []; [|now rewrite (okd_keys d d' D)].
  eapply bind_r; [exact (extend_kind a b d d' O D)|]. intros e e' E. exact (kept_iter e e' E).
Qed.
Lemma Forall2_hd l l' : Forall2 sim l l' -> sim (hd PNone l) (hd PNone l').
Proof. intros []; cbn [hd]; auto using sim_refl. Qed.
Lemma flac_rock_kind c c' d d' k : okd c c' -> okd d d' -> write_flac_rock c d k = write_flac_rock c' d' k.
Proof.
  intros C D. unfold write_flac_rock. eapply bind_r; [exact (okd_data d d' k D)|]. intros r r' R. cbv zeta.
  pose proof (okd_update _ _ _ _ (okd_update _ _ _ _ (okd_refl d_default) C) R) as Y. hide Y. getk Y. eapply bind_r; [exact (model_kind a b Q)|]. intros l l' L.
  apply bind_e; [apply record_same; constructor; [now apply Forall2_hd|now apply Forall2_skipn]|]. intros r1. getk Y. eapply bind_r; [exact (model_kind _ _ Q0)|]. intros m m' M. record. reflexivity.
Qed.
Lemma flac_kind p p' : okd p p' -> write_flac p = write_flac p'.
Proof.
  intros H. unfold write_flac. rewrite !(check_at_kind dt_FLAC _ _ p p' H), !(check_at_kind dt_MODEL _ _ p p' H), !(check_list_kind _ _ _ p p' H). do 5 (apply bind_e; [reflexivity|]; intros _). apply block_e.
  eapply bind_r; [exact (okd_dict p p' _ H)|]. intros f f' F. cbv zeta. eapply bind_r; [exact (okd_dict p p' _ H)|]. intros d d' D. rewrite (rock_order_kind p p' d d' H D). apply bind_e; [reflexivity|]. intros order.
  pose proof (okd_update _ _ _ _ (okd_refl d_flac) F) as Y. hide Y. getk Y. truth t0. do 2 getk Y. record. eapply bind_r; [exact (okd_dict p p' _ H)|]. intros c c' C.
  rewrite (concatM_ext _ _ order (fun k => flac_rock_kind c c' d d' k C D)). reflexivity.
Qed.
Lemma get_ints d d' ks : okd d d' -> rres (Forall2 sim) (mapM (fun z => dgetE (KI z) d) ks) (mapM (fun z => dgetE (KI z) d') ks).
Proof.
  intros H. induction ks as [|k ks IH]; cbn [mapM]; [constructor|]. eapply bind_rr; [exact (okd_simE d d' (KI k) H)|]. intros a b A. eapply bind_rr; [exact IH|]. intros x y X. cbn. now constructor.
Qed.
Lemma first_case v w : sim v w -> match v with PSeq _ _ => true | _ => false end = match w with PSeq _ _ => true | _ => false end.
Proof. intros H. cases H; reflexivity. Qed.
Lemma match_seq {A} v (x y : A) : match v with PSeq _ _ => x | _ => y end = if match v with PSeq _ _ => true | _ => false end then x else y.
Proof. now destruct v. Qed.
Lemma selec_kind p p' : okd p p' -> write_selec p = write_selec p'.
Proof.
  intros H. unfold write_selec. rewrite (check_at_kind _ _ _ p p' H). apply bind_e; [reflexivity|]. intros _. apply block_e.
  eapply bind_r; [exact (okd_dict p p' _ H)|]. intros d d' D. getk D. truth t0.
  apply bind_r with (R := okd). { destruct t0; [|apply okd_refl]. eapply bind_rr; [exact (sim_dict a b Q)|]. intros e e' E. cbn [rres]. apply okd_update; [apply okd_refl|exact E]. }
  intros ints ints' INTS. getk D. rewrite (sim_len _ _ Q0). apply bind_e; [reflexivity|]. intros nf.
  apply bind_r with (R := fun a b => okd (fst a) (fst b) /\ snd a = snd b).
  - destruct nf as [|nf]; [cbn; auto|]. eapply bind_rr; [exact (sim_index _ _ 0 Q0)|]. intros x y X. rewrite (match_seq x), (match_seq y), (first_case x y X). destruct (match y with PSeq _ _ => true | _ => false end).
    + eapply bind_rr; [exact (sim_iter _ _ Q0)|]. intros l l' L.
      rewrite (mapM_rows sim (fun x => let* n := py_len x in guard (Nat.leb n 8) ValueError) (fun x => let* n := py_len x in guard (Nat.leb n 8) ValueError) l l' L) by (intros u v U; now rewrite (sim_len u v U)).
      apply bind_rr with (R := eq); [match goal with |- rres _ ?x _ => destruct x; reflexivity end|]. intros q ? <-. cbn [rres fst snd]. split; [apply okd_set; [apply other_refl|exact INTS]|reflexivity].
    + apply bind_rr with (R := eq); [match goal with |- rres _ ?x _ => destruct x; reflexivity end|]. intros q ? <-. cbn [rres fst snd]. split; [apply okd_set; [apply other_refl|exact INTS]|reflexivity].
  - intros [i nd] [i' nd'] (I & E). cbn [fst snd] in *. subst nd'. unfold sorted_keys. rewrite (okd_keys i i' I). apply bind_e; [reflexivity|]. intros ks. eapply bind_r; [exact (get_ints i i' ks I)|]. intros vs vs' V. record.
    assert (X : (let* l := py_iter a0 in write_record l (str2format fmt_SELEC_2 [])) = (let* l := py_iter b0 in write_record l (str2format fmt_SELEC_2 [])))
      by (eapply bind_r; [exact (sim_iter _ _ Q0)|]; intros l l' L; now apply record_same).
    rewrite X. destruct nd as [|[|[|nd]]]; try reflexivity. apply bind_e; [|reflexivity]. eapply bind_r; [exact (sim_iter _ _ Q0)|]. intros l l' L. apply (concatM_rows sim); [exact L|].
    intros g h G. eapply bind_r; [exact (sim_iter g h G)|]. intros m m' M. now apply record_same.
Qed.
Lemma any_not_none l l' : Forall2 sim l l' -> existsb not_none l = existsb not_none l'.
Proof. intros H. induction H as [|a b l l' X H IH]; cbn [existsb]; [reflexivity|]. unfold not_none at 1 3. now rewrite (sim_none a b X), IH. Qed.
Lemma indom_rock_kind d d' k : okd d d' -> write_indom_rock d k = write_indom_rock d' k.
Proof.
  intros H. unfold write_indom_rock. eapply bind_r; [exact (okd_data d d' k H)|]. intros r r' R. pose proof (okd_get r r' #"initial_condition" R) as X. destruct (dget #"initial_condition" r), (dget #"initial_condition" r'); try contradiction; [|reflexivity].
  eapply bind_r; [exact (sim_iter _ _ (sim_of _ _ _ X))|]. intros l l' L. rewrite (any_not_none l l' L). destruct (existsb not_none l'); [|reflexivity]. rewrite (Forall2_len _ _ _ L). apply bind_e; [reflexivity|]. intros r1.
  apply bind_e; [apply record_same; now apply Forall2_firstn|]. intros r2. rewrite (record_same (skipn 4 l) (skipn 4 l')); [reflexivity|now apply Forall2_skipn].
Qed.
Lemma indom_kind p p' : okd p p' -> write_indom p = write_indom p'.
Proof.
  intros H. unfold write_indom. apply block_e. eapply bind_r; [exact (okd_dict p p' _ H)|]. intros d d' D. rewrite (rock_order_kind p p' d d' H D). apply bind_e; [reflexivity|]. intros order.
  exact (concatM_ext _ _ order (fun k => indom_rock_kind d d' k D)).
Qed.
Lemma max_len_kind d d' : okd d d' -> max_key_len d = max_key_len d'.
Proof. intros H. unfold max_key_len. now rewrite (okd_keys d d' H). Qed.
Definition gens (a b : key * dict) : Prop := fst a = fst b /\ okd (snd a) (snd b).
Lemma gener_plain : forallb (fun k => negb (special k)) (dkeys d_generators) = true.
Proof. vm_compute. reflexivity. Qed.
Lemma component_kind d d' i : okd d d' -> forall ks, forallb (fun k => negb (special k)) ks = true ->
  rres okd (mapM (fun k => let* x := dgetE k d in let* y := (if is_none x then Ok PNone else index x i) in Ok (k, y)) ks)
    (mapM (fun k => let* x := dgetE k d' in let* y := (if is_none x then Ok PNone else index x i) in Ok (k, y)) ks).
Proof.
  intros D. induction ks as [|k ks IH]; intros F; cbn [mapM]; [constructor|]. cbn [forallb] in F. apply andb_true_iff in F as (K & F). apply negb_true_iff in K.
  apply bind_rr with (R := fun a b => fst a = k /\ fst b = k /\ sim (snd a) (snd b)).
  - eapply bind_rr; [exact (okd_simE d d' k D)|]. intros x y X. rewrite (sim_none x y X). apply bind_rr with (R := sim); [destruct (is_none y); [apply sim_refl|now apply sim_index]|]. intros u v U. cbn [rres fst snd]. auto.
  - intros [k1 u] [k2 v] (A & B & U). cbn [fst snd] in *. subst k1 k2. eapply bind_rr; [exact (IH F)|]. intros e e' E. cbn [rres]. constructor; [cbn [fst snd]; split; [reflexivity|now apply sim_other]|exact E].
Qed.
Lemma components_kind d d' kk (ks : list key) : okd d d' -> forallb (fun k => negb (special k)) ks = true -> forall l : list nat,
  rres (Forall2 gens) (mapM (fun i => let* d := mapM (fun k => let* x := dgetE k d in let* y := (if is_none x then Ok PNone else index x i) in Ok (k, y)) ks in Ok (kk, d)) l)
    (mapM (fun i => let* d := mapM (fun k => let* x := dgetE k d' in let* y := (if is_none x then Ok PNone else index x i) in Ok (k, y)) ks in Ok (kk, d)) l).
Proof.
  intros D F. induction l as [|i l IH]; cbn [mapM]; [constructor|]. apply bind_rr with (R := gens).
  - eapply bind_rr; [exact (component_kind d d' i D ks F)|]. intros e e' E. cbn [rres]. split; [reflexivity|exact E].
  - intros a b A. eapply bind_rr; [exact IH|]. intros x y X. cbn [rres]. now constructor.
Qed.
Lemma split_kind a b : fst a = fst b -> sim (snd a) (snd b) -> rres (Forall2 gens) (split_generator a) (split_generator b).
Proof.
  destruct a as [k a], b as [k' b]. cbn [fst snd]. intros <- H. unfold split_generator. cbn [fst snd]. cbv zeta. eapply bind_rr; [exact (sim_dict a b H)|]. intros d d' D.
  pose proof (okd_update _ _ _ _ (okd_refl d_generators) D) as Y. hide Y. eapply bind_rr; [exact (okd_simE data data' #"type" Y)|]. intros ty ty' T. rewrite (sim_str ty ty' T). destruct (is_str ty').
  - rewrite (mapM_ext (fun k => let* x := dgetE k data in let* n := py_ndim x in guard (Nat.leb n 1) ValueError) (fun k => let* x := dgetE k data' in let* n := py_ndim x in guard (Nat.leb n 1) ValueError));
      [|intros x; getk Y; now rewrite (sim_ndim _ _ Q)].
    apply bind_rr with (R := eq); [match goal with |- rres _ ?x _ => destruct x; reflexivity end|]. intros q ? <-. cbn [rres]. constructor; [split; [reflexivity|exact Y]|constructor].
  - rewrite (sim_len ty ty' T). apply bind_rr with (R := eq); [match goal with |- rres _ ?x _ => destruct x; reflexivity end|]. intros n ? <-.
    rewrite (mapM_ext (fun k => let* x := dgetE k data in if is_none x then Ok tt else let* _ := guard (is_seq x) TypeError in let* m := py_len x in guard (Nat.eqb m n) ValueError)
      (fun k => let* x := dgetE k data' in if is_none x then Ok tt else let* _ := guard (is_seq x) TypeError in let* m := py_len x in guard (Nat.eqb m n) ValueError));
      [|intros x; getk Y; now rewrite (sim_none _ _ Q), (sim_seq _ _ Q), (sim_len _ _ Q)].
    apply bind_rr with (R := eq); [match goal with |- rres _ ?x _ => destruct x; reflexivity end|]. intros q ? <-. exact (components_kind data data' k (dkeys d_generators) Y gener_plain _).
Qed.
Lemma seq_case v w : sim v w -> (exists s s' l l', v = PSeq s l /\ w = PSeq s' l' /\ Forall2 sim l l') \/ (is_seq v = false /\ is_seq w = false).
Proof.
  intros H. cases H; try (right; split; reflexivity); [destruct w; try (right; split; reflexivity); left; do 4 eexists; repeat split; try reflexivity; apply Forall2_sim_refl|].
  left. do 4 eexists. repeat split; try reflexivity. now apply lists_sim.
Qed.
Lemma Forall2_repeat a b n : sim a b -> Forall2 sim (repeat a n) (repeat b n).
Proof. intros H. induction n; cbn [repeat]; constructor; auto. Qed.
Lemma generator_kind f a b : gens a b -> write_generator f a = write_generator f b.
Proof.
  destruct a as [k a], b as [k' b]. intros (E & H). cbn [fst snd] in *. subst k'. unfold write_generator. cbn [fst snd]. cbv zeta.
  eapply bind_r; [exact (okd_simE a b _ H)|]. intros t t' T. eapply bind_r; [exact (okd_simE a b _ H)|]. intros r r' R. eapply bind_r; [exact (okd_simE a b _ H)|]. intros e e' EN.
  match goal with |- bind ?x ?g = bind ?y ?h => assert (X : x = y) end.
  { destruct (seq_case t t' T) as [(s & s' & l & l' & -> & -> & L)|(A & B)].
    - rewrite (Forall2_len _ _ _ L). apply bind_e; [|reflexivity]. apply (mapM_rows sim); [sims|]. intros x y X. now rewrite (sim_none x y X), (sim_seq x y X), (sim_len x y X).
    - transitivity (let* _ := mapM (fun x => if is_none x then Ok tt else let* n := py_ndim x in guard (Nat.eqb n 0) ValueError) [r; e] in @Ok (option nat) None); [destruct t; try reflexivity; discriminate A|].
      transitivity (let* _ := mapM (fun x => if is_none x then Ok tt else let* n := py_ndim x in guard (Nat.eqb n 0) ValueError) [r'; e'] in @Ok (option nat) None); [|destruct t'; try reflexivity; discriminate B].
      apply bind_e; [|reflexivity]. apply (mapM_rows sim); [sims|]. intros x y X. now rewrite (sim_none x y X), (sim_ndim x y X). }
  rewrite X. clear X. apply bind_e; [reflexivity|]. intros ltab. rewrite (sim_seq e e' EN). generalize (match ltab with Some (S _) => true | _ => false end) as tab. intros tab. do 6 getk H.
  assert (S1 : sim (if tab then PNone else r) (if tab then PNone else r')) by (destruct tab; [apply sim_refl|exact R]).
  assert (S2 : sim (if tab then PNone else e) (if tab then PNone else e')) by (destruct tab; [apply sim_refl|exact EN]).
  record. assert (M : forall v w, sim v w -> (let* l := py_seq v in write_record_multi l (str2format fmt_GENER_0 [])) = (let* l := py_seq w in write_record_multi l (str2format fmt_GENER_0 []))).
  { intros v w V. eapply bind_r; [exact (sim_py_seq v w V)|]. intros l l' L. now apply multi_record_same. }
  rewrite (M t t' T), (M r r' R). unfold not_none. rewrite (sim_none e e' EN). do 2 (apply bind_e; [reflexivity|]; intros ?). apply bind_e; [|reflexivity].
  unfold when. destruct (tab && negb (is_none e')); [|reflexivity]. apply bind_r with (R := Forall2 sim).
  - pose proof (seq_case e e' EN) as [(s & s' & l & l' & -> & -> & L)|(A & B)]; [exact L|]. pose proof (Forall2_repeat e e' (match ltab with Some n => n | None => 0 end) EN) as F.
    destruct e; try discriminate A; destruct e'; try discriminate B; exact F.
  - intros l l' L. now apply multi_record_same.
Qed.
Lemma Forall2_concat {A B} (R : A -> B -> Prop) l l' : Forall2 (Forall2 R) l l' -> Forall2 R (concat l) (concat l').
Proof. intros H. induction H; cbn [concat]; [constructor|]. now apply Forall2_app. Qed.
Lemma gener_kind p p' : okd p p' -> write_gener p = write_gener p'.
Proof.
  intros H. unfold write_gener. rewrite (check_list_kind _ _ _ p p' H). apply bind_e; [reflexivity|]. intros _. apply block_e.
  eapply bind_r; [exact (okd_dict p p' _ H)|]. intros d d' D. eapply bind_r; [eapply mapM_rr; [exact D|]; intros a b (K & O); exact (split_kind a b K (sim_of _ _ _ O))|]. intros g g' G.
  rewrite (max_len_kind d d' D). do 2 (apply bind_e; [reflexivity|]; intros ?). apply (concatM_rows gens); [now apply Forall2_concat|]. intros x y. apply generator_kind.
Qed.
Lemma material_kind m m' : other_kind #"material" m m' ->
  rres sim (match m with PInt _ | PBool _ => let* s := py_format (Spec true 5 None None) m in Ok (PStr s) | v => Ok v end)
    (match m' with PInt _ | PBool _ => let* s := py_format (Spec true 5 None None) m' in Ok (PStr s) | v => Ok v end).
Proof. intros O. destruct (kept_case #"material" m m' eq_refl O) as [->|(d & d' & -> & -> & H)]; [apply rres_refl, sim_refl|]. cbn [rres]. right. eauto. Qed.
Ltac at_ H i := match type of H with sim ?a ?b => eapply bind_r; [exact (sim_index a b i H)|]; let x := fresh "x" in let y := fresh "y" in let X := fresh "X" in intros x y X end.
Lemma element_kind f d d' k : okd d d' -> write_element f d k = write_element f d' k.
Proof.
  intros H. unfold write_element. eapply bind_r; [exact (okd_data d d' k H)|]. intros r r' R. cbv zeta. pose proof (okd_update _ _ _ _ (okd_refl d_elements) R) as Y. hide Y.
  getk Y. eapply bind_r; [exact (material_kind a b O)|]. intros m m' M. do 6 getk Y. at_ Q5 0. at_ Q5 1. at_ Q5 2. apply record_same. sims.
Qed.
Lemma eleme_kind p p' : okd p p' -> write_eleme p = write_eleme p'.
Proof.
  intros H. unfold write_eleme. rewrite (check_list_kind _ _ _ p p' H). apply bind_e; [reflexivity|]. intros _. apply block_e.
  eapply bind_r; [exact (okd_dict p p' _ H)|]. intros d d' D. rewrite (order_kind #"elements_order" p p' d d' eq_refl H D), (max_len_kind d d' D). do 3 (apply bind_e; [reflexivity|]; intros ?).
  apply concatM_ext. intros k. now apply element_kind.
Qed.
Lemma coord_kind p p' : okd p p' -> write_coord p = write_coord p'.
Proof.
  intros H. unfold write_coord. apply block_e. eapply bind_r; [exact (okd_dict p p' _ H)|]. intros d d' D. rewrite (order_kind #"elements_order" p p' d d' eq_refl H D). apply bind_e; [reflexivity|]. intros order.
  apply concatM_ext. intros k. eapply bind_r; [exact (okd_lookup d d' k D)|]. intros v w V. eapply bind_r; [exact (sim_subscript v w _ V)|]. intros a b A. eapply bind_r; [exact (sim_iter a b (sim_of _ _ _ A))|]. intros l l' L. now apply record_same.
Qed.
Lemma connection_kind f d d' k : okd d d' -> write_connection f d k = write_connection f d' k.
Proof.
  intros H. unfold write_connection. eapply bind_r; [exact (okd_data d d' k H)|]. intros r r' R. cbv zeta. pose proof (okd_update _ _ _ _ (okd_refl d_connections) R) as Y. hide Y.
  do 2 getk Y. rewrite (sim_none _ _ Q0).
  assert (N : forall i, rres sim (if is_none b0 then Ok PNone else index a0 i) (if is_none b0 then Ok PNone else index b0 i)) by (intros i; destruct (is_none b0); [apply sim_refl|exact (sim_index _ _ i Q0)]).
  eapply bind_r; [exact (N 0)|]. intros n0 n0' N0. eapply bind_r; [exact (N 1)|]. intros n1 n1' N1. do 2 getk Y. at_ Q2 0. at_ Q2 1. do 3 getk Y. apply record_same. sims.
Qed.
Lemma conne_kind p p' : okd p p' -> write_conne p = write_conne p'.
Proof.
  intros H. unfold write_conne. rewrite (check_list_kind _ _ _ p p' H). apply bind_e; [reflexivity|]. intros _. apply block_e.
  eapply bind_r; [exact (okd_dict p p' _ H)|]. intros d d' D. rewrite (order_kind #"connections_order" p p' d d' eq_refl H D), (max_len_kind d d' D). do 3 (apply bind_e; [reflexivity|]; intros ?).
  apply concatM_ext. intros k. now apply connection_kind.
Qed.
Lemma initial_kind f d d' k : okd d d' -> write_initial f d k = write_initial f d' k.
Proof.
  intros H. unfold write_initial. eapply bind_r; [exact (okd_data d d' k H)|]. intros r r' R. cbv zeta. pose proof (okd_update _ _ _ _ (okd_refl d_initial_conditions) R) as Y. hide Y.
  do 2 getk Y. eapply bind_r; [exact (sim_iter _ _ Q0)|]. intros lu lu' LU. record. getk Y. rewrite (sim_len _ _ Q1). apply bind_e; [reflexivity|]. intros len.
  eapply bind_r; [exact (sim_slice_to _ _ _ Q1)|]. intros v4 w4 V4. eapply bind_r; [exact (sim_iter v4 w4 V4)|]. intros l4 l4' L4. record. unfold when. destruct (Nat.ltb 4 len); [|reflexivity]. apply bind_e; [|reflexivity].
  eapply bind_r; [exact (sim_slice_from _ _ _ Q1)|]. intros v5 w5 V5. eapply bind_r; [exact (sim_iter v5 w5 V5)|]. intros l5 l5' L5. now apply record_same.
Qed.
Lemma incon_kind p p' : okd p p' -> write_incon p = write_incon p'.
Proof.
  intros H. unfold write_incon. rewrite (check_list_kind _ _ _ p p' H). apply bind_e; [reflexivity|]. intros _. apply block_e.
  eapply bind_r; [exact (okd_dict p p' _ H)|]. intros d d' D. rewrite (order_kind #"initial_conditions_order" p p' d d' eq_refl H D), (max_len_kind d d' D). do 3 (apply bind_e; [reflexivity|]; intros ?).
  apply concatM_ext. intros k. now apply initial_kind.
Qed.

(** ** The file *)
Lemma some_kind k f p p' : okd p p' -> f p = f p' -> if_some k f p = if_some k f p'.
Proof. intros H E. unfold if_some. getk H. unfold not_none. now rewrite (sim_none _ _ Q), E. Qed.
Lemma true_kind k f p p' : flagb k = true -> okd p p' -> f p = f p' -> if_true k f p = if_true k f p'.
Proof. intros F H E. unfold if_true. getk H. now rewrite (flag_truth k a b F O), E. Qed.
Lemma model_set_kind d d' k : okd d d' -> model_set d k = model_set d' k.
Proof.
  intros H. unfold model_set. pose proof (okd_get d d' k H) as X. destruct (dget k d), (dget k d'); try contradiction; [|reflexivity].
  eapply bind_r; [exact (sim_subscript _ _ #"id" (sim_of _ _ _ X))|]. intros a b A. unfold not_none. now rewrite (sim_none _ _ (sim_of _ _ _ A)).
Qed.
Lemma anyM_rows {A} (R : A -> A -> Prop) (f g : A -> res bool) l l' : Forall2 R l l' -> (forall a b, R a b -> f a = g b) -> anyM f l = anyM g l'.
Proof. intros F H. induction F as [|a b l l' X F IH]; cbn [anyM]; [reflexivity|]. now rewrite (H _ _ X), IH. Qed.
Lemma indom_flag_kind d d' : okd d d' -> indom_flag d = indom_flag d'.
Proof.
  intros H. unfold indom_flag. eapply anyM_rows; [exact H|]. intros a b (K & O). eapply bind_r; [exact (sim_dict _ _ (sim_of _ _ _ O))|]. intros r r' R.
  pose proof (okd_get r r' #"initial_condition" R) as X. destruct (dget #"initial_condition" r), (dget #"initial_condition" r'); try contradiction; [|reflexivity].
  eapply bind_r; [exact (sim_slice_to 4 _ _ (sim_of _ _ _ X))|]. intros v w V. eapply bind_r; [exact (sim_iter v w V)|]. intros l l' L. now rewrite (any_not_none l l' L).
Qed.
Lemma buffer_kind p p' sel : okd p p' -> write_buffer p sel = write_buffer p' sel.
Proof.
  intros H. unfold write_buffer. rewrite (check_okd _ p p' H). apply bind_e; [reflexivity|]. intros _. getk H. truth te.
  apply bind_e; [clear - Q; cases Q; reflexivity|]. intros _.
  eapply bind_r; [exact (okd_dict p p' #"default" H)|]. intros c c' C. rewrite !(model_set_kind c c' _ C). do 2 (apply bind_e; [reflexivity|]; intros ?). cbv zeta.
  eapply bind_r; [exact (okd_dict p p' #"rocks" H)|]. intros d d' D. rewrite (indom_flag_kind d d' D). apply bind_e; [reflexivity|]. intros indom. getk H. truth tc. getk H. truth tp.
  apply bind_r with (R := fun a b => fst a = fst b /\ okd (snd a) (snd b)).
  - destruct sel; try (split; [reflexivity|exact H]). rewrite (title_kind p p' H).
    apply bind_rr with (R := eq); [destruct (write_title p'); reflexivity|]. intros o0 ? <-.
    eapply bind_rr; [exact (rocks_kind p p' H)|]. intros [o1 q] [o1' q'] (E & X). cbn [fst snd] in *. subst o1'.
    rewrite (rpcap_kind q q' X), (multi_kind q q' X), (param_kind q q' X), (indom_kind q q' X).
    rewrite (some_kind #"flac" write_flac q q' X (flac_kind q q' X)), (true_kind #"solver" write_solvr q q' eq_refl X (solvr_kind q q' X)),
      (true_kind #"start" (fun _ => write_start) q q' eq_refl X eq_refl), (true_kind #"selections" write_selec q q' eq_refl X (selec_kind q q' X)),
      (true_kind #"more_options" write_momop q q' eq_refl X (momop_kind q q' X)), (some_kind #"times" write_times q q' X (times_kind q q' X)),
      (some_kind #"element_history" write_foft q q' X (oft_kind _ _ _ q q' X)), (some_kind #"connection_history" write_coft q q' X (oft_kind _ _ _ q q' X)),
      (some_kind #"generator_history" write_goft q q' X (oft_kind _ _ _ q q' X)).
    repeat (apply bind_rr with (R := eq); [match goal with |- rres _ ?x _ => destruct x; reflexivity end|intros ? ? <-]). cbn [rres fst snd]. auto.
  - intros [o q] [o' q'] (E & X). cbn [fst snd] in *. subst o'.
    rewrite (true_kind #"generators" write_gener q q' eq_refl X (gener_kind q q' X)), (some_kind #"diffusion" write_diffu q q' X (diffu_kind q q' X)), (true_kind #"output" write_outpu q q' eq_refl X (outpu_kind q q' X)),
      (true_kind #"elements" write_eleme q q' eq_refl X (eleme_kind q q' X)), (true_kind #"coordinates" write_coord q q' eq_refl X (coord_kind q q' X)), (true_kind #"connections" write_conne q q' eq_refl X (conne_kind q q' X)),
      (true_kind #"initial_conditions" write_incon q q' eq_refl X (incon_kind q q' X)), (true_kind #"nover" (fun _ => write_nover) q q' eq_refl X eq_refl). reflexivity.
Qed.
Lemma fill_default_kind d d' : okd d d' -> okd (fill_default d) (fill_default d').
Proof.
  unfold fill_default. generalize d_default as l. intros l. revert d d'. induction l as [|kv l IH]; intros d d' H; cbn [fold_left]; [exact H|]. apply IH. rewrite (okd_mem d d' _ H). destruct (dmem (fst kv) d'); [exact H|].
  apply okd_set; [apply other_refl|exact H].
Qed.
Lemma fill_rock_kind c c' r r' : okd c c' -> okd r r' -> okd (fill_rock c r) (fill_rock c' r').
Proof.
  unfold fill_rock. intros C. revert r r'. induction C as [|a b c c' (K & O) C IH]; intros r r' R; cbn [fold_left]; [exact R|]. apply IH. rewrite (okd_mem r r' _ R), <- K. destruct (_ || _); [exact R|now apply okd_set].
Qed.
Lemma prepare_kind u u' : okd u u' -> rres okd (prepare u) (prepare u').
Proof.
  intros H. unfold prepare. cbv zeta. pose proof (okd_update _ _ _ _ (okd_refl d_Parameters) H) as Y. hide Y. eapply bind_rr; [exact (okd_simE data data' #"title" Y)|]. intros t t' T.
  assert (O : other_kind #"title" (if is_str t then PSeq SList [t] else t) (if is_str t' then PSeq SList [t'] else t')).
  { apply sim_other; [reflexivity|]. rewrite (sim_str t t' T). destruct (is_str t') eqn:E; [|exact T]. assert (X : t = t') by (clear - T E; cases T; try discriminate E; reflexivity). rewrite X. apply sim_refl. }
  pose proof (okd_set _ _ _ _ _ O Y) as Y2. clear O Y. hide Y2. eapply bind_rr; [exact (okd_dict _ _ #"default" Y2)|]. intros c c' C. apply fill_default_kind in C. revert C. generalize (fill_default c) as e, (fill_default c') as e'. intros e e' C.
  pose proof (okd_set _ _ #"default" _ _ (other_dict _ _ _ C) Y2) as Y3. clear Y2. hide Y3. eapply bind_rr; [exact (okd_dict _ _ #"rocks" Y3)|]. intros d d' D.
  apply bind_rr with (R := okd); [|intros x y X; cbn [rres]; exact (okd_set _ _ #"rocks" _ _ (other_dict _ _ _ X) Y3)].
  eapply mapM_rr; [exact D|]. intros a b (K & O). eapply bind_rr; [exact (sim_dict _ _ (sim_of _ _ _ O))|]. intros r r' R. cbn [rres fst snd]. split; [exact K|]. apply other_dict. now apply fill_rock_kind.
Qed.
Lemma kinds_same u u' blk : other_kinds u u' -> write_text u blk = write_text u' blk.
Proof. intros H. unfold write_text. destruct (sel_of blk) as [sel|]; [|reflexivity]. eapply bind_r; [exact (prepare_kind u u' H)|]. intros p p' P. now rewrite (buffer_kind p p' sel P). Qed.
