(** Default values may be left out. *)
From Coq Require Import String Ascii ZArith Bool Lia List.
From Verif Require Import Base.Str Base.Digits Base.Flt.
From Verif Require Import Model.Py Model.Records Model.Write.
From Verif Require Import Proofs.DictLemmas Proofs.KnownProof Spec.Defaults.
Import ListNotations.
Local Open Scope nat_scope.

Lemma dset_same k v : forall d, dget k d = Some v -> dset k v d = d.
Proof.
  induction d as [|[a x] d IH]; cbn [dget dset]; [discriminate|]. destruct (key_eqb k a) eqn:E; intros H; [|now rewrite (IH H)]. injection H as ->. apply key_eqb_eq in E as ->. reflexivity.
Qed.
Lemma merge_padded D d d' : padded D d d' -> NoDup (dkeys d') -> forall c, (forall k, In k (dkeys d') -> forall v, dget k D = Some v -> dget k c = Some v) -> dupdate c d = dupdate c d'.
Proof.
  unfold dupdate. intros H. induction H as [|[a x] d d' H IH|k v d d' E H IH]; intros N c C; [reflexivity| |]; unfold dkeys in N; cbn [map fst] in N; inversion N as [|? ? A B]; subst; cbn [fold_left fst snd].
  - apply (IH B). intros k I v E. rewrite dget_dset. destruct (key_eqb k a) eqn:F; [apply key_eqb_eq in F as ->; now contradiction A|]. apply C; [right; exact I|exact E].
  - rewrite dset_same by (apply C; [now left|exact E]). apply (IH B). intros k' I v' E'. apply C; [right; exact I|exact E'].
Qed.
Lemma merge_longer E D d d' : (forall k v, dget k E = Some v -> dget k D = Some v) -> NoDup (dkeys d') -> padded E d d' -> dupdate D d = dupdate D d'.
Proof. intros S1 N P. apply (merge_padded E d d' P N). intros k _ v G. exact (S1 k v G). Qed.
Lemma check_padded t E d d' : forallb (good_entry t) E = true -> padded E d d' -> check_dict t (PDict d) = check_dict t (PDict d').
Proof.
  intros F H. rewrite !check_forallb. assert (X : forallb (good_entry t) d = forallb (good_entry t) d'); [|now rewrite X].
  induction H as [|kv d d' H IH|k v d d' G H IH]; cbn [forallb]; [reflexivity|now rewrite IH|]. apply dget_in in G. rewrite forallb_forall in F. rewrite (F _ G). exact IH.
Qed.
(** What the writer needs to know of two such values. *)
Definition upto (D : dict) (t : dtable) (v w : pyval) : Prop :=
  check_dict t v = check_dict t w /\ is_none v = is_none w /\ rres (fun d d' => dupdate D d = dupdate D d') (as_dict v) (as_dict w).
Lemma upto_longer E D t v w : forallb (good_entry t) E = true -> (forall k x, dget k E = Some x -> dget k D = Some x) -> longer E v w -> upto D t v w.
Proof.
  intros F S1 [->|(d & d' & -> & -> & N & P)]; [repeat split; destruct (as_dict w); reflexivity|]. split; [exact (check_padded t E d d' F P)|]. split; [reflexivity|]. exact (merge_longer E D d d' S1 N P).
Qed.
Definition swd := all_spelled.
Lemma sp_refl k v : spelled k v v.
Proof.
  unfold spelled, longer, rows_of. destruct (table_of k group_defaults); [split; [left; reflexivity|intros _ H; exact H]|]. destruct (table_of k row_defaults); [left; reflexivity|]. destruct (key_eqb k #"selections"); [left|]; reflexivity.
Qed.
Lemma swd_refl d : swd d d.
Proof. induction d as [|a d IH]; constructor; [split; [reflexivity|apply sp_refl]|exact IH]. Qed.
Lemma swd_get d d' k : swd d d' -> rres (spelled k) (dgetE k d) (dgetE k d').
Proof.
  intros H. unfold dgetE. assert (X : match dget k d, dget k d' with Some v, Some w => spelled k v w | None, None => True | _, _ => False end).
  - induction H as [|[a v] [b w] d d' (X & Y) H IH]; cbn [dget]; [exact I|]. cbn [fst snd] in *. subst b. destruct (key_eqb k a) eqn:E; [apply key_eqb_eq in E as ->; exact Y|exact IH].
  - destruct (dget k d), (dget k d'); try contradiction; cbn; auto.
Qed.
Lemma swd_set d d' k v w : spelled k v w -> swd d d' -> swd (dset k v d) (dset k w d').
Proof.
  intros V H. induction H as [|[a x] [b y] d d' (X & Y) H IH]; cbn [dset].
  - constructor; [split; [reflexivity|exact V]|constructor].
  - cbn [fst snd] in *. subst b. destruct (key_eqb k a) eqn:E; [apply key_eqb_eq in E as <-; constructor; [split; [reflexivity|exact V]|exact H]|]. constructor; [split; [reflexivity|exact Y]|exact IH].
Qed.
Lemma swd_update c c' d d' : swd c c' -> swd d d' -> swd (dupdate c d) (dupdate c' d').
Proof.
  unfold dupdate. intros C H. revert c c' C. induction H as [|a b d d' (X & Y) H IH]; intros c c' C; cbn [fold_left]; [exact C|]. apply IH. rewrite <- X. now apply swd_set.
Qed.
Definition plain (k : key) : bool := match table_of k group_defaults, table_of k row_defaults with None, None => negb (key_eqb k #"selections") | _, _ => false end.
Lemma plain_get p p' k : plain k = true -> swd p p' -> dgetE k p = dgetE k p'.
Proof.
  intros P H. apply rres_eq. eapply rres_imp; [|exact (swd_get p p' k H)]. intros v w. unfold plain in P. unfold spelled. destruct (table_of k group_defaults); [discriminate|]. destruct (table_of k row_defaults); [discriminate|].
  apply negb_true_iff in P. rewrite P. auto.
Qed.
Lemma plain_dict p p' k : plain k = true -> swd p p' -> get_dict k p = get_dict k p'.
Proof. intros P H. unfold get_dict. now rewrite (plain_get p p' k P H). Qed.
Lemma plain_at t k ks p p' : plain k = true -> swd p p' -> check_at t k ks p = check_at t k ks p'.
Proof. intros P H. unfold check_at. now rewrite (plain_get p p' k P H). Qed.
Lemma plain_list t k ks p p' : plain k = true -> swd p p' -> check_list t k ks p = check_list t k ks p'.
Proof. intros P H. unfold check_list. now rewrite (plain_get p p' k P H). Qed.
Ltac plains H := match type of H with swd ?p ?p' => repeat first
  [match goal with |- context [dgetE ?k p] => rewrite (plain_get p p' k eq_refl H) end | match goal with |- context [get_dict ?k p] => rewrite (plain_dict p p' k eq_refl H) end
  |match goal with |- context [check_at ?t ?k ?ks p] => rewrite (plain_at t k ks p p' eq_refl H) end | match goal with |- context [check_list ?t ?k ?ks p] => rewrite (plain_list t k ks p p' eq_refl H) end] end.

(** ** Groups *)
Definition sub (E D : dict) : Prop := forall k x, dget k E = Some x -> dget k D = Some x.
Lemma sub_check E D : Forall (fun k => dget k E = dget k D) (dkeys E) -> sub E D.
Proof. intros F k x G. rewrite Forall_forall in F. now rewrite <- (F k (in_map fst _ _ (dget_in _ _ _ G))). Qed.
Ltac sub_table := apply sub_check; vm_compute; repeat (apply Forall_cons; [reflexivity|]); apply Forall_nil.
Lemma sub_options : sub options_defaults d_options. Proof. sub_table. Qed.
Lemma sub_extra : sub (nothing (numbers 24)) d_extra_options. Proof. sub_table. Qed.
Lemma sub_more : sub (nothing (numbers 40)) d_more_options. Proof. sub_table. Qed.
Lemma sub_integers : sub (nothing (numbers 16)) d_integers. Proof. sub_table. Qed.
Lemma sub_solver : sub solver_defaults d_solver. Proof. sub_table. Qed.
Lemma sub_flac : sub flac_defaults d_flac. Proof. sub_table. Qed.
Lemma sub_output : sub (nothing [#"format"; #"variables"]) d_output. Proof. sub_table. Qed.
Lemma sub_generators : sub generators_defaults d_generators. Proof. sub_table. Qed.
Lemma sub_elements : sub elements_defaults d_elements. Proof. sub_table. Qed.
Lemma sub_connections : sub connections_defaults d_connections. Proof. sub_table. Qed.
Lemma sub_initial : sub initial_defaults d_initial_conditions. Proof. sub_table. Qed.
Lemma sub_parameters : sub parameters_defaults d_Parameters. Proof. sub_table. Qed.
Lemma group_upto k E D t p p' : table_of k group_defaults = Some E -> forallb (good_entry t) E = true -> (forall a x, dget a E = Some x -> dget a D = Some x) -> swd p p' -> rres (upto D t) (dgetE k p) (dgetE k p').
Proof.
  intros T F S1 H. eapply rres_imp; [|exact (swd_get p p' k H)]. intros v w X. unfold spelled in X. rewrite T in X. destruct X as [X _]. exact (upto_longer E D t v w F S1 X).
Qed.
Lemma group_check k E t p p' : table_of k group_defaults = Some E -> forallb (good_entry t) E = true -> swd p p' -> check_at t k [] p = check_at t k [] p'.
Proof.
  intros T F H. unfold check_at. eapply bind_r; [exact (group_upto k E E t p p' T F (fun a x y => y) H)|]. intros v w (C & _). cbn [descend bind]. exact C.
Qed.
Lemma group_dict {A} k E D t p p' (f g : dict -> res A) : table_of k group_defaults = Some E -> forallb (good_entry t) E = true -> sub E D -> swd p p' -> (forall d d', dupdate D d = dupdate D d' -> f d = g d') -> bind (get_dict k p) f = bind (get_dict k p') g.
Proof.
  intros T F S1 H X. unfold get_dict. eapply bind_r; [|exact X]. eapply bind_rr; [exact (group_upto k E D t p p' T F S1 H)|]. intros v w (_ & _ & U). exact U.
Qed.
Lemma solvr_def p p' : swd p p' -> write_solvr p = write_solvr p'.
Proof.
  intros H. unfold write_solvr. rewrite (group_check #"solver" solver_defaults dt_SOLVR p p' eq_refl eq_refl H). apply bind_e; [reflexivity|]. intros _. apply block_e.
  apply (group_dict #"solver" solver_defaults d_solver dt_SOLVR p p' _ _ eq_refl eq_refl sub_solver H). intros d d' E. cbv zeta. rewrite E. reflexivity.
Qed.
Lemma momop_def p p' : swd p p' -> write_momop p = write_momop p'.
Proof.
  intros H. unfold write_momop. rewrite (group_check #"more_options" (nothing (numbers 40)) dt_MOMOP p p' eq_refl eq_refl H). apply bind_e; [reflexivity|]. intros _. apply block_e.
  apply (group_dict #"more_options" (nothing (numbers 40)) d_more_options dt_MOMOP p p' _ _ eq_refl eq_refl sub_more H). intros d d' E. rewrite E. reflexivity.
Qed.
Lemma outpu_def p p' : swd p p' -> write_outpu p = write_outpu p'.
Proof.
  intros H. unfold write_outpu. rewrite (group_check #"output" (nothing [#"format"; #"variables"]) dt_OUTPU p p' eq_refl eq_refl H). apply bind_e; [reflexivity|]. intros _. apply block_e.
  apply (group_dict #"output" (nothing [#"format"; #"variables"]) d_output dt_OUTPU p p' _ _ eq_refl eq_refl sub_output H). intros d d' E. cbv zeta. rewrite E. reflexivity.
Qed.
Lemma param_def p p' : swd p p' -> write_param p = write_param p'.
Proof.
  intros H. unfold write_param. rewrite (group_check #"options" options_defaults dt_PARAM p p' eq_refl eq_refl H). apply bind_e; [reflexivity|]. intros _.
  rewrite (group_check #"extra_options" (nothing (numbers 24)) dt_MOP p p' eq_refl eq_refl H). apply bind_e; [reflexivity|]. intros _. apply block_e. plains H.
  apply (group_dict #"options" options_defaults d_options dt_PARAM p p' _ _ eq_refl eq_refl sub_options H). intros d d' E. cbv zeta. rewrite E. apply bind_e; [reflexivity|]. intros ts.
  apply (group_dict #"extra_options" (nothing (numbers 24)) d_extra_options dt_MOP p p' _ _ eq_refl eq_refl sub_extra H). intros e e' F. rewrite F. reflexivity.
Qed.
Lemma rock_order_def p p' d : swd p p' -> rock_order p d = rock_order p' d.
Proof. intros H. unfold rock_order. plains H. reflexivity. Qed.
Lemma flac_def p p' : swd p p' -> write_flac p = write_flac p'.
Proof.
  intros H. unfold write_flac. rewrite (group_check #"flac" flac_defaults dt_FLAC p p' eq_refl eq_refl H). apply bind_e; [reflexivity|]. intros _. plains H. do 4 (apply bind_e; [reflexivity|]; intros _). apply block_e.
  apply (group_dict #"flac" flac_defaults d_flac dt_FLAC p p' _ _ eq_refl eq_refl sub_flac H). intros d d' E. cbv zeta. rewrite E. apply bind_e; [reflexivity|]. intros rocks. rewrite (rock_order_def p p' rocks H). reflexivity.
Qed.

(** ** Tables *)
Lemma upto_refl D t v : upto D t v v.
Proof. repeat split. destruct (as_dict v); reflexivity. Qed.
Lemma rows_imp (R Q : key -> pyval -> pyval -> Prop) v w : (forall k a b, R k a b -> Q k a b) -> rows_of R v w -> rows_of Q v w.
Proof.
  intros I [->|(d & d' & -> & -> & H)]; [now left|]. right. exists d, d'. split; [reflexivity|]. split; [reflexivity|]. induction H as [|a b d d' (X & Y) H IH]; constructor; [split; [exact X|exact (I _ _ _ Y)]|exact IH].
Qed.
Definition rowsd (R : pyval -> pyval -> Prop) (d d' : dict) : Prop := Forall2 (fun a b => fst a = fst b /\ R (snd a) (snd b)) d d'.
Lemma rowsd_refl (R : pyval -> pyval -> Prop) d : (forall v, R v v) -> rowsd R d d.
Proof. intros H. induction d; constructor; auto. Qed.
Lemma rowsd_keys R d d' : rowsd R d d' -> dkeys d = dkeys d'.
Proof. intros H. unfold dkeys. induction H as [|a b d d' (X & _) H IH]; cbn [map]; [reflexivity|]. now rewrite X, IH. Qed.
Lemma rowsd_get R d d' k : rowsd R d d' -> rres R (dgetE k d) (dgetE k d').
Proof.
  intros H. unfold dgetE. assert (X : match dget k d, dget k d' with Some v, Some w => R v w | None, None => True | _, _ => False end).
  - induction H as [|[a v] [b w] d d' (X & Y) H IH]; cbn [dget]; [exact I|]. cbn [fst snd] in *. subst b. destruct (key_eqb k a); [exact Y|exact IH].
  - destruct (dget k d), (dget k d'); try contradiction; cbn; auto.
Qed.
Lemma rows_dict (R : pyval -> pyval -> Prop) v w : (forall v, R v v) -> rows_of (fun _ => R) v w -> rres (rowsd R) (as_dict v) (as_dict w).
Proof. intros X [->|(d & d' & -> & -> & H)]; [destruct (as_dict w); cbn; [now apply rowsd_refl|reflexivity]|exact H]. Qed.
Lemma rows_truth (R : key -> pyval -> pyval -> Prop) v w : rows_of R v w -> truthy v = truthy w.
Proof. intros [->|(d & d' & -> & -> & H)]; [reflexivity|]. destruct H; reflexivity. Qed.
Lemma table_rows k E (R : pyval -> pyval -> Prop) p p' : table_of k group_defaults = None -> table_of k row_defaults = Some E -> (forall v w, longer E v w -> R v w) -> swd p p' ->
  rres (rows_of (fun _ => R)) (dgetE k p) (dgetE k p').
Proof.
  intros G T X H. eapply rres_imp; [|exact (swd_get p p' k H)]. intros v w Y. unfold spelled in Y. rewrite G, T in Y. revert Y. apply rows_imp. intros _. exact X.
Qed.
Lemma table_dict k E (R : pyval -> pyval -> Prop) p p' : table_of k group_defaults = None -> table_of k row_defaults = Some E -> (forall v w, longer E v w -> R v w) -> (forall v, R v v) -> swd p p' ->
  rres (rowsd R) (get_dict k p) (get_dict k p').
Proof. intros G T X F H. unfold get_dict. eapply bind_rr; [exact (table_rows k E R p p' G T X H)|]. intros v w. now apply rows_dict. Qed.
Lemma table_check k E D t p p' : table_of k group_defaults = None -> table_of k row_defaults = Some E -> (forall v w, longer E v w -> upto D t v w) -> swd p p' -> check_list t k [] p = check_list t k [] p'.
Proof.
  intros G T X H. unfold check_list. change (bind (dgetE k p) (fun v => bind (as_dict v) ?f)) with (bind (dgetE k p) (fun v => bind (as_dict v) f)).
  eapply bind_r; [exact (table_rows k E (upto D t) p p' G T X H)|]. intros v w Y. eapply bind_r; [exact (rows_dict _ v w (upto_refl D t) Y)|]. intros d d' F.
  rewrite (mapM_rows _ _ (fun kv => match descend (snd kv) [] with Ok v' => check_dict t v' | Err KeyError => Ok tt | Err e => Err e end) d d' F); [reflexivity|].
  intros x y (_ & C & _). cbn [descend]. exact C.
Qed.
Lemma rows_lookup R d d' k : rowsd R d d' -> rres R (lookup d k) (lookup d' k).
Proof. intros H. unfold lookup. destruct (val_key k); cbn [bind rres]; [|reflexivity]. now apply rowsd_get. Qed.
Lemma rows_merge {A} D t d d' k (f g : dict -> res A) : rowsd (upto D t) d d' -> (forall e e', dupdate D e = dupdate D e' -> f e = g e') -> bind (bind (lookup d k) as_dict) f = bind (bind (lookup d' k) as_dict) g.
Proof. intros H X. eapply bind_r; [|exact X]. eapply bind_rr; [exact (rows_lookup _ d d' k H)|]. intros v w (_ & _ & U). exact U. Qed.
Lemma rows_max R d d' : rowsd R d d' -> max_key_len d = max_key_len d'.
Proof. intros H. unfold max_key_len. now rewrite (rowsd_keys R d d' H). Qed.
Lemma order_def k p p' R d d' : plain k = true -> swd p p' -> rowsd R d d' -> order_of k p d = order_of k p' d'.
Proof. intros P H D. unfold order_of. now rewrite (plain_get p p' k P H), (rowsd_keys R d d' D). Qed.
Lemma up_gener v w : longer generators_defaults v w -> upto d_generators dt_GENER v w.
Proof. apply upto_longer; [reflexivity|exact sub_generators]. Qed.
Lemma up_eleme v w : longer elements_defaults v w -> upto d_elements dt_ELEME v w.
Proof. apply upto_longer; [reflexivity|exact sub_elements]. Qed.
Lemma up_conne v w : longer connections_defaults v w -> upto d_connections dt_CONNE v w.
Proof. apply upto_longer; [reflexivity|exact sub_connections]. Qed.
Lemma up_incon v w : longer initial_defaults v w -> upto d_initial_conditions dt_INCON v w.
Proof. apply upto_longer; [reflexivity|exact sub_initial]. Qed.
Lemma center_same v w : longer elements_defaults v w -> subscript v #"center" = subscript w #"center".
Proof.
  intros [->|(d & d' & -> & -> & _ & H)]; [reflexivity|]. cbn [subscript]. unfold dgetE. assert (X : dget #"center" d = dget #"center" d'); [|now rewrite X].
  induction H as [|[a x] d d' H IH|k v d d' G H IH]; [reflexivity|cbn [dget]; now rewrite IH|]. cbn [dget]. destruct (key_eqb #"center" k) eqn:E; [|exact IH]. apply key_eqb_eq in E as <-. cbn in G. discriminate G.
Qed.
Lemma gener_def p p' : swd p p' -> write_gener p = write_gener p'.
Proof.
  intros H. unfold write_gener. rewrite (table_check #"generators" generators_defaults d_generators dt_GENER p p' eq_refl eq_refl up_gener H). apply bind_e; [reflexivity|]. intros _. apply block_e.
  eapply bind_r; [exact (table_dict #"generators" generators_defaults _ p p' eq_refl eq_refl up_gener (upto_refl _ _) H)|]. intros d d' D. rewrite (rows_max _ d d' D).
  rewrite (mapM_rows _ split_generator split_generator d d' D); [reflexivity|]. intros [k v] [k' w] (K & _ & _ & U). cbn [fst snd] in *. subst k'. unfold split_generator. cbn [fst snd].
  eapply bind_r; [exact U|]. intros e e' E. cbv zeta. rewrite E. reflexivity.
Qed.
Lemma eleme_def p p' : swd p p' -> write_eleme p = write_eleme p'.
Proof.
  intros H. unfold write_eleme. rewrite (table_check #"elements" _ d_elements dt_ELEME p p' eq_refl eq_refl up_eleme H). apply bind_e; [reflexivity|]. intros _. apply block_e.
  eapply bind_r; [exact (table_dict #"elements" _ _ p p' eq_refl eq_refl up_eleme (upto_refl _ _) H)|]. intros d d' D. rewrite (rows_max _ d d' D), (order_def #"elements_order" p p' _ d d' eq_refl H D).
  do 3 (apply bind_e; [reflexivity|]; intros ?). apply concatM_ext. intros k. unfold write_element. apply (rows_merge _ _ d d' k _ _ D). intros e e' E. cbv zeta. rewrite E. reflexivity.
Qed.
Lemma coord_def p p' : swd p p' -> write_coord p = write_coord p'.
Proof.
  intros H. unfold write_coord. apply block_e. eapply bind_r; [exact (table_dict #"elements" _ (fun v w => subscript v #"center" = subscript w #"center") p p' eq_refl eq_refl center_same (fun v => eq_refl) H)|]. intros d d' D.
  rewrite (order_def #"elements_order" p p' _ d d' eq_refl H D). apply bind_e; [reflexivity|]. intros order. apply concatM_ext. intros k. eapply bind_r; [exact (rows_lookup _ d d' k D)|]. intros v w E. cbv beta in E. rewrite E. reflexivity.
Qed.
Lemma conne_def p p' : swd p p' -> write_conne p = write_conne p'.
Proof.
  intros H. unfold write_conne. rewrite (table_check #"connections" connections_defaults d_connections dt_CONNE p p' eq_refl eq_refl up_conne H). apply bind_e; [reflexivity|]. intros _. apply block_e.
  eapply bind_r; [exact (table_dict #"connections" _ _ p p' eq_refl eq_refl up_conne (upto_refl _ _) H)|]. intros d d' D. rewrite (rows_max _ d d' D), (order_def #"connections_order" p p' _ d d' eq_refl H D).
  do 3 (apply bind_e; [reflexivity|]; intros ?). apply concatM_ext. intros k. unfold write_connection. apply (rows_merge _ _ d d' k _ _ D). intros e e' E. cbv zeta. rewrite E. reflexivity.
Qed.
Lemma incon_def p p' : swd p p' -> write_incon p = write_incon p'.
Proof.
  intros H. unfold write_incon. rewrite (table_check #"initial_conditions" initial_defaults d_initial_conditions dt_INCON p p' eq_refl eq_refl up_incon H). apply bind_e; [reflexivity|]. intros _. apply block_e.
  eapply bind_r; [exact (table_dict #"initial_conditions" _ _ p p' eq_refl eq_refl up_incon (upto_refl _ _) H)|]. intros d d' D. rewrite (rows_max _ d d' D), (order_def #"initial_conditions_order" p p' _ d d' eq_refl H D).
  do 3 (apply bind_e; [reflexivity|]; intros ?). apply concatM_ext. intros k. unfold write_initial. apply (rows_merge _ _ d d' k _ _ D). intros e e' E. cbv zeta. rewrite E. reflexivity.
Qed.

(** ** Selections *)
Definition sel_rel (k : key) (v w : pyval) : Prop := (if key_eqb k #"integers" then longer (nothing (numbers 16)) else eq) v w.
Lemma sel_rows p p' : swd p p' -> rres (rows_of sel_rel) (dgetE #"selections" p) (dgetE #"selections" p').
Proof. intros H. exact (swd_get p p' #"selections" H). Qed.
Lemma sel_refl k v : sel_rel k v v.
Proof. unfold sel_rel. destruct (key_eqb k #"integers"); [left|]; reflexivity. Qed.
Lemma sel_check v w : rows_of sel_rel v w -> check_dict dt_SELEC v = check_dict dt_SELEC w.
Proof.
  intros [->|(d & d' & -> & -> & H)]; [reflexivity|]. unfold check_dict. cbn [as_dict bind]. rewrite (mapM_rows _ (check_entry dt_SELEC) (check_entry dt_SELEC) d d' H); [reflexivity|].
  intros [k x] [k' y] (K & X). cbn [fst snd] in *. subst k'. unfold sel_rel in X. destruct (key_eqb k #"integers") eqn:E; [|now subst y]. apply key_eqb_eq in E as ->.
  destruct X as [->|(e & e' & -> & -> & _)]; reflexivity.
Qed.
Lemma sel_get d d' k : Forall2 (fun a b => fst a = fst b /\ sel_rel (fst a) (snd a) (snd b)) d d' -> rres (sel_rel k) (dgetE k d) (dgetE k d').
Proof.
  intros H. unfold dgetE. assert (X : match dget k d, dget k d' with Some v, Some w => sel_rel k v w | None, None => True | _, _ => False end).
  - induction H as [|[a v] [b w] d d' (X & Y) H IH]; cbn [dget]; [exact I|]. cbn [fst snd] in *. subst b. destruct (key_eqb k a) eqn:E; [apply key_eqb_eq in E as ->; exact Y|exact IH].
  - destruct (dget k d), (dget k d'); try contradiction; cbn; auto.
Qed.
Lemma ints_same {A} v w (f g : dict -> res A) : longer (nothing (numbers 16)) v w -> (forall d, f d = g d) ->
  (let* t := truthy v in let* ints := (if t then let* d := as_dict v in Ok (dupdate d_integers d) else Ok d_integers) in f ints) =
  (let* t := truthy w in let* ints := (if t then let* d := as_dict w in Ok (dupdate d_integers d) else Ok d_integers) in g ints).
Proof.
  intros [->|(d & d' & -> & -> & N & P)] X; [apply bind_e; [reflexivity|]; intros t; apply bind_e; [reflexivity|exact X]|].
  assert (Y : forall e, (let* t := truthy (PDict e) in let* ints := (if t then let* d := as_dict (PDict e) in Ok (dupdate d_integers d) else Ok d_integers) in f ints) = f (dupdate d_integers e)) by (intros [|? ?]; reflexivity).
  assert (Z : forall e, (let* t := truthy (PDict e) in let* ints := (if t then let* d := as_dict (PDict e) in Ok (dupdate d_integers d) else Ok d_integers) in g ints) = g (dupdate d_integers e)) by (intros [|? ?]; reflexivity).
  rewrite Y, Z, (merge_longer (nothing (numbers 16)) d_integers d d' (fun k v e => e) N P). apply X.
Qed.
Lemma selec_def p p' : swd p p' -> write_selec p = write_selec p'.
Proof.
  intros H. unfold write_selec, check_at, get_dict. apply bind_e.
  - eapply bind_r; [exact (sel_rows p p' H)|]. intros v w X. cbn [descend bind]. exact (sel_check v w X).
  - intros _. apply block_e. apply bind_r with (R := fun d d' => Forall2 (fun a b => fst a = fst b /\ sel_rel (fst a) (snd a) (snd b)) d d').
    + eapply bind_rr; [exact (sel_rows p p' H)|]. intros v w [->|(d & d' & -> & -> & X)]; [|exact X]. destruct (as_dict w) as [d|e]; cbn [rres]; [|reflexivity]. induction d; constructor; auto using sel_refl.
    + intros d d' D. eapply bind_r; [exact (sel_get d d' #"integers" D)|]. intros v w X. apply (ints_same v w _ _ X). intros ints. eapply bind_r; [exact (sel_get d d' #"floats" D)|]. intros x y Y. change (x = y) in Y. subst y. reflexivity.
Qed.

(** ** The file *)
Lemma group_truth k D p p' : table_of k group_defaults = Some D -> In k [#"more_options"; #"solver"; #"output"] -> swd p p' -> rres (fun v w => truthy v = truthy w) (dgetE k p) (dgetE k p').
Proof.
  intros T I H. eapply rres_imp; [|exact (swd_get p p' k H)]. intros v w X. unfold spelled in X. rewrite T in X. destruct X as [[->|(d & d' & -> & -> & _ & P)] E]; [reflexivity|]. specialize (E I).
  destruct d as [|a d]; [specialize (E eq_refl); injection E as ->; reflexivity|]. inversion P; subst; reflexivity.
Qed.
Lemma true_group k D f p p' : table_of k group_defaults = Some D -> In k [#"more_options"; #"solver"; #"output"] -> swd p p' -> f p = f p' -> if_true k f p = if_true k f p'.
Proof. intros T I H E. unfold if_true. eapply bind_r; [exact (group_truth k D p p' T I H)|]. intros v w X. cbv beta in X. now rewrite X, E. Qed.
Lemma true_table k E f p p' : table_of k group_defaults = None -> table_of k row_defaults = Some E -> swd p p' -> f p = f p' -> if_true k f p = if_true k f p'.
Proof.
  intros G T H F. unfold if_true. eapply bind_r; [exact (table_rows k E (longer E) p p' G T (fun v w x => x) H)|]. intros v w X. now rewrite (rows_truth _ v w X), F.
Qed.
Lemma true_sel f p p' : swd p p' -> f p = f p' -> if_true #"selections" f p = if_true #"selections" f p'.
Proof. intros H F. unfold if_true. eapply bind_r; [exact (sel_rows p p' H)|]. intros v w X. now rewrite (rows_truth _ v w X), F. Qed.
Lemma true_plain k f p p' : plain k = true -> swd p p' -> f p = f p' -> if_true k f p = if_true k f p'.
Proof. intros P H E. unfold if_true. now rewrite (plain_get p p' k P H), E. Qed.
Lemma some_plain k f p p' : plain k = true -> swd p p' -> f p = f p' -> if_some k f p = if_some k f p'.
Proof. intros P H E. unfold if_some. now rewrite (plain_get p p' k P H), E. Qed.
Lemma some_flac f p p' : swd p p' -> f p = f p' -> if_some #"flac" f p = if_some #"flac" f p'.
Proof.
  intros H E. unfold if_some. eapply bind_r; [exact (group_upto #"flac" flac_defaults d_flac dt_FLAC p p' eq_refl eq_refl sub_flac H)|]. intros v w (_ & N & _). unfold not_none. now rewrite N, E.
Qed.
Lemma rocks_def p p' : swd p p' -> rres (fun a b => fst a = fst b /\ swd (snd a) (snd b)) (write_rocks p) (write_rocks p').
Proof.
  intros H. unfold write_rocks. plains H.
  repeat (apply bind_rr with (R := eq); [match goal with |- rres _ ?x _ => destruct x; reflexivity end|intros ? ? <-]).
  apply bind_rr with (R := fun a b => fst a = fst b /\ swd (snd a) (snd b)).
  - match goal with |- context [is_none ?o] => destruct (is_none o); [cbn [rres fst snd]; auto|] end. 
    apply bind_rr with (R := eq); [match goal with |- rres _ ?x _ => destruct x; reflexivity end|]. intros e ? <-. destruct (py_iter e); cbn [bind rres fst snd]; [|reflexivity]. split; [reflexivity|]. apply swd_set; [apply sp_refl|exact H].
  - intros [l q] [l' q'] (E & X). cbn [fst snd] in *. subst l'.
    apply bind_rr with (R := eq); [match goal with |- rres _ ?x _ => destruct x; reflexivity end|]. intros x ? <-. cbn [rres fst snd]. auto.
Qed.
Lemma check_swd p p' : swd p p' -> check_dict dt_PARAMETERS (PDict p) = check_dict dt_PARAMETERS (PDict p').
Proof.
  intros H. unfold check_dict. cbn [as_dict bind]. rewrite (mapM_rows _ (check_entry dt_PARAMETERS) (check_entry dt_PARAMETERS) p p' H); [reflexivity|].
  intros [k v] [k' w] (K & X). cbn [fst snd] in *. subst k'. assert (Y : v = w \/ exists d d', v = PDict d /\ w = PDict d').
  { unfold spelled in X. destruct (table_of k group_defaults); [destruct X as [[->|(e & e' & -> & -> & _)] _]; [now left|right; eauto]|].
    destruct (table_of k row_defaults); [destruct X as [->|(e & e' & -> & -> & _)]; [now left|right; eauto]|]. destruct (key_eqb k #"selections"); [destruct X as [->|(e & e' & -> & -> & _)]; [now left|right; eauto]|now left]. }
  destruct Y as [->|(d & d' & -> & ->)]; [reflexivity|]. unfold check_entry. cbn [fst snd is_none]. destruct (tget k dt_PARAMETERS) as [[]|]; reflexivity.
Qed.
Lemma buffer_def p p' sel : swd p p' -> write_buffer p sel = write_buffer p' sel.
Proof.
  intros H. unfold write_buffer. rewrite (check_swd p p' H). plains H. cbv zeta. do 13 (apply bind_e; [reflexivity|]; intros ?).
  apply bind_r with (R := fun a b => fst a = fst b /\ swd (snd a) (snd b)).
  - destruct sel; try (split; [reflexivity|exact H]). replace (write_title p) with (write_title p') by (unfold write_title; plains H; reflexivity).
    apply bind_rr with (R := eq); [destruct (write_title p'); reflexivity|]. intros o0 ? <-.
    eapply bind_rr; [exact (rocks_def p p' H)|]. intros [o1 q] [o1' q'] (E & X). cbn [fst snd] in *. subst o1'.
    replace (write_rpcap q) with (write_rpcap q') by (unfold write_rpcap; plains X; reflexivity). replace (write_multi q) with (write_multi q') by (unfold write_multi; plains X; reflexivity).
    replace (write_indom q) with (write_indom q') by (unfold write_indom, rock_order; plains X; reflexivity). rewrite (param_def q q' X).
    assert (O : forall kw k f, plain k = true -> write_oft kw k f q = write_oft kw k f q') by (intros kw k f P; unfold write_oft; now rewrite (plain_get q q' k P X)).
    assert (T : write_times q = write_times q') by (unfold write_times; plains X; reflexivity).
    rewrite (some_flac write_flac q q' X (flac_def q q' X)), (true_group #"solver" solver_defaults write_solvr q q' eq_refl (or_intror (or_introl eq_refl)) X (solvr_def q q' X)),
      (true_plain #"start" (fun _ => write_start) q q' eq_refl X eq_refl), (true_sel write_selec q q' X (selec_def q q' X)),
      (true_group #"more_options" _ write_momop q q' eq_refl (or_introl eq_refl) X (momop_def q q' X)), (some_plain #"times" write_times q q' eq_refl X T),
      (some_plain #"element_history" write_foft q q' eq_refl X (O _ #"element_history" _ eq_refl)), (some_plain #"connection_history" write_coft q q' eq_refl X (O _ #"connection_history" _ eq_refl)),
      (some_plain #"generator_history" write_goft q q' eq_refl X (O _ #"generator_history" _ eq_refl)).
    repeat (apply bind_rr with (R := eq); [match goal with |- rres _ ?x _ => destruct x; reflexivity end|intros ? ? <-]). cbn [rres fst snd]. auto.
  - intros [o q] [o' q'] (E & X). cbn [fst snd] in *. subst o'.
    assert (T : write_diffu q = write_diffu q') by (unfold write_diffu; plains X; reflexivity).
    rewrite (true_table #"generators" _ write_gener q q' eq_refl eq_refl X (gener_def q q' X)), (some_plain #"diffusion" write_diffu q q' eq_refl X T),
      (true_group #"output" _ write_outpu q q' eq_refl (or_intror (or_intror (or_introl eq_refl))) X (outpu_def q q' X)),
      (true_table #"elements" _ write_eleme q q' eq_refl eq_refl X (eleme_def q q' X)), (true_plain #"coordinates" write_coord q q' eq_refl X (coord_def q q' X)), (true_table #"connections" _ write_conne q q' eq_refl eq_refl X (conne_def q q' X)),
      (true_table #"initial_conditions" _ write_incon q q' eq_refl eq_refl X (incon_def q q' X)), (true_plain #"nover" (fun _ => write_nover) q q' eq_refl X eq_refl). reflexivity.
Qed.
Lemma prepare_def u u' : swd u u' -> rres swd (prepare u) (prepare u').
Proof.
  intros H. unfold prepare. cbv zeta. pose proof (swd_update _ _ _ _ (swd_refl d_Parameters) H) as Y. revert Y. generalize (dupdate d_Parameters u) as a, (dupdate d_Parameters u') as b. intros a b Y. plains Y.
  apply bind_rr with (R := eq); [match goal with |- rres _ ?x _ => destruct x; reflexivity end|]. intros t ? <-.
  pose proof (swd_set _ _ #"title" _ _ (sp_refl _ (if is_str t then PSeq SList [t] else t)) Y) as Y2. revert Y2. generalize (dset #"title" (if is_str t then PSeq SList [t] else t) a) as a2, (dset #"title" (if is_str t then PSeq SList [t] else t) b) as b2. intros a2 b2 Y2. plains Y2.
  apply bind_rr with (R := eq); [match goal with |- rres _ ?x _ => destruct x; reflexivity end|]. intros def ? <-.
  pose proof (swd_set _ _ #"default" _ _ (sp_refl _ (PDict (fill_default def))) Y2) as Y3. revert Y3. generalize (dset #"default" (PDict (fill_default def)) a2) as a3, (dset #"default" (PDict (fill_default def)) b2) as b3. intros a3 b3 Y3. plains Y3.
  do 2 (apply bind_rr with (R := eq); [match goal with |- rres _ ?x _ => destruct x; reflexivity end|]; intros ? ? <-). cbn [rres]. apply swd_set; [apply sp_refl|exact Y3].
Qed.
Lemma spelled_same u u' blk : all_spelled u u' -> write_text u blk = write_text u' blk.
Proof. intros H. unfold write_text. destruct (sel_of blk) as [sel|]; [|reflexivity]. eapply bind_r; [exact (prepare_def u u' H)|]. intros p p' P. now rewrite (buffer_def p p' sel P). Qed.
Lemma top_same u u' blk : NoDup (dkeys u') -> padded parameters_defaults u u' -> write_text u blk = write_text u' blk.
Proof. intros N P. unfold write_text, prepare. rewrite (merge_longer parameters_defaults d_Parameters u u' sub_parameters N P). reflexivity. Qed.
