(** The order of the rocks does not matter when rocks_order names them all. *)
From Coq Require Import String Ascii Arith ZArith Bool Lia Permutation List.
From Verif Require Import Base.Str Base.Digits Base.Flt.
From Verif Require Import Model.Py Model.Records Model.Write.
From Verif Require Import Proofs.DictLemmas Proofs.KnownProof Proofs.TableOrderProof Spec.RockOrder.
Import ListNotations.
Local Open Scope nat_scope.

Definition lel {A B} (R : A -> B -> Prop) (x : res A) (y : res B) : Prop := forall a, x = Ok a -> exists b, y = Ok b /\ R a b.
Lemma bind_lel {A B C} (R : A -> B -> Prop) x y (f : A -> res C) (g : B -> res C) : lel R x y -> (forall a b, R a b -> le (f a) (g b)) -> le (bind x f) (bind y g).
Proof. intros H K c. destruct x as [a|]; cbn [bind]; [|discriminate]. destruct (H a eq_refl) as (b & -> & Q). cbn [bind]. now apply K. Qed.
Lemma bind_lelR {A B C D} (R : A -> B -> Prop) (Q : C -> D -> Prop) x y (f : A -> res C) (g : B -> res D) : lel R x y -> (forall a b, R a b -> lel Q (f a) (g b)) -> lel Q (bind x f) (bind y g).
Proof. intros H K c. destruct x as [a|]; cbn [bind]; [|discriminate]. destruct (H a eq_refl) as (b & -> & X). cbn [bind]. now apply K. Qed.
Lemma le_lel {A} (x y : res A) : le x y -> lel eq x y. Proof. intros H a E. exists a. auto. Qed.
Lemma lel_le {A} (x y : res A) : lel eq x y -> le x y. Proof. intros H a E. destruct (H a E) as (b & -> & ->). reflexivity. Qed.

Lemma extend_all l : forall d, names_all l d -> extend_order (PSeq SList l) d = Ok (PSeq SList l).
Proof.
  intros d. unfold extend_order, names_all. generalize (dkeys d) as ks. intros ks H. induction ks as [|k ks IH]; [reflexivity|]. cbn [foldM]. destruct (H k (or_introl eq_refl)) as (s & -> & I). cbn [key_val].
  assert (X : existsb (simple_eqb (PStr s)) l = true) by (apply existsb_exists; exists (PStr s); split; [exact I|apply streqb_refl]). rewrite X. cbn [bind]. apply IH. intros k K. apply H. now right.
Qed.
Lemma names_perm l d d' : Permutation d d' -> names_all l d -> names_all l d'.
Proof. intros P H k K. apply H. apply (Permutation_in _ (Permutation_sym (perm_keys d d' P)) K). Qed.
Lemma flag_perm d d' : Permutation d d' -> Forall (fun kv => rock_like (snd kv)) d -> indom_flag d = indom_flag d'.
Proof.
  intros P F. set (g := fun kv : key * pyval => match snd kv with PDict r => match dget #"initial_condition" r with Some (PSeq _ l) => existsb not_none (firstn 4 l) | _ => false end | _ => false end).
  assert (X : forall e, Forall (fun kv => rock_like (snd kv)) e -> indom_flag e = Ok (existsb g e)).
  { intros e H. unfold indom_flag. induction H as [|[k v] e (r & E & I) H IH]; [reflexivity|]. cbn [anyM existsb]. cbn [snd] in *. subst v. unfold g at 1. cbn [snd as_dict bind].
    destruct (dget #"initial_condition" r) as [[]|]; try contradiction; cbn [slice_to py_iter bind orb]; [|exact IH]. destruct (existsb not_none (firstn 4 l)); [reflexivity|exact IH]. }
  rewrite (X d F), (X d') by (eapply Permutation_Forall; eassumption). f_equal. apply eq_true_iff_eq. rewrite !existsb_exists. split; intros (x & I & T); exists x; (split; [|exact T]); [exact (Permutation_in _ P I)|exact (Permutation_in _ (Permutation_sym P) I)].
Qed.

Definition rdiff (k : key) (v w : pyval) : Prop := v = w \/ (k = #"rocks" /\ exists d d', v = PDict d /\ w = PDict d').
Definition ready (d d' : dict) (l : list pyval) : Prop := NoDup (dkeys d) /\ Permutation d d' /\ Forall (fun kv => rock_like (snd kv)) d /\ names_all l d.
Definition ror (p p' : dict) : Prop :=
  Forall2 (fun a b => fst a = fst b /\ rdiff (fst a) (snd a) (snd b)) p p' /\
  exists d d' l, dgetE #"rocks" p = Ok (PDict d) /\ dgetE #"rocks" p' = Ok (PDict d') /\ dgetE #"rocks_order" p = Ok (PSeq SList l) /\ ready d d' l.
Definition plain (k : key) : bool := negb (key_eqb k #"rocks").
Lemma plain_get p p' k : plain k = true -> ror p p' -> dgetE k p = dgetE k p'.
Proof.
  intros P (H & _). unfold dgetE. assert (X : dget k p = dget k p'); [|now rewrite X]. induction H as [|[a v] [b w] d d' (X & Y) H IH]; cbn [dget]; [reflexivity|]. cbn [fst snd] in *. subst b. destruct (key_eqb k a) eqn:E; [|exact IH].
  apply key_eqb_eq in E as <-. destruct Y as [->|(-> & _)]; [reflexivity|discriminate P].
Qed.
Lemma plain_dict p p' k : plain k = true -> ror p p' -> get_dict k p = get_dict k p'.
Proof. intros P H. unfold get_dict. now rewrite (plain_get p p' k P H). Qed.
Lemma plain_at t k ks p p' : plain k = true -> ror p p' -> check_at t k ks p = check_at t k ks p'.
Proof. intros P H. unfold check_at. now rewrite (plain_get p p' k P H). Qed.
Lemma plain_list t k ks p p' : plain k = true -> ror p p' -> check_list t k ks p = check_list t k ks p'.
Proof. intros P H. unfold check_list. now rewrite (plain_get p p' k P H). Qed.
Ltac plains H := match type of H with ror ?p ?p' => repeat first
  [match goal with |- context [dgetE ?k p] => rewrite (plain_get p p' k eq_refl H) end | match goal with |- context [get_dict ?k p] => rewrite (plain_dict p p' k eq_refl H) end
  |match goal with |- context [check_at ?t ?k ?ks p] => rewrite (plain_at t k ks p p' eq_refl H) end | match goal with |- context [check_list ?t ?k ?ks p] => rewrite (plain_list t k ks p p' eq_refl H) end] end.
Lemma rdiff_set k v w p p' : rdiff k v w -> Forall2 (fun a b => fst a = fst b /\ rdiff (fst a) (snd a) (snd b)) p p' -> Forall2 (fun a b => fst a = fst b /\ rdiff (fst a) (snd a) (snd b)) (dset k v p) (dset k w p').
Proof.
  intros V H. induction H as [|[a x] [b y] d d' (X & Y) H IH]; cbn [dset]; [constructor; [split; [reflexivity|exact V]|constructor]|]. cbn [fst snd] in *. subst b. destruct (key_eqb k a) eqn:E; constructor; auto.
  split; [reflexivity|]. cbn [fst snd]. apply key_eqb_eq in E as <-. exact V.
Qed.
Lemma check_rocks t ks p p' : ror p p' -> le (check_list t #"rocks" ks p) (check_list t #"rocks" ks p').
Proof.
  intros (_ & d & d' & l & E & E' & _ & _ & P & _) a. unfold check_list. rewrite E, E'. cbn [bind as_dict]. destruct (mapM _ d) as [m|] eqn:M; cbn [bind]; [|discriminate]. destruct (mapM_perm _ _ _ P m M) as (m' & M' & _). intros H. cbv beta in *. rewrite M'. exact H.
Qed.
Lemma order_rocks p p' d d' l : ror p p' -> dgetE #"rocks_order" p = Ok (PSeq SList l) -> ready d d' l -> rock_order p d = rock_order p' d'.
Proof.
  intros H O (_ & P & _ & N). unfold rock_order. rewrite <- (plain_get p p' #"rocks_order" eq_refl H), O. cbn [bind]. destruct (truthy (PSeq SList l)) as [[]|] eqn:T; cbn [bind]; [|f_equal|reflexivity].
  - rewrite (extend_all l d N), (extend_all l d' (names_perm l d d' P N)). reflexivity.
  - assert (X : d = []).
    { destruct d as [|[k v] d]; [reflexivity|]. destruct (N k (or_introl eq_refl)) as (s & _ & I). destruct l as [|x l]; [destruct I|discriminate T]. }
    subst d. apply Permutation_nil in P as ->. reflexivity.
Qed.
Lemma rocks_ror p p' : ror p p' -> lel (fun a b => fst a = fst b /\ ror (snd a) (snd b)) (write_rocks p) (write_rocks p').
Proof.
  intros H. unfold write_rocks. plains H. apply bind_lelR with (R := eq); [apply le_lel, le_eq; reflexivity|]. intros ? ? <-.
  do 3 (apply bind_lelR with (R := eq); [apply le_lel, check_rocks, H|]; intros ? ? <-). pose proof (plain_get p p' #"rocks_order" eq_refl H) as EO.
  pose proof H as (F & d & d' & l & E & E' & O & R). rewrite <- EO, O. unfold get_dict. rewrite E, E'. cbn [bind as_dict is_none]. pose proof R as (N & P & I & A). rewrite (extend_all l d A), (extend_all l d' (names_perm l d d' P A)). cbn [bind py_iter].
  rewrite (concatM_ext (write_rock d) (write_rock d') l) by (intros k; unfold write_rock; now rewrite (perm_lookup d d' k N P)).
  apply bind_lelR with (R := eq); [apply le_lel, le_eq; reflexivity|]. intros x ? <-. intros y Y. injection Y as <-. eexists. split; [reflexivity|]. cbn [fst snd]. split; [reflexivity|].
  split; [apply rdiff_set; [now left|exact F]|]. exists d, d', l. unfold dgetE in *. rewrite !dget_dset. split; [exact E|]. split; [exact E'|]. split; [reflexivity|exact R].
Qed.
Lemma flac_ror p p' : ror p p' -> le (write_flac p) (write_flac p').
Proof.
  intros H. unfold write_flac. plains H. do 3 (apply bind_e_le; [reflexivity|]; intros _). do 2 (apply bind_le; [now apply check_rocks|]; intros _). apply block_le.
  pose proof H as (F & d & d' & l & E & E' & O & R). apply bind_e_le; [reflexivity|]. intros fl. cbv zeta. unfold get_dict at 1 3. rewrite E, E'. cbn [bind as_dict]. rewrite (order_rocks p p' d d' l H O R). apply le_eq. apply bind_e; [reflexivity|]. intros order.
  do 6 (apply bind_e; [reflexivity|]; intros ?). apply bind_e; [|reflexivity]. apply concatM_ext. intros k. unfold write_flac_rock. destruct R as (N & P & _). now rewrite (perm_lookup d d' k N P).
Qed.
Lemma indom_ror p p' : ror p p' -> write_indom p = write_indom p'.
Proof.
  intros H. pose proof H as (F & d & d' & l & E & E' & O & R). unfold write_indom. apply block_e. unfold get_dict. rewrite E, E'. cbn [bind as_dict]. rewrite (order_rocks p p' d d' l H O R). apply bind_e; [reflexivity|]. intros order.
  apply concatM_ext. intros k. unfold write_indom_rock. destruct R as (N & P & _). now rewrite (perm_lookup d d' k N P).
Qed.
Lemma true_plain k f p p' : plain k = true -> ror p p' -> f p = f p' -> if_true k f p = if_true k f p'.
Proof. intros P H E. unfold if_true. now rewrite (plain_get p p' k P H), E. Qed.
Lemma some_plain k f p p' : plain k = true -> ror p p' -> f p = f p' -> if_some k f p = if_some k f p'.
Proof. intros P H E. unfold if_some. now rewrite (plain_get p p' k P H), E. Qed.
Lemma some_le k f p p' : plain k = true -> ror p p' -> le (f p) (f p') -> le (if_some k f p) (if_some k f p').
Proof. intros P H E. unfold if_some. rewrite (plain_get p p' k P H). apply bind_e_le; [reflexivity|]. intros v. unfold when. destruct (not_none v); [exact E|now apply le_eq]. Qed.
Lemma check_ror p p' : ror p p' -> check_dict dt_PARAMETERS (PDict p) = check_dict dt_PARAMETERS (PDict p').
Proof.
  intros (H & _). unfold check_dict. cbn [as_dict bind]. rewrite (mapM_rows _ (check_entry dt_PARAMETERS) (check_entry dt_PARAMETERS) p p' H); [reflexivity|].
  intros [k v] [k' w] (K & X). cbn [fst snd] in *. subst k'. destruct X as [->|(_ & d & d' & -> & ->)]; [reflexivity|]. unfold check_entry. cbn [fst snd is_none]. destruct (tget k dt_PARAMETERS) as [[]|]; reflexivity.
Qed.
Lemma buffer_ror p p' sel : ror p p' -> le (write_buffer p sel) (write_buffer p' sel).
Proof.
  intros H. unfold write_buffer. rewrite (check_ror p p' H). plains H. cbv zeta. do 7 (apply bind_e_le; [reflexivity|]; intros ?).
  pose proof H as (F & d & d' & l & E & E' & O & R). unfold get_dict at 1 2. rewrite E, E'. cbn [bind as_dict]. rewrite (flag_perm d d') by (destruct R as (_ & P & I & _); assumption). clear F E E' O R.
  do 5 (apply bind_e_le; [reflexivity|]; intros ?).
  apply bind_lel with (R := fun a b => fst a = fst b /\ ror (snd a) (snd b)).
  - destruct sel; cbv iota; try (intros zz ZZ; injection ZZ as <-; eexists; split; [reflexivity|]; split; [reflexivity|exact H]). replace (write_title p) with (write_title p') by (unfold write_title; plains H; reflexivity).
    apply bind_lelR with (R := eq); [apply le_lel, le_eq; reflexivity|]. intros o0 ? <-.
    eapply bind_lelR; [exact (rocks_ror p p' H)|]. intros [o1 q] [o1' q'] (E & X). cbn [fst snd] in *. subst o1'.
    replace (write_rpcap q) with (write_rpcap q') by (unfold write_rpcap; plains X; reflexivity). replace (write_multi q) with (write_multi q') by (unfold write_multi; plains X; reflexivity).
    rewrite (indom_ror q q' X). replace (write_param q) with (write_param q') by (unfold write_param; plains X; reflexivity).
    assert (O : forall kw k f, plain k = true -> write_oft kw k f q = write_oft kw k f q') by (intros kw k f P; unfold write_oft; now rewrite (plain_get q q' k P X)).
    assert (T : write_times q = write_times q') by (unfold write_times; plains X; reflexivity). assert (SO : write_solvr q = write_solvr q') by (unfold write_solvr; plains X; reflexivity).
    assert (SE : write_selec q = write_selec q') by (unfold write_selec; plains X; reflexivity). assert (MO : write_momop q = write_momop q') by (unfold write_momop; plains X; reflexivity).
    rewrite (true_plain #"solver" write_solvr q q' eq_refl X SO),
      (true_plain #"start" (fun _ => write_start) q q' eq_refl X eq_refl), (true_plain #"selections" write_selec q q' eq_refl X SE),
      (true_plain #"more_options" write_momop q q' eq_refl X MO), (some_plain #"times" write_times q q' eq_refl X T),
      (some_plain #"element_history" write_foft q q' eq_refl X (O _ #"element_history" _ eq_refl)), (some_plain #"connection_history" write_coft q q' eq_refl X (O _ #"connection_history" _ eq_refl)),
      (some_plain #"generator_history" write_goft q q' eq_refl X (O _ #"generator_history" _ eq_refl)).
    pose proof (some_le #"flac" write_flac q q' eq_refl X (flac_ror q q' X)) as L.
    apply bind_lelR with (R := eq); [apply le_lel, le_eq; reflexivity|]. intros ? ? <-. apply bind_lelR with (R := eq); [exact (le_lel _ _ L)|]. intros ? ? <-.
    do 11 (apply bind_lelR with (R := eq); [apply le_lel, le_eq; reflexivity|]; intros ? ? <-). intros y Y. injection Y as <-. eexists. split; [reflexivity|]. cbn [fst snd]. auto.
  - intros [o q] [o' q'] (E & X). cbn [fst snd] in *. subst o'. apply le_eq.
    assert (T : write_diffu q = write_diffu q') by (unfold write_diffu; plains X; reflexivity). assert (G : write_gener q = write_gener q') by (unfold write_gener; plains X; reflexivity).
    assert (U : write_outpu q = write_outpu q') by (unfold write_outpu; plains X; reflexivity). assert (EL : write_eleme q = write_eleme q') by (unfold write_eleme, order_of; plains X; reflexivity).
    assert (CO : write_coord q = write_coord q') by (unfold write_coord, order_of; plains X; reflexivity). assert (CN : write_conne q = write_conne q') by (unfold write_conne, order_of; plains X; reflexivity).
    assert (IN : write_incon q = write_incon q') by (unfold write_incon, order_of; plains X; reflexivity).
    rewrite (true_plain #"generators" write_gener q q' eq_refl X G), (some_plain #"diffusion" write_diffu q q' eq_refl X T), (true_plain #"output" write_outpu q q' eq_refl X U), (true_plain #"elements" write_eleme q q' eq_refl X EL),
      (true_plain #"coordinates" write_coord q q' eq_refl X CO), (true_plain #"connections" write_conne q q' eq_refl X CN), (true_plain #"initial_conditions" write_incon q q' eq_refl X IN), (true_plain #"nover" (fun _ => write_nover) q q' eq_refl X eq_refl).
    reflexivity.
Qed.

(** ** Before the blocks *)
Lemma ror_set p p' k v : plain k && negb (key_eqb k #"rocks_order") = true -> ror p p' -> ror (dset k v p) (dset k v p').
Proof.
  intros T (F & d & d' & l & E & E' & O & R). apply andb_true_iff in T as [T1 T2]. unfold plain in T1. apply negb_true_iff in T1, T2. split; [apply rdiff_set; [now left|exact F]|]. exists d, d', l. unfold dgetE in *. rewrite !dget_dset.
  assert (S1 : key_eqb #"rocks" k = false) by (destruct (key_eqb #"rocks" k) eqn:X; [apply key_eqb_eq in X as <-; discriminate T1|reflexivity]).
  assert (S2 : key_eqb #"rocks_order" k = false) by (destruct (key_eqb #"rocks_order" k) eqn:X; [apply key_eqb_eq in X as <-; discriminate T2|reflexivity]). rewrite S1, S2. auto.
Qed.
Lemma mapM_f2 {A B} (f : A -> res B) l : forall y, mapM f l = Ok y -> Forall2 (fun a b => f a = Ok b) l y.
Proof.
  induction l as [|a l IH]; intros y; cbn [mapM]; [intros E; injection E as <-; constructor|]. destruct (f a) eqn:E; cbn [bind]; [|discriminate]. destruct (mapM f l); cbn [bind]; [|discriminate]. intros X. injection X as <-. constructor; [exact E|now apply IH].
Qed.
Lemma filled_ready def d d' l y y' :
  mapM (fun kv => let* r := as_dict (snd kv) in Ok (fst kv, PDict (fill_rock def r))) d = Ok y -> Permutation y y' -> ready d d' l -> ready y y' l.
Proof.
  intros M Q (N & P & I & A). apply mapM_f2 in M. assert (K : dkeys y = dkeys d).
  { unfold dkeys. clear - M. induction M as [|[k v] b d y E M IH]; [reflexivity|]. cbn [map fst]. rewrite IH. cbn [fst snd] in E. destruct (as_dict v); cbn [bind] in E; [injection E as <-; reflexivity|discriminate]. }
  split; [now rewrite K|]. split; [exact Q|]. split; [|unfold names_all; rewrite K; exact A]. clear - M I. induction M as [|[k v] b d y E M IH]; constructor; inversion I as [|? ? I1 I2]; subst; [|exact (IH I2)].
  cbn [fst snd] in *. destruct I1 as (r & -> & J). cbn [as_dict bind] in E. injection E as <-. cbn [snd]. eexists. split; [reflexivity|]. rewrite dget_fill. destruct (dget #"initial_condition" r); exact J.
Qed.
Lemma start_ror u u' : rocks_reordered u u' -> ror (dupdate d_Parameters u) (dupdate d_Parameters u').
Proof.
  intros (a & b & d & d' & l & U & U' & NU & N & P & I & O & A). assert (K : dkeys u = dkeys u') by (rewrite U, U'; unfold dkeys; rewrite !map_app; reflexivity). assert (NU' : NoDup (dkeys u')) by (rewrite <- K; exact NU).
  assert (G : forall x, In (#"rocks", PDict x) (a ++ (#"rocks", PDict x) :: b)) by (intros x; apply in_or_app; right; now left).
  assert (E : dget #"rocks" u = Some (PDict d)) by (apply in_dget; [exact NU|rewrite U; apply G]). assert (E' : dget #"rocks" u' = Some (PDict d')) by (apply in_dget; [exact NU'|rewrite U'; apply G]).
  split.
  - assert (F : Forall2 (fun x y => fst x = fst y /\ rdiff (fst x) (snd x) (snd y)) u u').
    { rewrite U, U'. assert (X : forall c, Forall2 (fun x y => fst x = fst y /\ rdiff (fst x) (snd x) (snd y)) c c) by (intros c; induction c; constructor; auto; split; [reflexivity|now left]).
      apply Forall2_app; [apply X|]. constructor; [split; [reflexivity|]; right; split; [reflexivity|]; exists d, d'; auto|apply X]. }
    unfold dupdate. assert (C : Forall2 (fun x y => fst x = fst y /\ rdiff (fst x) (snd x) (snd y)) d_Parameters d_Parameters) by (induction d_Parameters; constructor; auto; split; [reflexivity|now left]).
    enough (X : forall c c', Forall2 (fun x y => fst x = fst y /\ rdiff (fst x) (snd x) (snd y)) c c' -> Forall2 (fun x y => fst x = fst y /\ rdiff (fst x) (snd x) (snd y)) (fold_left (fun m kv => dset (fst kv) (snd kv) m) u c) (fold_left (fun m kv => dset (fst kv) (snd kv) m) u' c')) by exact (X _ _ C).
    clear - F. induction F as [|x y e e' (X & Y) F IH]; intros c c' C; cbn [fold_left]; [exact C|]. apply IH. rewrite <- X. now apply rdiff_set.
  - exists d, d', l. unfold dgetE. rewrite !dget_dupdate by assumption. rewrite E, E', O. split; [reflexivity|]. split; [reflexivity|]. split; [reflexivity|]. repeat split; assumption.
Qed.
Lemma prepare_ror u u' : rocks_reordered u u' -> lel ror (prepare u) (prepare u').
Proof.
  intros H. unfold prepare. cbv zeta. pose proof (start_ror u u' H) as Y. revert Y. generalize (dupdate d_Parameters u) as a, (dupdate d_Parameters u') as b. intros a b Y. plains Y.
  apply bind_lelR with (R := eq); [apply le_lel, le_eq; reflexivity|]. intros t ? <-.
  pose proof (ror_set _ _ #"title" (if is_str t then PSeq SList [t] else t) eq_refl Y) as Y2. revert Y2. generalize (dset #"title" (if is_str t then PSeq SList [t] else t) a) as a2, (dset #"title" (if is_str t then PSeq SList [t] else t) b) as b2. intros a2 b2 Y2. plains Y2.
  apply bind_lelR with (R := eq); [apply le_lel, le_eq; reflexivity|]. intros def ? <-.
  pose proof (ror_set _ _ #"default" (PDict (fill_default def)) eq_refl Y2) as Y3. revert Y3. generalize (dset #"default" (PDict (fill_default def)) a2) as a3, (dset #"default" (PDict (fill_default def)) b2) as b3. intros a3 b3 Y3.
  pose proof Y3 as (F & d & d' & l & E & E' & O & R). unfold get_dict. rewrite E, E'. cbn [bind as_dict]. intros p Q. destruct (mapM _ d) as [y|] eqn:M; cbn [bind] in Q; [|discriminate]. injection Q as <-.
  pose proof R as (_ & P & _). destruct (mapM_perm _ _ _ P y M) as (y' & M' & S1). cbv beta in *. rewrite M'. cbn [bind]. eexists. split; [reflexivity|]. split; [apply rdiff_set; [right; split; [reflexivity|]; eauto|exact F]|].
  exists y, y', l. unfold dgetE in *. rewrite !dget_dset. split; [reflexivity|]. split; [reflexivity|]. split; [exact O|]. exact (filled_ready _ d d' l y y' M S1 R).
Qed.
Lemma rocks_le u u' blk : rocks_reordered u u' -> le (write_text u blk) (write_text u' blk).
Proof.
  intros H. unfold write_text. destruct (sel_of blk) as [sel|]; [|now apply le_eq]. eapply bind_lel; [exact (prepare_ror u u' H)|]. intros p p' P. apply bind_le; [exact (buffer_ror p p' sel P)|]. intros r. now apply le_eq.
Qed.
Lemma rocks_sym u u' : rocks_reordered u u' -> rocks_reordered u' u.
Proof.
  intros (a & b & d & d' & l & U & U' & NU & N & P & I & O & A). assert (K : dkeys u = dkeys u') by (rewrite U, U'; unfold dkeys; rewrite !map_app; reflexivity). exists a, b, d', d, l.
  split; [exact U'|]. split; [exact U|]. split; [rewrite <- K; exact NU|]. split; [eapply Permutation_NoDup; [apply perm_keys, P|exact N]|]. split; [now apply Permutation_sym|]. split; [eapply Permutation_Forall; eassumption|]. split; [|now apply (names_perm l d d')].
  rewrite <- O, U, U'. clear. induction a as [|[k v] a IH]; cbn [app dget]; [reflexivity|]. now rewrite IH.
Qed.
Lemma rocks_same u u' blk t : rocks_reordered u u' -> (write_text u blk = Ok t <-> write_text u' blk = Ok t).
Proof. intros H. split; [exact (rocks_le u u' blk H t)|exact (rocks_le u' u blk (rocks_sym u u' H) t)]. Qed.
