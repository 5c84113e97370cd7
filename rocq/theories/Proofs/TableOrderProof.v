(** The order of the records of a table does not matter when the order of writing is given. *)
From Coq Require Import String Ascii Arith ZArith Bool Lia Permutation List.
From Verif Require Import Base.Str Base.Digits Base.Flt.
From Verif Require Import Model.Py Model.Records Model.Write.
From Verif Require Import Proofs.DictLemmas Proofs.KnownProof Spec.TableOrder.
Import ListNotations.
Local Open Scope nat_scope.

Definition le {A} (x y : res A) : Prop := forall a, x = Ok a -> y = Ok a.
Lemma le_eq {A} (x y : res A) : x = y -> le x y. Proof. now intros -> a H. Qed.
Lemma bind_le {A B} (x y : res A) (f g : A -> res B) : le x y -> (forall a, le (f a) (g a)) -> le (bind x f) (bind y g).
Proof. intros H K b. destruct x as [a|e]; cbn [bind]; [|discriminate]. rewrite (H a eq_refl). cbn [bind]. apply K. Qed.
Lemma bind_e_le {A B} (x y : res A) (f g : A -> res B) : x = y -> (forall a, le (f a) (g a)) -> le (bind x f) (bind y g).
Proof. intros -> H. apply bind_le; [now apply le_eq|exact H]. Qed.
Lemma block_le k b x y : le x y -> le (block k b x) (block k b y).
Proof. intros H. unfold block. apply bind_le; [exact H|]. intros a. now apply le_eq. Qed.

(** ** Records in another order *)
Lemma perm_keys (d d' : dict) : Permutation d d' -> Permutation (dkeys d) (dkeys d').
Proof. apply Permutation_map. Qed.
Lemma perm_get d d' k : NoDup (dkeys d) -> Permutation d d' -> dget k d = dget k d'.
Proof.
  intros N P. assert (N' : NoDup (dkeys d')) by (eapply Permutation_NoDup; [apply perm_keys, P|exact N]). destruct (dget k d) as [v|] eqn:E.
  - symmetry. apply in_dget; [exact N'|]. apply (Permutation_in _ P). now apply dget_in.
  - destruct (dget k d') as [v|] eqn:E'; [|reflexivity]. apply dget_in in E'. apply (Permutation_in _ (Permutation_sym P)) in E'. apply in_dget in E'; [congruence|exact N].
Qed.
Lemma perm_lookup d d' k : NoDup (dkeys d) -> Permutation d d' -> lookup d k = lookup d' k.
Proof. intros N P. unfold lookup, dgetE. destruct (val_key k) as [a|]; cbn [bind]; [|reflexivity]. now rewrite (perm_get d d' a N P). Qed.
Lemma mapM_perm {A B} (f : A -> res B) l l' : Permutation l l' -> forall y, mapM f l = Ok y -> exists y', mapM f l' = Ok y' /\ Permutation y y'.
Proof.
  intros P. induction P as [|x l l' P IH|x z l|l l' l'' P IH P' IH']; intros y H; cbn [mapM] in *.
  - exists y. auto.
  - destruct (f x); cbn [bind] in *; [|discriminate]. destruct (mapM f l) as [m|]; cbn [bind] in *; [|discriminate]. injection H as <-. destruct (IH m eq_refl) as (m' & -> & Q). cbn [bind]. eauto.
  - destruct (f x), (f z); cbn [bind] in *; try discriminate. destruct (mapM f l) as [m|]; cbn [bind] in *; [|discriminate]. injection H as <-. eexists. split; [reflexivity|]. constructor.
  - destruct (IH y H) as (y' & E & Q). destruct (IH' y' E) as (y'' & E' & Q'). exists y''. split; [exact E'|]. now transitivity y'.
Qed.
Lemma max_perm l l' : Permutation l l' -> fold_right Nat.max 0 l = fold_right Nat.max 0 l'.
Proof. intros P. induction P; cbn [fold_right]; lia. Qed.
Lemma perm_len d d' : Permutation d d' -> le (max_key_len d) (max_key_len d').
Proof.
  intros P n. unfold max_key_len. destruct (mapM _ (dkeys d)) as [l|] eqn:E; cbn [bind]; [|discriminate]. destruct (mapM_perm _ _ _ (perm_keys d d' P) l E) as (l' & -> & Q). cbn [bind].
  pose proof (Permutation_length Q) as L. pose proof (max_perm l l' Q) as M. destruct l as [|a l], l' as [|a' l']; try discriminate L; [discriminate|]. now rewrite M.
Qed.
Lemma perm_check t d d' : Permutation d d' -> forall p p' k, dgetE k p = Ok (PDict d) -> dgetE k p' = Ok (PDict d') -> le (check_list t k [] p) (check_list t k [] p').
Proof.
  intros P p p' k E E' a. unfold check_list. rewrite E, E'. cbn [bind as_dict]. destruct (mapM _ d) as [l|] eqn:M; cbn [bind]; [|discriminate]. destruct (mapM_perm _ _ _ P l M) as (l' & M' & _). intros H. cbv beta in *. rewrite M'. exact H.
Qed.

(** ** The parameters *)
Definition tables : list key := [#"elements"; #"connections"; #"initial_conditions"].
Definition table (k : key) : bool := existsb (key_eqb k) tables.
Definition given (p : dict) (k : key) : Prop := exists o x, order_name k = Some o /\ dget o p = Some x /\ x <> PNone.
Definition perms (v w : pyval) : Prop := exists d d', v = PDict d /\ w = PDict d' /\ NoDup (dkeys d) /\ Permutation d d'.
Definition tdiff (k : key) (v w : pyval) : Prop := v = w \/ (table k = true /\ perms v w).
Definition tor (p p' : dict) : Prop :=
  Forall2 (fun a b => fst a = fst b /\ tdiff (fst a) (snd a) (snd b)) p p' /\ forall k, table k = true -> dget k p = dget k p' \/ given p k.
Lemma tor_get p p' k : tor p p' -> rres (tdiff k) (dgetE k p) (dgetE k p').
Proof.
  intros (H & _). unfold dgetE. assert (X : match dget k p, dget k p' with Some v, Some w => tdiff k v w | None, None => True | _, _ => False end).
  - induction H as [|[a v] [b w] d d' (X & Y) H IH]; cbn [dget]; [exact I|]. cbn [fst snd] in *. subst b. destruct (key_eqb k a) eqn:E; [apply key_eqb_eq in E as ->; exact Y|exact IH].
  - destruct (dget k p), (dget k p'); try contradiction; cbn; auto.
Qed.
Definition orders : list key := [#"elements_order"; #"connections_order"; #"initial_conditions_order"].
Definition inert (k : key) : bool := negb (table k) && negb (existsb (key_eqb k) orders).
Lemma order_in k o : order_name k = Some o -> In o orders.
Proof. unfold order_name, orders. destruct (key_eqb k _); [|destruct (key_eqb k _); [|destruct (key_eqb k _)]]; intros X; try discriminate X; injection X as <-; cbn; auto. Qed.
Lemma inert_order k o a : inert k = true -> order_name a = Some o -> key_eqb o k = false.
Proof.
  intros T E. apply order_in in E. unfold inert in T. apply andb_true_iff in T as [_ T]. apply negb_true_iff in T. destruct (key_eqb o k) eqn:X; [|reflexivity]. apply key_eqb_eq in X as ->.
  assert (Y : existsb (key_eqb k) orders = true) by (apply existsb_exists; exists k; split; [exact E|apply key_eqb_refl]). congruence.
Qed.
Lemma inert_table k a : inert k = true -> table a = true -> key_eqb a k = false.
Proof. intros T A. unfold inert in T. apply andb_true_iff in T as [T _]. apply negb_true_iff in T. destruct (key_eqb a k) eqn:X; [|reflexivity]. apply key_eqb_eq in X as ->. congruence. Qed.
Lemma tor_set p p' k v : inert k = true -> tor p p' -> tor (dset k v p) (dset k v p').
Proof.
  intros T (H & G). split.
  - clear G. induction H as [|[a x] [b y] d d' (X & Y) H IH]; cbn [dset].
    + constructor; [split; [reflexivity|now left]|constructor].
    + cbn [fst snd] in *. subst b. destruct (key_eqb k a); constructor; auto. split; [reflexivity|now left].
  - intros a A. rewrite !dget_dset, (inert_table k a T A). destruct (G a A) as [->|(o & x & O & E & N)]; [now left|]. right. exists o, x. split; [exact O|]. split; [|exact N]. now rewrite dget_dset, (inert_order k o a T O).
Qed.
Definition plain (k : key) : bool := negb (table k).
Lemma plain_get p p' k : plain k = true -> tor p p' -> dgetE k p = dgetE k p'.
Proof. intros P H. apply rres_eq. eapply rres_imp; [|exact (tor_get p p' k H)]. intros v w [E|(T & _)]; [exact E|]. unfold plain in P. rewrite T in P. discriminate P. Qed.
Lemma plain_dict p p' k : plain k = true -> tor p p' -> get_dict k p = get_dict k p'.
Proof. intros P H. unfold get_dict. now rewrite (plain_get p p' k P H). Qed.
Lemma plain_at t k ks p p' : plain k = true -> tor p p' -> check_at t k ks p = check_at t k ks p'.
Proof. intros P H. unfold check_at. now rewrite (plain_get p p' k P H). Qed.
Lemma plain_list t k ks p p' : plain k = true -> tor p p' -> check_list t k ks p = check_list t k ks p'.
Proof. intros P H. unfold check_list. now rewrite (plain_get p p' k P H). Qed.
Ltac plains H := match type of H with tor ?p ?p' => repeat first
  [match goal with |- context [dgetE ?k p] => rewrite (plain_get p p' k eq_refl H) end | match goal with |- context [get_dict ?k p] => rewrite (plain_dict p p' k eq_refl H) end
  |match goal with |- context [check_at ?t ?k ?ks p] => rewrite (plain_at t k ks p p' eq_refl H) end | match goal with |- context [check_list ?t ?k ?ks p] => rewrite (plain_list t k ks p p' eq_refl H) end] end.

(** What is known of a table: the same, or in another order with the order of writing given. *)
Lemma tor_table p p' k o : table k = true -> order_name k = Some o -> tor p p' ->
  dgetE k p = dgetE k p' \/
  exists d d' x, dgetE k p = Ok (PDict d) /\ dgetE k p' = Ok (PDict d') /\ NoDup (dkeys d) /\ Permutation d d' /\ dgetE o p = Ok x /\ is_none x = false.
Proof.
  intros T O H. pose proof (tor_get p p' k H) as X. destruct H as (_ & G). destruct (G k T) as [E|(o' & x & O' & E & N)]; [left; unfold dgetE; now rewrite E|]. rewrite O in O'. injection O' as <-.
  destruct (dgetE k p) as [v|e], (dgetE k p') as [w|e']; cbn [rres] in X; try contradiction; [|left; now rewrite X]. destruct X as [->|(_ & d & d' & -> & -> & ND & P)]; [now left|].
  right. exists d, d', x. do 4 (split; [first [reflexivity|assumption]|]). split; [unfold dgetE; now rewrite E|]. destruct x; try reflexivity. now contradiction N.
Qed.
Lemma table_le t kw k o (fmt : nat -> res (list token)) (f : list token -> dict -> pyval -> res (list str)) p p' : table k = true -> order_name k = Some o -> plain o = true ->
  (forall F d d' x, NoDup (dkeys d) -> Permutation d d' -> f F d x = f F d' x) -> tor p p' ->
  le (let* _ := check_list t k [] p in block kw true (let* e := get_dict k p in let* order := order_of o p e in let* n := max_key_len e in let* F := fmt n in concatM (f F e) order))
     (let* _ := check_list t k [] p' in block kw true (let* e := get_dict k p' in let* order := order_of o p' e in let* n := max_key_len e in let* F := fmt n in concatM (f F e) order)).
Proof.
  intros T O PO Q H. pose proof (plain_get p p' o PO H) as EO. destruct (tor_table p p' k o T O H) as [E|(d & d' & x & E & E' & N & P & X & Y)].
  - apply le_eq. unfold check_list, get_dict, order_of. rewrite E, EO. reflexivity.
  - apply bind_le; [exact (perm_check t d d' P p p' k E E')|]. intros _. apply block_le. unfold get_dict, order_of. rewrite E, E', <- EO, X. cbn [bind as_dict]. rewrite Y. apply bind_e_le; [reflexivity|]. intros order.
    apply bind_le; [now apply perm_len|]. intros n. apply bind_e_le; [reflexivity|]. intros F. apply le_eq. apply concatM_ext. intros k'. now apply Q.
Qed.
Lemma eleme_le p p' : tor p p' -> le (write_eleme p) (write_eleme p').
Proof. apply (table_le dt_ELEME ($"ELEME") #"elements" #"elements_order" fmt_ELEME write_element p p' eq_refl eq_refl eq_refl). intros F d d' x N P. unfold write_element. now rewrite (perm_lookup d d' x N P). Qed.
Lemma conne_le p p' : tor p p' -> le (write_conne p) (write_conne p').
Proof. apply (table_le dt_CONNE ($"CONNE") #"connections" #"connections_order" (fun n => fmt_CONNE (Nat.div n 2)) write_connection p p' eq_refl eq_refl eq_refl). intros F d d' x N P. unfold write_connection. now rewrite (perm_lookup d d' x N P). Qed.
Lemma incon_le p p' : tor p p' -> le (write_incon p) (write_incon p').
Proof. apply (table_le dt_INCON ($"INCON") #"initial_conditions" #"initial_conditions_order" fmt_INCON write_initial p p' eq_refl eq_refl eq_refl). intros F d d' x N P. unfold write_initial. now rewrite (perm_lookup d d' x N P). Qed.
Lemma coord_le p p' : tor p p' -> write_coord p = write_coord p'.
Proof.
  intros H. pose proof (plain_get p p' #"elements_order" eq_refl H) as EO. unfold write_coord. apply block_e. unfold get_dict, order_of. destruct (tor_table p p' #"elements" #"elements_order" eq_refl eq_refl H) as [E|(d & d' & x & E & E' & N & P & X & Y)].
  - rewrite E, EO. reflexivity.
  - rewrite E, E', <- EO, X. cbn [bind as_dict]. rewrite Y. apply bind_e; [reflexivity|]. intros order. apply concatM_ext. intros k. now rewrite (perm_lookup d d' k N P).
Qed.
Lemma true_table k f p p' : tor p p' -> le (f p) (f p') -> le (if_true k f p) (if_true k f p').
Proof.
  intros H F. unfold if_true. assert (X : rres (fun v w => truthy v = truthy w) (dgetE k p) (dgetE k p')).
  { eapply rres_imp; [|exact (tor_get p p' k H)]. intros v w [->|(_ & d & d' & -> & -> & _ & P)]; [reflexivity|]. pose proof (Permutation_length P) as L. destruct d, d'; try discriminate L; reflexivity. }
  destruct (dgetE k p), (dgetE k p'); cbn [rres bind] in *; try contradiction; [|intros a B; discriminate B]. rewrite X. apply bind_e_le; [reflexivity|]. intros b. unfold when. destruct b; [exact F|now apply le_eq].
Qed.
Lemma true_plain k f p p' : plain k = true -> tor p p' -> f p = f p' -> if_true k f p = if_true k f p'.
Proof. intros P H E. unfold if_true. now rewrite (plain_get p p' k P H), E. Qed.
Lemma some_plain k f p p' : plain k = true -> tor p p' -> f p = f p' -> if_some k f p = if_some k f p'.
Proof. intros P H E. unfold if_some. now rewrite (plain_get p p' k P H), E. Qed.
Lemma rocks_tor p p' : tor p p' -> rres (fun a b => fst a = fst b /\ tor (snd a) (snd b)) (write_rocks p) (write_rocks p').
Proof.
  intros H. unfold write_rocks. plains H.
  repeat (apply bind_rr with (R := eq); [match goal with |- rres _ ?x _ => destruct x; reflexivity end|intros ? ? <-]).
  apply bind_rr with (R := fun a b => fst a = fst b /\ tor (snd a) (snd b)).
  - match goal with |- context [is_none ?o] => destruct (is_none o); [cbn [rres fst snd]; auto|] end.
    apply bind_rr with (R := eq); [match goal with |- rres _ ?x _ => destruct x; reflexivity end|]. intros e ? <-. destruct (py_iter e); cbn [bind rres fst snd]; [|reflexivity]. split; [reflexivity|]. apply tor_set; [reflexivity|exact H].
  - intros [l q] [l' q'] (E & X). cbn [fst snd] in *. subst l'.
    apply bind_rr with (R := eq); [match goal with |- rres _ ?x _ => destruct x; reflexivity end|]. intros x ? <-. cbn [rres fst snd]. auto.
Qed.
Lemma check_tor p p' : tor p p' -> check_dict dt_PARAMETERS (PDict p) = check_dict dt_PARAMETERS (PDict p').
Proof.
  intros (H & _). unfold check_dict. cbn [as_dict bind]. rewrite (mapM_rows _ (check_entry dt_PARAMETERS) (check_entry dt_PARAMETERS) p p' H); [reflexivity|].
  intros [k v] [k' w] (K & X). cbn [fst snd] in *. subst k'. destruct X as [->|(_ & d & d' & -> & -> & _)]; [reflexivity|]. unfold check_entry. cbn [fst snd is_none]. destruct (tget k dt_PARAMETERS) as [[]|]; reflexivity.
Qed.
Lemma bind_rle {A B C} (R : A -> B -> Prop) x y (f : A -> res C) (g : B -> res C) : rres R x y -> (forall a b, R a b -> le (f a) (g b)) -> le (bind x f) (bind y g).
Proof. destruct x, y; cbn [rres bind]; intros H K; try contradiction; [auto|intros c E; discriminate E]. Qed.
Lemma buffer_tor p p' sel : tor p p' -> le (write_buffer p sel) (write_buffer p' sel).
Proof.
  intros H. unfold write_buffer. rewrite (check_tor p p' H). plains H. cbv zeta. do 13 (apply bind_e_le; [reflexivity|]; intros ?).
  apply bind_rle with (R := fun a b => fst a = fst b /\ tor (snd a) (snd b)).
  - destruct sel; try (split; [reflexivity|exact H]). replace (write_title p) with (write_title p') by (unfold write_title; plains H; reflexivity).
    apply bind_rr with (R := eq); [destruct (write_title p'); reflexivity|]. intros o0 ? <-.
    eapply bind_rr; [exact (rocks_tor p p' H)|]. intros [o1 q] [o1' q'] (E & X). cbn [fst snd] in *. subst o1'.
    replace (write_rpcap q) with (write_rpcap q') by (unfold write_rpcap; plains X; reflexivity). replace (write_multi q) with (write_multi q') by (unfold write_multi; plains X; reflexivity).
    replace (write_indom q) with (write_indom q') by (unfold write_indom, rock_order; plains X; reflexivity). replace (write_param q) with (write_param q') by (unfold write_param; plains X; reflexivity).
    assert (O : forall kw k f, plain k = true -> write_oft kw k f q = write_oft kw k f q') by (intros kw k f P; unfold write_oft; now rewrite (plain_get q q' k P X)).
    assert (T : write_times q = write_times q') by (unfold write_times; plains X; reflexivity).
    assert (FL : write_flac q = write_flac q') by (unfold write_flac, rock_order; plains X; reflexivity). assert (SO : write_solvr q = write_solvr q') by (unfold write_solvr; plains X; reflexivity).
    assert (SE : write_selec q = write_selec q') by (unfold write_selec; plains X; reflexivity). assert (MO : write_momop q = write_momop q') by (unfold write_momop; plains X; reflexivity).
    rewrite (some_plain #"flac" write_flac q q' eq_refl X FL), (true_plain #"solver" write_solvr q q' eq_refl X SO),
      (true_plain #"start" (fun _ => write_start) q q' eq_refl X eq_refl), (true_plain #"selections" write_selec q q' eq_refl X SE),
      (true_plain #"more_options" write_momop q q' eq_refl X MO), (some_plain #"times" write_times q q' eq_refl X T),
      (some_plain #"element_history" write_foft q q' eq_refl X (O _ #"element_history" _ eq_refl)), (some_plain #"connection_history" write_coft q q' eq_refl X (O _ #"connection_history" _ eq_refl)),
      (some_plain #"generator_history" write_goft q q' eq_refl X (O _ #"generator_history" _ eq_refl)).
    repeat (apply bind_rr with (R := eq); [match goal with |- rres _ ?x _ => destruct x; reflexivity end|intros ? ? <-]). cbn [rres fst snd]. auto.
  - intros [o q] [o' q'] (E & X). cbn [fst snd] in *. subst o'.
    assert (T : write_diffu q = write_diffu q') by (unfold write_diffu; plains X; reflexivity). assert (G : write_gener q = write_gener q') by (unfold write_gener; plains X; reflexivity).
    assert (U : write_outpu q = write_outpu q') by (unfold write_outpu; plains X; reflexivity).
    rewrite (true_plain #"generators" write_gener q q' eq_refl X G), (some_plain #"diffusion" write_diffu q q' eq_refl X T), (true_plain #"output" write_outpu q q' eq_refl X U),
      (true_plain #"coordinates" write_coord q q' eq_refl X (coord_le q q' X)), (true_plain #"nover" (fun _ => write_nover) q q' eq_refl X eq_refl).
    pose proof (true_table #"elements" write_eleme q q' X (eleme_le q q' X)) as L1. pose proof (true_table #"connections" write_conne q q' X (conne_le q q' X)) as L2.
    pose proof (true_table #"initial_conditions" write_incon q q' X (incon_le q q' X)) as L3.
    do 2 (apply bind_e_le; [reflexivity|]; intros ?). apply bind_le.
    { destruct sel; try (now apply le_eq); (apply bind_le; [exact L1|]; intros ?; apply bind_e_le; [reflexivity|]; intros ?; apply bind_le; [exact L2|]; intros ?; now apply le_eq). }
    intros ?. apply bind_le; [destruct sel; try (now apply le_eq); exact L3|]. intros ?. now apply le_eq.
Qed.
Lemma given_update u p k : NoDup (dkeys u) -> given u k -> given (dupdate p u) k.
Proof. intros N (o & x & O & E & X). exists o, x. split; [exact O|]. split; [|exact X]. now rewrite dget_dupdate, E. Qed.
Lemma reorder_keys u u' : all_reordered u u' -> dkeys u = dkeys u'.
Proof. unfold all_reordered. generalize u at 1. intros z H. unfold dkeys. induction H as [|a b d d' (X & _) H IH]; cbn [map]; [reflexivity|]. now rewrite X, IH. Qed.
Lemma table_name k o : order_name k = Some o -> table k = true.
Proof. unfold order_name, table, tables. cbn [existsb]. destruct (key_eqb k _); [reflexivity|]. destruct (key_eqb k _); [reflexivity|]. destruct (key_eqb k _); [reflexivity|discriminate]. Qed.
Lemma start_tor u u' : NoDup (dkeys u) -> all_reordered u u' -> tor (dupdate d_Parameters u) (dupdate d_Parameters u').
Proof.
  intros N H. assert (N' : NoDup (dkeys u')) by (rewrite <- (reorder_keys u u' H); exact N).
  assert (F : Forall2 (fun a b => fst a = fst b /\ tdiff (fst a) (snd a) (snd b)) u u').
  { unfold all_reordered in H. revert H. generalize u at 1. intros z H. induction H as [|a b d d' (X & Y) H IH]; constructor; [split; [exact X|]|apply IH].
    - destruct Y as [Y|(o & x & e & e' & O & _ & _ & A & B & C & D)]; [now left|]. right. split; [exact (table_name _ _ O)|]. exists e, e'. auto.
    - cbn in N. now inversion N.
    - cbn in N'. now inversion N'. }
  split.
  - clear H N N'. unfold dupdate. assert (C : Forall2 (fun a b => fst a = fst b /\ tdiff (fst a) (snd a) (snd b)) d_Parameters d_Parameters) by (induction d_Parameters; constructor; auto; split; [reflexivity|now left]).
    enough (X : forall c c', Forall2 (fun a b => fst a = fst b /\ tdiff (fst a) (snd a) (snd b)) c c' -> Forall2 (fun a b => fst a = fst b /\ tdiff (fst a) (snd a) (snd b)) (fold_left (fun m kv => dset (fst kv) (snd kv) m) u c) (fold_left (fun m kv => dset (fst kv) (snd kv) m) u' c')) by exact (X _ _ C).
    clear C. induction F as [|a b d d' (X & Y) F IH]; intros c c' C; cbn [fold_left]; [exact C|]. apply IH. rewrite <- X. clear - C Y.
    induction C as [|[s x] [t y] c c' (X & Z) C IH]; cbn [dset]; [constructor; [split; [reflexivity|exact Y]|constructor]|]. cbn [fst snd] in *. subst t. destruct (key_eqb (fst a) s) eqn:E; constructor; auto. split; [reflexivity|]. cbn [fst snd]. apply key_eqb_eq in E as <-. exact Y.
  - intros k T. rewrite !dget_dupdate by assumption. assert (X : dget k u = dget k u' \/ given u k).
    { clear F N N'. unfold all_reordered in H. revert H. generalize u at 1 4 as z. intros z H. induction H as [|[a v] [b w] d d' (X & Y) H IH]; cbn [dget]; [now left|]. cbn [fst snd] in *. subst b. destruct (key_eqb k a) eqn:E; [|exact IH]. apply key_eqb_eq in E as ->.
      destruct Y as [->|(o & x & e & e' & O & G & Z & _)]; [now left|]. right. exists o, x. auto. }
    destruct X as [->|X]; [now left|]. right. now apply given_update.
Qed.
Lemma prepare_tor u u' : NoDup (dkeys u) -> all_reordered u u' -> rres tor (prepare u) (prepare u').
Proof.
  intros N H. unfold prepare. cbv zeta. pose proof (start_tor u u' N H) as Y. revert Y. generalize (dupdate d_Parameters u) as a, (dupdate d_Parameters u') as b. intros a b Y. plains Y.
  apply bind_rr with (R := eq); [match goal with |- rres _ ?x _ => destruct x; reflexivity end|]. intros t ? <-.
  pose proof (tor_set _ _ #"title" (if is_str t then PSeq SList [t] else t) eq_refl Y) as Y2. revert Y2. generalize (dset #"title" (if is_str t then PSeq SList [t] else t) a) as a2, (dset #"title" (if is_str t then PSeq SList [t] else t) b) as b2. intros a2 b2 Y2. plains Y2.
  apply bind_rr with (R := eq); [match goal with |- rres _ ?x _ => destruct x; reflexivity end|]. intros def ? <-.
  pose proof (tor_set _ _ #"default" (PDict (fill_default def)) eq_refl Y2) as Y3. revert Y3. generalize (dset #"default" (PDict (fill_default def)) a2) as a3, (dset #"default" (PDict (fill_default def)) b2) as b3. intros a3 b3 Y3. plains Y3.
  do 2 (apply bind_rr with (R := eq); [match goal with |- rres _ ?x _ => destruct x; reflexivity end|]; intros ? ? <-). cbn [rres]. apply tor_set; [reflexivity|exact Y3].
Qed.
Lemma reordered_le u u' blk : NoDup (dkeys u) -> all_reordered u u' -> le (write_text u blk) (write_text u' blk).
Proof.
  intros N H. unfold write_text. destruct (sel_of blk) as [sel|]; [|now apply le_eq]. eapply bind_rle; [exact (prepare_tor u u' N H)|]. intros p p' P. apply bind_le; [exact (buffer_tor p p' sel P)|]. intros r. now apply le_eq.
Qed.
(** The relation is symmetric. *)
Lemma order_get u u' o : In o orders -> all_reordered u u' -> dget o u = dget o u'.
Proof.
  intros I. unfold all_reordered. generalize u at 1 as z. intros z H. induction H as [|[a v] [b w] d d' (X & Y) H IH]; cbn [dget]; [reflexivity|]. cbn [fst snd] in *. subst b. destruct (key_eqb o a) eqn:E; [|exact IH]. apply key_eqb_eq in E as <-.
  destruct Y as [->|(o' & x & e & e' & O & _)]; [reflexivity|]. exfalso. apply table_name in O. cbn in I. destruct I as [<-|[<-|[<-|[]]]]; discriminate O.
Qed.
Lemma reordered_sym u u' : all_reordered u u' -> all_reordered u' u.
Proof.
  intros H. assert (G : forall o, In o orders -> dget o u = dget o u') by (intros o I; now apply order_get). unfold all_reordered in *. revert H G. generalize u at 1 3 as z, u' at 2 3 as z'. intros z z' H G.
  induction H as [|a b d d' (X & Y) H IH]; constructor; [|exact IH]. split; [now symmetry|]. rewrite <- X. destruct Y as [Y|(o & x & e & e' & O & E & N & A & B & C & D)]; [now left|]. right. exists o, x, e', e.
  split; [exact O|]. split; [rewrite <- (G o (order_in _ _ O)); exact E|]. split; [exact N|]. split; [exact B|]. split; [exact A|]. split; [eapply Permutation_NoDup; [apply perm_keys, D|exact C]|now apply Permutation_sym].
Qed.
Lemma reordered_same u u' blk t : NoDup (dkeys u) -> all_reordered u u' -> (write_text u blk = Ok t <-> write_text u' blk = Ok t).
Proof.
  intros N H. split; [exact (reordered_le u u' blk N H t)|]. apply (reordered_le u' u blk); [rewrite <- (reorder_keys u u' H); exact N|now apply reordered_sym].
Qed.
