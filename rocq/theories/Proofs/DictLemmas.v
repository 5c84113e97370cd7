(** Lemmas about dictionaries, monadic loops and the reader's line loops. *)
From Coq Require Import String Ascii ZArith Bool Lia List.
From Verif Require Import Base.Str Base.Digits Base.Flt Base.FltText Base.FltInt.
From Verif Require Import Model.Py Model.Records Model.Write Model.Read.
From Verif Require Import Spec.Fields Spec.Values Proofs.RecordLemmas.
Import ListNotations.
Local Open Scope Z_scope.

(** ** Keys *)
Lemma key_eqb_eq a b : key_eqb a b = true <-> a = b.
Proof.
  destruct a, b; simpl; try (split; [discriminate|intros; congruence]).
  - rewrite streqb_eq. split; congruence.
  - rewrite Z.eqb_eq. split; congruence.
  - tauto.
Qed.
Lemma key_eqb_refl a : key_eqb a a = true. Proof. now apply key_eqb_eq. Qed.
Lemma key_eqb_neq a b : key_eqb a b = false <-> a <> b.
Proof. rewrite <- key_eqb_eq. destruct (key_eqb a b); split; congruence. Qed.
Lemma key_eqb_sym a b : key_eqb a b = key_eqb b a.
Proof.
  destruct (key_eqb a b) eqn:E.
  - apply key_eqb_eq in E. subst. now rewrite key_eqb_refl.
  - symmetry. apply key_eqb_neq. apply key_eqb_neq in E. congruence.
Qed.
Lemma key_dec (a b : key) : {a = b} + {a <> b}.
Proof. destruct (key_eqb a b) eqn:E; [left; now apply key_eqb_eq|right; now apply key_eqb_neq]. Qed.

(** ** Lookup *)
Lemma dget_val k d : dmem k d = true -> dget k d = Some (val k d).
Proof. unfold dmem, val. now destruct (dget k d). Qed.
Lemma dgetE_val k d : dmem k d = true -> dgetE k d = Ok (val k d).
Proof. intros. unfold dgetE. now rewrite dget_val. Qed.
Lemma val_some k d v : dget k d = Some v -> val k d = v.
Proof. unfold val. now intros ->. Qed.
Lemma dmem_some k d v : dget k d = Some v -> dmem k d = true.
Proof. unfold dmem. now intros ->. Qed.

Lemma dget_dset k k' v d : dget k (dset k' v d) = if key_eqb k k' then Some v else dget k d.
Proof.
  induction d as [|[a w] d IH]; cbn [dset dget].
  - destruct (key_eqb k k'); reflexivity.
  - destruct (key_eqb k' a) eqn:E; cbn [dget].
    + apply key_eqb_eq in E. subst. destruct (key_eqb k a); reflexivity.
    + destruct (key_eqb k a) eqn:E2; auto.
      apply key_eqb_eq in E2. subst. now rewrite key_eqb_sym, E.
Qed.
Lemma dget_dset_same k v d : dget k (dset k v d) = Some v.
Proof. now rewrite dget_dset, key_eqb_refl. Qed.
Lemma dget_dset_other k k' v d : k <> k' -> dget k (dset k' v d) = dget k d.
Proof. intros. rewrite dget_dset. now apply key_eqb_neq in H as ->. Qed.

Lemma dset_fresh k v d : dget k d = None -> dset k v d = d ++ [(k, v)].
Proof.
  induction d as [|[a w] d IH]; cbn [dset dget app]; auto.
  destruct (key_eqb k a); [discriminate|]. intros. now rewrite IH.
Qed.

Lemma dget_none_notin k d : dget k d = None <-> ~ In k (dkeys d).
Proof.
  induction d as [|[a w] d IH]; simpl; [tauto|].
  destruct (key_eqb k a) eqn:E.
  - apply key_eqb_eq in E. subst. split; [discriminate|intros H; exfalso; auto].
  - apply key_eqb_neq in E. rewrite IH. intuition congruence.
Qed.
Lemma dget_in k d v : dget k d = Some v -> In (k, v) d.
Proof.
  induction d as [|[a w] d IH]; simpl; [discriminate|].
  destruct (key_eqb k a) eqn:E; auto. apply key_eqb_eq in E. subst. intros [= ->]. auto.
Qed.
Lemma in_dget k d v : keys_unique d -> In (k, v) d -> dget k d = Some v.
Proof.
  unfold keys_unique. induction d as [|[a w] d IH]; simpl; [tauto|].
  intros N [H|H]; inversion_clear N as [|? ? N1 N2].
  - injection H as -> ->. now rewrite key_eqb_refl.
  - destruct (key_eqb k a) eqn:E; auto.
    apply key_eqb_eq in E. subst. exfalso. apply N1. now apply (in_map fst) in H.
Qed.
Lemma dmem_in k d : dmem k d = true <-> In k (dkeys d).
Proof.
  unfold dmem. destruct (dget k d) eqn:E.
  - split; auto. intros _. apply dget_in in E. now apply (in_map fst) in E.
  - apply dget_none_notin in E. split; [discriminate|tauto].
Qed.

Lemma dget_app k a b : dget k (a ++ b) = match dget k a with Some v => Some v | None => dget k b end.
Proof. induction a as [|[x w] a IH]; cbn [dget app]; auto. destruct (key_eqb k x); auto. Qed.

(** In [d.update(u)] the entry of [u] wins. *)
Lemma dget_dupdate k d u : keys_unique u ->
  dget k (dupdate d u) = match dget k u with Some v => Some v | None => dget k d end.
Proof.
  unfold dupdate, keys_unique. revert d. induction u as [|[a w] u IH]; intros d N; auto.
  inversion_clear N as [|? ? N1 N2]. cbn [fold_left fst snd dget]. rewrite IH by auto.
  destruct (key_eqb k a) eqn:E.
  - apply key_eqb_eq in E. subst. replace (dget a u) with (@None pyval).
    + now rewrite dget_dset_same.
    + symmetry. now apply dget_none_notin.
  - rewrite dget_dset_other by now apply key_eqb_neq. reflexivity.
Qed.
Lemma dmem_dupdate k d u : dmem k d = true -> dmem k (dupdate d u) = true.
Proof.
  unfold dupdate. revert d. induction u as [|[a w] u IH]; intros d H; auto.
  cbn [fold_left fst snd]. apply IH. unfold dmem in *. rewrite dget_dset.
  destruct (key_eqb k a); auto.
Qed.
Lemma dupdate_fresh d u : keys_unique u -> (forall k, In k (dkeys u) -> dget k d = None) ->
  dupdate d u = d ++ u.
Proof.
  unfold dupdate, keys_unique. revert d. induction u as [|[a w] u IH]; intros d N F.
  - now rewrite app_nil_r.
  - inversion_clear N as [|? ? N1 N2]. cbn [fold_left fst snd].
    rewrite dset_fresh by (apply F; left; auto). rewrite IH; auto.
    + now rewrite <- app_assoc.
    + intros k H. rewrite dget_app, F by (right; auto). simpl.
      destruct (key_eqb k a) eqn:E; auto. apply key_eqb_eq in E. subst. tauto.
Qed.
Lemma dupdate_nil u : keys_unique u -> dupdate [] u = u.
Proof. intros. now rewrite dupdate_fresh. Qed.
Lemma dkeys_app a b : dkeys (a ++ b) = dkeys a ++ dkeys b.
Proof. apply map_app. Qed.

Lemma dupdate_app_fresh d u : keys_unique (d ++ u) -> dupdate d u = d ++ u.
Proof.
  unfold keys_unique. rewrite dkeys_app. intros N. apply dupdate_fresh.
  - unfold keys_unique. clear -N. induction (dkeys d); simpl in *; auto. inversion_clear N. auto.
  - intros k Hk. apply dget_none_notin. intros Hd. clear -N Hk Hd.
    induction (dkeys d) as [|a l IH]; simpl in *; [tauto|]. inversion_clear N as [|? ? N1 N2].
    destruct Hd as [->|Hd]; auto. apply N1. apply in_or_app. now right.
Qed.

Fixpoint no_dup_keys (l : list key) : bool :=
  match l with [] => true | k :: r => negb (existsb (key_eqb k) r) && no_dup_keys r end.
Lemma no_dup_keys_ok l : no_dup_keys l = true -> NoDup l.
Proof.
  induction l as [|k l IH]; simpl; intros H; constructor; apply andb_true_iff in H as [H1 H2]; auto.
  intros X. apply negb_true_iff in H1. assert (existsb (key_eqb k) l = true); [|congruence].
  apply existsb_exists. exists k. split; auto. apply key_eqb_refl.
Qed.

(** Adding fresh keys one after the other. *)
Lemma fold_dset_fresh {A} (k : A -> key) (v : A -> pyval) l d :
  NoDup (map k l) -> (forall x, In x l -> dget (k x) d = None) ->
  fold_left (fun d x => dset (k x) (v x) d) l d = d ++ map (fun x => (k x, v x)) l.
Proof.
  revert d. induction l as [|x l IH]; intros d N F; cbn [fold_left map].
  - now rewrite app_nil_r.
  - inversion_clear N as [|? ? N1 N2]. rewrite dset_fresh by (apply F; left; auto).
    rewrite IH; auto.
    + now rewrite <- app_assoc.
    + intros y H. rewrite dget_app, F by (right; auto). simpl.
      destruct (key_eqb (k y) (k x)) eqn:E; auto. apply key_eqb_eq in E.
      exfalso. apply N1. rewrite <- E. now apply in_map.
Qed.
Lemma fold_snoc {A B} (f : A -> B) l acc :
  fold_left (fun acc x => acc ++ [f x]) l acc = acc ++ map f l.
Proof.
  revert acc. induction l as [|x l IH]; intros acc; cbn [fold_left map].
  - now rewrite app_nil_r.
  - rewrite IH, <- app_assoc. reflexivity.
Qed.
Lemma fold_pair {A B X} (f : A -> X -> A) (g : B -> X -> B) l a b :
  fold_left (fun st x => (f (fst st) x, g (snd st) x)) l (a, b)
  = (fold_left f l a, fold_left g l b).
Proof. revert a b. induction l as [|x l IH]; intros; cbn [fold_left fst snd]; auto. Qed.

Lemma dset_same k v d : dget k d = Some v -> dset k v d = d.
Proof.
  induction d as [|[a w] d IH]; cbn [dget dset]; [discriminate|].
  destruct (key_eqb k a); intros H; [congruence|]. now rewrite IH.
Qed.
Lemma dset_dset k v v' d : dset k v (dset k v' d) = dset k v d.
Proof.
  induction d as [|[a w] d IH]; cbn [dset].
  - now rewrite key_eqb_refl.
  - destruct (key_eqb k a) eqn:E; cbn [dset]; rewrite E; [reflexivity|]. now rewrite IH.
Qed.
Lemma dset_map k v d : keys_unique d -> In k (dkeys d) ->
  dset k v d = map (fun kv => if key_eqb k (fst kv) then (fst kv, v) else kv) d.
Proof.
  unfold keys_unique. induction d as [|[a w] d IH]; cbn [dkeys map In dset fst]; [tauto|].
  intros N H. inversion_clear N as [|? ? N1 N2]. destruct (key_eqb k a) eqn:E.
  - f_equal. apply key_eqb_eq in E. subst. symmetry. rewrite <- (map_id d) at 2. apply map_ext_in.
    intros [b x] Hb. cbn [fst]. destruct (key_eqb a b) eqn:E; auto. apply key_eqb_eq in E. subst.
    exfalso. apply N1. now apply (in_map fst) in Hb.
  - f_equal. apply IH; auto. destruct H; auto. subst. rewrite key_eqb_refl in E. discriminate.
Qed.
Lemma dkeys_dset k v d : In k (dkeys d) -> dkeys (dset k v d) = dkeys d.
Proof.
  induction d as [|[a w] d IH]; cbn [dkeys map In dset fst]; [tauto|].
  destruct (key_eqb k a) eqn:E; auto. intros [->|H]; [rewrite key_eqb_refl in E; discriminate|].
  cbn [dkeys map fst]. f_equal. now apply IH.
Qed.

(** ** Monadic loops *)
Lemma mapM_ok {A B} (f : A -> res B) (g : A -> B) l :
  (forall x, In x l -> f x = Ok (g x)) -> mapM f l = Ok (map g l).
Proof.
  induction l as [|x l IH]; intros H; auto. cbn [mapM map].
  rewrite H by (left; auto). cbn [bind]. rewrite IH; auto. intros. apply H. now right.
Qed.
Lemma concatM_ok {A} (f : A -> res (list str)) (g : A -> list str) l :
  (forall x, In x l -> f x = Ok (g x)) -> concatM f l = Ok (concat (map g l)).
Proof.
  induction l as [|x l IH]; intros H; auto. cbn [concatM map concat].
  rewrite H by (left; auto). cbn [bind]. rewrite IH; auto. intros. apply H. now right.
Qed.
Lemma anyM_ok {A} (f : A -> res bool) (g : A -> bool) l :
  (forall x, In x l -> f x = Ok (g x)) -> anyM f l = Ok (existsb g l).
Proof.
  induction l as [|x l IH]; intros H; auto. cbn [anyM existsb].
  rewrite H by (left; auto). cbn [bind]. destruct (g x); auto.
  rewrite IH; auto. intros. apply H. now right.
Qed.
Lemma foldM_ok {A B} (f : A -> B -> res A) (g : A -> B -> A) l a :
  (forall a x, In x l -> f a x = Ok (g a x)) -> foldM f a l = Ok (fold_left g l a).
Proof.
  revert a. induction l as [|x l IH]; intros a H; auto. cbn [foldM fold_left].
  rewrite H by (left; auto). cbn [bind]. apply IH. intros. apply H. now right.
Qed.

(** ** Trimming *)
Lemma trim_nil_iff l : trim l = [] <-> existsb not_none l = false.
Proof.
  induction l as [|x l IH]; simpl; [tauto|].
  unfold not_none at 1. destruct (trim l) eqn:E.
  - destruct IH as [IH _]. rewrite (IH eq_refl). destruct (is_none x); simpl; split; auto; discriminate.
  - split; [discriminate|]. intros H. apply orb_false_iff in H as [_ H].
    apply IH in H. discriminate.
Qed.
Lemma prune_trim l : prune_nones_list l = trim l.
Proof.
  induction l as [|x l IH]; auto. cbn [prune_nones_list trim existsb].
  destruct (trim l) eqn:E; rewrite IH.
  - apply trim_nil_iff in E. rewrite E. unfold not_none. destruct (is_none x); reflexivity.
  - destruct (existsb not_none l) eqn:X.
    + now rewrite orb_true_r.
    + apply trim_nil_iff in X. congruence.
Qed.
Lemma trim_app_none l n : trim (l ++ repeat PNone n) = trim l.
Proof.
  induction l as [|x l IH]; simpl.
  - induction n; auto. simpl. now rewrite IHn.
  - now rewrite IH.
Qed.
Lemma known_prune d : prune_nones_dict d = known d.
Proof.
  induction d as [|[k v] d IH]; auto. cbn [prune_nones_dict filter known snd].
  fold (prune_nones_dict d). rewrite IH. unfold not_none. now destruct (is_none v).
Qed.
Lemma known_app a b : known (a ++ b) = known a ++ known b.
Proof. induction a as [|[k v] a IH]; simpl; auto. rewrite IH. now destruct (is_none v). Qed.
Lemma known_some d : forallb (fun kv => not_none (snd kv)) d = true -> known d = d.
Proof.
  induction d as [|[k v] d IH]; simpl; auto. unfold not_none at 1. destruct (is_none v); [discriminate|].
  simpl. intros. now rewrite IH.
Qed.
Lemma known_keys d k : In k (dkeys (known d)) -> In k (dkeys d).
Proof.
  induction d as [|[a v] d IH]; simpl; auto. destruct (is_none v); simpl; intuition.
Qed.
Lemma known_unique d : keys_unique d -> keys_unique (known d).
Proof.
  unfold keys_unique. induction d as [|[a v] d IH]; simpl; auto. intros N.
  inversion_clear N as [|? ? N1 N2]. destruct (is_none v); auto. simpl. constructor; auto.
  intros H. now apply known_keys in H.
Qed.

(** ** Line loops *)
Lemma iter_lines_spec {St X} (step : St -> list str -> res (bool * St * list str))
    (recs : X -> list str) (upd : St -> X -> St) (xs : list X) (stop : str) rest :
  (forall st x r, In x xs -> step st (recs x ++ r) = Ok (true, upd st x, r)) ->
  (forall st r, step st (stop :: r) = Ok (false, st, r)) ->
  forall fuel st, (List.length xs < fuel)%nat ->
  iter_lines fuel step st (concat (map recs xs) ++ stop :: rest) = Ok (fold_left upd xs st, rest).
Proof.
  intros Hs He. induction xs as [|x xs IH]; intros fuel st F.
  - destruct fuel; [simpl in F; lia|]. cbn [map concat app iter_lines]. rewrite He. reflexivity.
  - destruct fuel; [simpl in F; lia|]. cbn [map concat app iter_lines fold_left].
    rewrite <- app_assoc, Hs by (left; auto). cbn [bind].
    apply IH; [intros; apply Hs; now right|simpl in F; lia].
Qed.
Lemma concat_len_ge {X} (recs : X -> list str) (xs : list X) :
  (forall x, In x xs -> recs x <> []) -> (List.length xs <= List.length (concat (map recs xs)))%nat.
Proof.
  induction xs as [|x xs IH]; intros H; simpl; auto.
  rewrite app_length. specialize (IH (fun y Hy => H y (or_intror Hy))).
  pose proof (H x (or_introl eq_refl)). destruct (recs x); [congruence|]. simpl. lia.
Qed.

Lemma repeat_lines_spec {St X} (step : St -> str -> res St) (line : X -> str) (upd : St -> X -> St) xs st rest :
  (forall st x, In x xs -> step st (line x) = Ok (upd st x)) ->
  repeat_lines (List.length xs) step st (map line xs ++ rest) = Ok (fold_left upd xs st, rest).
Proof.
  revert st. induction xs as [|x xs IH]; intros st H; auto.
  cbn [List.length repeat_lines map app next bind]. rewrite H by (left; auto). cbn [bind].
  apply IH. intros. apply H. now right.
Qed.

(** Blank lines. *)
Lemma blank_nl : blank [nl] = true. Proof. reflexivity. Qed.
Lemma blank_spaces s : forallb is_space s = true -> blank s = true.
Proof. intros H. unfold blank. now rewrite strip_empty. Qed.
Lemma not_blank s c : In c s -> is_space c = false -> blank s = false.
Proof.
  intros H E. unfold blank. rewrite strip_nonempty; auto.
  apply existsb_exists. exists c. now rewrite E.
Qed.
