(** Round trip through JSON. *)
From Coq Require Import String Ascii ZArith Bool Lia Permutation FinFun List.
From Verif Require Import Base.Str Base.Digits Base.Flt Model.Py Model.Json Spec.Json.
From Verif Require Import Model.Records Model.Write.
Import ListNotations.
Local Open Scope Z_scope.

Lemma all_Forall {A} (P : A -> Prop) l : all P l <-> Forall P l.
Proof.
  induction l as [|a l IH]; cbn [all]; split; intros H; auto.
  - destruct H. constructor; auto. now apply IH.
  - inversion_clear H. split; auto. now apply IH.
Qed.
Section Induction.
Variable P : obj -> Prop.
Hypothesis HNone : P ONone. Hypothesis HBool : forall b, P (OBool b). Hypothesis HInt : forall z, P (OInt z).
Hypothesis HNp : forall z, P (ONpInt z). Hypothesis HFloat : forall x, P (OFloat x). Hypothesis HStr : forall s, P (OStr s).
Hypothesis HSeq : forall k l, Forall P l -> P (OSeq k l).
Hypothesis HDict : forall d, Forall (fun kv => P (snd kv)) d -> P (ODict d).
Hypothesis HOther : P OOther.
Fixpoint obj_induction (x : obj) : P x :=
  match x with
  | ONone => HNone | OBool b => HBool b | OInt z => HInt z | ONpInt z => HNp z | OFloat x => HFloat x | OStr s => HStr s
  | OSeq k l => HSeq k l ((fix go l : Forall P l := match l with [] => Forall_nil _ | a :: r => Forall_cons a (obj_induction a) (go r) end) l)
  | ODict d => HDict d ((fix go d : Forall (fun kv => P (snd kv)) d := match d with [] => Forall_nil _ | kv :: r =>
                            Forall_cons kv (match kv as kv return P (snd kv) with (k, v) => obj_induction v end) (go r) end) d)
  | OOther => HOther
  end.
End Induction.

Lemma okey_eqb_eq a b : okey_eqb a b = true <-> a = b.
Proof.
  destruct a as [a|], b as [b|]; cbn [okey_eqb]; split; intros H; try discriminate; auto.
  - f_equal. destruct a, b; cbn [key_eqb] in H; try discriminate; auto.
    + apply streqb_eq in H. congruence.
    + apply Z.eqb_eq in H. congruence.
  - injection H as <-. destruct a; cbn [key_eqb]; auto using streqb_refl, Z.eqb_refl.
Qed.
Lemma okey_eqb_refl a : okey_eqb a a = true. Proof. now apply okey_eqb_eq. Qed.
Lemma okey_eqb_neq a b : okey_eqb a b = false <-> a <> b.
Proof. rewrite <- okey_eqb_eq. destruct (okey_eqb a b); split; congruence. Qed.
Definition okey_dec (a b : okey) : {a = b} + {a <> b}.
Proof. destruct (okey_eqb a b) eqn:E; [left; now apply okey_eqb_eq|right; now apply okey_eqb_neq]. Defined.

Lemma oget_oset k k' v d : oget k (oset k' v d) = if okey_eqb k k' then Some v else oget k d.
Proof.
  induction d as [|[q w] d IH]; cbn [oset oget]; [reflexivity|].
  destruct (okey_eqb k' q) eqn:E; cbn [oget].
  - apply okey_eqb_eq in E as ->. destruct (okey_eqb k q); reflexivity.
  - rewrite IH. destruct (okey_eqb k q) eqn:F; [|reflexivity]. apply okey_eqb_eq in F as ->.
    destruct (okey_eqb q k') eqn:G; auto. apply okey_eqb_eq in G as ->. now rewrite okey_eqb_refl in E.
Qed.
Lemma oset_fresh k v d : ~ In k (map fst d) -> oset k v d = d ++ [(k, v)].
Proof.
  induction d as [|[q w] d IH]; intros N; cbn [oset app]; auto. cbn [map fst] in N.
  destruct (okey_eqb k q) eqn:E; [apply okey_eqb_eq in E; exfalso; apply N; now left|].
  rewrite IH; auto. intros X. apply N. now right.
Qed.
Lemma oset_keys k v d : map fst (oset k v d) = if in_dec okey_dec k (map fst d) then map fst d else map fst d ++ [k].
Proof.
  induction d as [|[q w] d IH]; cbn [oset map fst].
  - reflexivity.
  - destruct (okey_eqb k q) eqn:E; cbn [map fst].
    + apply okey_eqb_eq in E as ->. destruct (in_dec okey_dec q (q :: map fst d)) as [|N]; auto. exfalso. apply N. now left.
    + rewrite IH. apply okey_eqb_neq in E. destruct (in_dec okey_dec k (map fst d)) as [I|N], (in_dec okey_dec k (q :: map fst d)) as [I'|N']; auto.
      * exfalso. apply N'. now right.
      * exfalso. destruct I' as [|]; [congruence|auto].
Qed.
Lemma oset_nodup k v d : NoDup (map fst d) -> NoDup (map fst (oset k v d)).
Proof.
  intros N. rewrite oset_keys. destruct (in_dec _ _ _) as [|F]; auto.
  apply (Permutation_NoDup (l := k :: map fst d)); [apply Permutation_cons_append|]. now constructor.
Qed.
Lemma oget_in k v d : NoDup (map fst d) -> In (k, v) d -> oget k d = Some v.
Proof.
  induction d as [|[q w] d IH]; intros N I; [contradiction|]. cbn [map fst] in N. inversion_clear N as [|? ? N1 N2].
  cbn [oget]. destruct I as [E|I].
  - injection E as -> ->. now rewrite okey_eqb_refl.
  - destruct (okey_eqb k q) eqn:E; [|auto]. apply okey_eqb_eq in E as ->. exfalso. apply N1.
    apply (in_map fst) in I. exact I.
Qed.
Lemma oget_some_in k v d : oget k d = Some v -> In (k, v) d.
Proof.
  induction d as [|[q w] d IH]; cbn [oget]; [discriminate|]. destruct (okey_eqb k q) eqn:E.
  - apply okey_eqb_eq in E as ->. intros [= ->]. now left.
  - right. auto.
Qed.
Lemma oget_none k d : oget k d = None <-> ~ In k (map fst d).
Proof.
  induction d as [|[q w] d IH]; cbn [oget map fst]; [split; auto|]. destruct (okey_eqb k q) eqn:E.
  - apply okey_eqb_eq in E as ->. split; [discriminate|]. intros N. exfalso. apply N. now left.
  - apply okey_eqb_neq in E. rewrite IH. split; intros N; [intros [|]; [congruence|auto]|intros I; apply N; now right].
Qed.
Lemma fold_oset_fresh (l : list (str * obj)) acc :
  NoDup (map fst acc ++ map (fun kv => OKey (KS (fst kv))) l) ->
  fold_left (fun acc kv => oset (OKey (KS (fst kv))) (snd kv) acc) l acc = acc ++ map (fun kv => (OKey (KS (fst kv)), snd kv)) l.
Proof.
  revert acc. induction l as [|[s v] l IH]; intros acc N; cbn [fold_left map]; [now rewrite app_nil_r|].
  cbn [map fst snd] in *. rewrite oset_fresh.
  - rewrite IH, <- app_assoc; [reflexivity|]. rewrite map_app. cbn [map fst]. now rewrite <- app_assoc.
  - apply NoDup_remove_2 in N. intros I. apply N. apply in_or_app. now left.
Qed.

(** ** Objects *)
Lemma mapR_cons {A B} (f : A -> res B) a r : mapR f (a :: r) = let* b := f a in let* bs := mapR f r in Ok (b :: bs).
Proof. reflexivity. Qed.
Lemma mapR_map {A B C} (f : B -> res C) (g : A -> B) l : mapR f (map g l) = mapR (fun x => f (g x)) l.
Proof. induction l as [|a l IH]; cbn [map]; auto. now rewrite !mapR_cons, IH. Qed.
Lemma mapR_ok {A B} (f : A -> res B) (P : A -> B -> Prop) l :
  Forall (fun a => exists b, f a = Ok b /\ P a b) l -> exists bs, mapR f l = Ok bs /\ Forall2 P l bs.
Proof.
  induction 1 as [|a l (b & E & H) F (bs & Es & IH)]; [now exists []|]. exists (b :: bs).
  rewrite mapR_cons, E. cbn [bind]. rewrite Es. cbn [bind]. split; auto.
Qed.
Lemma Forall2_map_r {A B C} (f : B -> C) (P : A -> C -> Prop) l l' : Forall2 (fun a b => P a (f b)) l l' -> Forall2 P l (map f l').
Proof. induction 1; cbn [map]; auto. Qed.
Lemma Forall2_impl' {A B} (P Q : A -> B -> Prop) l l' : (forall a b, P a b -> Q a b) -> Forall2 P l l' -> Forall2 Q l l'.
Proof. intros H. induction 1; auto. Qed.

Lemma array_dump x : array_item x -> exists j, dump (tolist x) = Ok j /\ same x (load j).
Proof.
  induction x as [ | | | | | |k l IH|d IH| ] using obj_induction; cbn [array_item tolist]; intros W; try contradiction;
    try (eexists; split; [reflexivity|]; constructor; fail).
  destruct k; try contradiction. rewrite all_Forall in W.
  destruct (mapR_ok (fun y => dump (tolist y)) (fun y j => same y (load j)) l) as (js & E & F).
  { rewrite Forall_forall in *. auto. }
  exists (JList js). split.
  - cbn [dump]. assert (X : mapR dump (map tolist l) = Ok js); [|now rewrite X].
    now rewrite mapR_map.
  - cbn [load]. constructor. now apply Forall2_map_r.
Qed.

(** A dictionary: its names and values. *)
Definition dumped (name : okey -> str) (d : odict) (js : list (str * json)) : Prop :=
  Forall2 (fun a b => fst b = name (fst a) /\ same (snd a) (load (snd b))) d js.
Lemma dump_dict name d : Forall (fun kv => dump_key (fst kv) = Ok (name (fst kv)) /\ exists j, dump (jsonify (snd kv)) = Ok j /\ same (snd kv) (load j)) d ->
  exists js, dump (jsonify (ODict d)) = Ok (JObj js) /\ dumped name d js.
Proof.
  intros F.
  destruct (mapR_ok (fun kv => match kv with (k, v) => let* k := dump_key k in let* v := dump (jsonify v) in Ok (k, v) end)
              (fun a b => fst b = name (fst a) /\ same (snd a) (load (snd b))) d) as (js & E & G).
  { eapply Forall_impl; [|exact F]. intros [k v] (K & j & D & S). cbn [fst snd] in *. rewrite K, D. cbn [bind].
    eexists. split; [reflexivity|]. auto. }
  exists js. split; auto. cbn [jsonify dump]. rewrite mapR_map.
  match goal with |- bind ?x _ = _ => replace x with (Ok js); [reflexivity|] end. rewrite <- E.
  clear. induction d as [|[k v] d IH]; auto. now rewrite !mapR_cons, IH.
Qed.
Lemma load_dict name d js : dumped name d js -> NoDup (map (fun kv => name (fst kv)) d) ->
  exists d', load (JObj js) = ODict d' /\ Forall2 (fun a b => fst b = OKey (KS (name (fst a))) /\ same (snd a) (snd b)) d d'.
Proof.
  intros D N. cbn [load].
  assert (K : map fst js = map (fun kv => name (fst kv)) d) by (clear N; induction D as [|a b ? ? [E _] ? IHD]; cbn [map]; congruence).
  rewrite fold_oset_fresh.
  - eexists. split; [reflexivity|]. cbn [app]. rewrite map_map. cbn [fst snd]. apply Forall2_map_r.
    eapply Forall2_impl'; [|exact D]. intros a b [E S]. cbn [fst snd]. now rewrite E.
  - cbn [map app]. rewrite map_map. cbn [fst].
    replace (map (fun x : str * json => OKey (KS (fst x))) js) with (map (fun s => OKey (KS s)) (map fst js)) by now rewrite map_map.
    rewrite K. apply Injective_map_NoDup; auto. intros a b. congruence.
Qed.
Definition name_of (k : okey) : str := match k with OKey (KS s) => s | OKey (KI z) => print_Z z | _ => [] end.
Lemma names_nodup (d : odict) : NoDup (map fst d) -> Forall (fun kv => is_name (fst kv)) d -> NoDup (map (fun kv => name_of (fst kv)) d).
Proof.
  induction d as [|[k v] d IH]; intros N F; cbn [map fst] in *; [constructor|]. inversion_clear N as [|? ? N1 N2]. inversion_clear F as [|? ? F1 F2].
  constructor; auto. intros I. apply N1. apply in_map_iff in I as ([q w] & E & I). cbn [fst] in *.
  rewrite Forall_forall in F2. destruct (F2 _ I) as (s & Es). destruct F1 as (s' & ->). cbn [fst] in Es. subst q. cbn [name_of] in E. subst s'.
  apply (in_map fst) in I. exact I.
Qed.
Lemma numbers_nodup (d : odict) : NoDup (map fst d) -> Forall (fun kv => is_number (fst kv)) d -> NoDup (map (fun kv => name_of (fst kv)) d).
Proof.
  induction d as [|[k v] d IH]; intros N F; cbn [map fst] in *; [constructor|]. inversion_clear N as [|? ? N1 N2]. inversion_clear F as [|? ? F1 F2].
  constructor; auto. intros I. apply N1. apply in_map_iff in I as ([q w] & E & I). cbn [fst] in *.
  rewrite Forall_forall in F2. destruct (F2 _ I) as (s & Es). destruct F1 as (s' & ->). cbn [fst] in Es. subst q. cbn [name_of] in E.
  apply print_Z_inj in E. subst s'. apply (in_map fst) in I. exact I.
Qed.
Lemma writable_dump x : writable x -> exists j, dump (jsonify x) = Ok j /\ same x (load j).
Proof.
  induction x as [ | | | | | |k l IH|d IH| ] using obj_induction; intros W; try contradiction;
    try (eexists; split; [reflexivity|]; constructor; fail).
  - assert (X : k = SArray \/ Forall writable l) by (destruct k; cbn [writable] in W; rewrite all_Forall in W; auto).
    destruct X as [->|X].
    + apply (array_dump (OSeq SArray l)). exact W.
    + destruct (mapR_ok (fun y => dump (jsonify y)) (fun y j => same y (load j)) l) as (js & E & F).
      { rewrite Forall_forall in *. auto. }
      destruct k; [| |apply (array_dump (OSeq SArray l)); exact W]; exists (JList js);
        (split; [|cbn [load]; constructor; now apply Forall2_map_r]); cbn [jsonify dump];
        (assert (Y : mapR dump (map jsonify l) = Ok js);
          [now rewrite mapR_map|now rewrite Y]).
  - cbn [writable] in W. destruct W as [N W]. rewrite all_Forall in W.
    assert (F : Forall (fun kv => is_name (fst kv)) d) by (eapply Forall_impl; [|exact W]; intros [k v] []; auto).
    destruct (dump_dict name_of d) as (js & E & D).
    { rewrite Forall_forall in *. intros [k v] I. destruct (W _ I) as [(s & ->) Wv]. split; [reflexivity|].
      apply (IH _ I). exact Wv. }
    exists (JObj js). split; auto. destruct (load_dict name_of d js D (names_nodup _ N F)) as (d' & -> & G).
    constructor. clear E D. revert F. induction G as [|a b ? ? [E S] G IHG]; intros F; constructor; inversion_clear F as [|? ? F1 F2].
    + destruct F1 as (s & F1). rewrite F1 in E. cbn [name_of] in E. split; [congruence|auto].
    + apply IHG; auto; [now inversion IH|now inversion N|now inversion W].
Qed.

(** ** Options *)
Lemma insert_perm s l : Permutation (s :: l) (insert_str s l).
Proof.
  induction l as [|t l IH]; cbn [insert_str]; auto. destruct (str_leb s t); auto.
  eapply Permutation_trans; [apply perm_swap|]. now constructor.
Qed.
Lemma sort_perm l : Permutation l (sort_str l).
Proof.
  induction l as [|s l IH]; cbn [sort_str fold_right]; auto. fold (sort_str l).
  eapply Permutation_trans; [apply perm_skip, IH|apply insert_perm].
Qed.
Definition int_step (d : odict) := fun (acc : odict) (s : str) =>
  match parse_int s, oget (OKey (KS s)) d with
  | Some z, Some x => Ok (oset (OKey (KI z)) x acc)
  | None, _ => Err ValueError
  | _, None => Err KeyError
  end.
Lemma to_int_fold d L acc : Forall (fun s => exists z x, s = print_Z z /\ oget (OKey (KS s)) d = Some x) L -> NoDup (map fst acc) ->
  exists acc', foldM (int_step d) acc L = Ok acc' /\ NoDup (map fst acc') /\
    forall k, oget k acc' = match k with
                            | OKey (KI z) => if in_dec str_eq_dec (print_Z z) L then oget (OKey (KS (print_Z z))) d else oget k acc
                            | _ => oget k acc
                            end.
Proof.
  revert acc. induction L as [|s L IH]; intros acc F N; cbn [foldM].
  - exists acc. split; auto. split; auto. intros [[| |]|]; auto.
  - inversion_clear F as [|? ? (z & x & -> & G) F']. unfold int_step at 1. rewrite parse_print_Z, G. cbn [bind].
    destruct (IH (oset (OKey (KI z)) x acc) F' (oset_nodup _ _ _ N)) as (acc' & E & N' & K).
    exists acc'. split; auto. split; auto. intros k. rewrite K. rewrite oget_oset.
    destruct k as [[s0|z'|]|]; auto.
    destruct (in_dec str_eq_dec (print_Z z') (print_Z z :: L)) as [I|I], (in_dec str_eq_dec (print_Z z') L) as [I'|I']; auto.
    + destruct I as [I|]; [|contradiction]. apply print_Z_inj in I as <-. rewrite okey_eqb_refl. auto.
    + exfalso. apply I. now right.
    + destruct (okey_eqb _ _) eqn:X; auto. apply okey_eqb_eq in X. injection X as ->. exfalso. apply I. now left.
Qed.
Lemma Forall2_in_l {A B} (P : A -> B -> Prop) l l' a : Forall2 P l l' -> In a l -> exists b, In b l' /\ P a b.
Proof.
  induction 1 as [|x y ? ? H F IH]; [contradiction|]. intros [->|I].
  - exists y. split; [now left|auto].
  - destruct (IH I) as (b & I' & Hb). exists b. split; [now right|auto].
Qed.
Lemma Forall2_in_r {A B} (P : A -> B -> Prop) l l' b : Forall2 P l l' -> In b l' -> exists a, In a l /\ P a b.
Proof.
  induction 1 as [|x y ? ? H F IH]; [contradiction|]. intros [->|I].
  - exists x. split; [now left|auto].
  - destruct (IH I) as (a & I' & Ha). exists a. split; [now right|auto].
Qed.
Lemma options_back v : options_ok v -> exists j w, dump (jsonify v) = Ok j /\ to_int (load j) = Ok w /\ same_options v w.
Proof.
  intros (d & -> & N & F).
  assert (Fn : Forall (fun kv => is_number (fst kv)) d) by (eapply Forall_impl; [|exact F]; intros ? []; auto).
  destruct (dump_dict name_of d) as (js & E & D).
  { eapply Forall_impl; [|exact F]. intros [k v] [(z & ->) W]. cbn [fst snd] in *. split; [reflexivity|]. now apply writable_dump. }
  destruct (load_dict name_of d js D (numbers_nodup _ N Fn)) as (d' & L & G).
  assert (K : map fst d' = map (fun kv => OKey (KS (name_of (fst kv)))) d).
  { clear - G. induction G as [|a b ? ? [E _] ? IH]; cbn [map]; congruence. }
  assert (N' : NoDup (map fst d')).
  { rewrite K. rewrite <- (map_map (fun kv => name_of (fst kv)) (fun s => OKey (KS s))). apply Injective_map_NoDup; [intros a b; congruence|].
    now apply numbers_nodup. }
  assert (SK : str_keys d' = map (fun kv => name_of (fst kv)) d).
  { clear - G. unfold str_keys. induction G as [|a b ? ? [E _] ? IH]; cbn [map flat_map]; auto. rewrite E. cbn [app]. now rewrite IH. }
  destruct (to_int_fold d' (sort_str (str_keys d')) []) as (acc & EA & NA & KA).
  { rewrite Forall_forall. intros s I. apply (Permutation_in _ (Permutation_sym (sort_perm _))) in I. rewrite SK in I.
    apply in_map_iff in I as (kv & <- & I). rewrite Forall_forall in Fn. destruct (Fn _ I) as (z & Ez).
    destruct (Forall2_in_l _ _ _ _ G I) as ([q y] & I' & Eq & S). cbn [fst snd] in *.
    exists z, y. rewrite Ez in *. cbn [name_of] in *. split; auto. apply oget_in; auto. congruence. }
  { constructor. }
  exists (JObj js), (ODict acc). split; auto. split; [rewrite L; unfold to_int; fold (int_step d'); now rewrite EA|].
  exists d, acc. split; auto. split; auto. split; auto. intros k. rewrite KA.
  destruct (oget k d) as [x|] eqn:X.
  - apply oget_some_in in X. rewrite Forall_forall in Fn. destruct (Fn _ X) as (z & Ez). cbn [fst] in Ez. subst k.
    destruct (in_dec _ _ _) as [I|I].
    + destruct (Forall2_in_l _ _ _ _ G X) as ([q y] & I' & Eq & S). cbn [fst snd name_of] in *. subst q.
      now rewrite (oget_in _ _ _ N' I').
    + exfalso. apply I. apply (Permutation_in _ (sort_perm _)). rewrite SK.
      apply (in_map (fun kv => name_of (fst kv))) in X. exact X.
  - destruct k as [[s|z|]|]; cbn [oget]; auto. destruct (in_dec _ _ _) as [I|I]; auto.
    exfalso. apply oget_none in X. apply X. apply (Permutation_in _ (Permutation_sym (sort_perm _))) in I. rewrite SK in I.
    apply in_map_iff in I as ([q w] & Eq & I). rewrite Forall_forall in Fn. destruct (Fn _ I) as (z' & Ez). cbn [fst] in *. subst q.
    cbn [name_of] in Eq. apply print_Z_inj in Eq as <-. apply (in_map fst) in I. exact I.
Qed.

(** ** Replacing the value of a key *)
Section Replace.
Variables (P Q : okey -> obj -> obj -> Prop).
Definition pairs (R : okey -> obj -> obj -> Prop) : odict -> odict -> Prop :=
  Forall2 (fun a b => fst a = fst b /\ R (fst a) (snd a) (snd b)).
Lemma replace_at k w w' p q : pairs P p q -> NoDup (map fst p) -> oget k q = Some w ->
  (forall v, In (k, v) p -> P k v w -> Q k v w') -> (forall k' v x, k' <> k -> P k' v x -> Q k' v x) -> pairs Q p (oset k w' q).
Proof.
  intros F N G HK HO. induction F as [|[a v] [b x] p q [E H] F IH]; [discriminate|]. cbn [fst snd] in *. subst b.
  cbn [map fst] in N. inversion_clear N as [|? ? N1 N2]. cbn [oset oget] in *. destruct (okey_eqb k a) eqn:X.
  - apply okey_eqb_eq in X as <-. injection G as ->. constructor.
    + cbn [fst snd]. split; auto. apply HK; auto. now left.
    + clear IH. assert (NA : ~ In k (map fst p)) by auto. clear - F NA HO.
      induction F as [|[c y] [c' y'] p q [E H] F IH]; constructor; cbn [fst snd map] in *.
      * subst c'. split; auto. apply HO; auto. intros ->. apply NA. now left.
      * apply IH. intros I. apply NA. now right.
  - apply okey_eqb_neq in X. constructor; [cbn [fst snd]; split; auto|]. apply IH; auto. intros y I. apply HK. now right.
Qed.
Lemma replace_none k p q : pairs P p q -> ~ In k (map fst p) -> (forall k' v x, k' <> k -> P k' v x -> Q k' v x) -> pairs Q p q.
Proof.
  intros F N HO. induction F as [|[c y] [c' y'] p q [E H] F IH]; constructor; cbn [fst snd map] in *.
  - subst c'. split; auto. apply HO; auto. intros ->. apply N. now left.
  - apply IH. intros I. apply N. now right.
Qed.
Lemma pairs_keys p q : pairs P p q -> map fst q = map fst p.
Proof. induction 1 as [|a b ? ? [E _] ? IH]; cbn [map]; congruence. Qed.
Lemma pairs_get k p q w : pairs P p q -> oget k q = Some w -> exists v, In (k, v) p /\ P k v w.
Proof.
  intros F G. apply oget_some_in in G. destruct (Forall2_in_r _ _ _ _ F G) as ([a v] & I & E & H). cbn [fst snd] in *.
  subst a. eauto.
Qed.
End Replace.

Lemma selections_back v : selections_ok v -> exists j s x x' w, dump (jsonify v) = Ok j /\ load j = ODict s /\
  oget (OKey #"integers") s = Some x /\ to_int x = Ok x' /\ w = ODict (oset (OKey #"integers") x' s) /\ same_selections v w.
Proof.
  intros (d & -> & N & I & F).
  assert (Fn : Forall (fun kv => is_name (fst kv)) d) by (eapply Forall_impl; [|exact F]; intros ? []; auto).
  set (P := fun k v w => exists j, dump (jsonify v) = Ok j /\ w = load j /\ selection_ok (k, v)).
  assert (D : exists js, dump (jsonify (ODict d)) = Ok (JObj js) /\ Forall2 (fun a b => fst b = name_of (fst a) /\ P (fst a) (snd a) (load (snd b))) d js).
  { destruct (mapR_ok (fun kv => match kv with (k, v) => let* k := dump_key k in let* v := dump (jsonify v) in Ok (k, v) end)
                (fun a b => fst b = name_of (fst a) /\ P (fst a) (snd a) (load (snd b))) d) as (js & E & G).
    { eapply Forall_impl; [|exact F]. intros [k v] S. pose proof S as ((s & Ek) & S1 & S2). cbn [fst snd] in *. subst k. cbn [dump_key bind].
      assert (X : exists j, dump (jsonify v) = Ok j).
      { destruct (okey_dec (OKey (KS s)) (OKey #"integers")) as [E|E].
        - destruct (options_back v (S1 E)) as (j & w & E1 & _). eauto.
        - destruct (writable_dump v (S2 E)) as (j & E1 & _). eauto. }
      destruct X as (j & X). rewrite X. cbn [bind]. eexists. split; [reflexivity|]. cbn [fst snd name_of]. split; auto.
      exists j. auto. }
    exists js. split; auto. cbn [jsonify dump]. rewrite mapR_map.
    match goal with |- bind ?x _ = _ => replace x with (Ok js); [reflexivity|] end. rewrite <- E.
    clear. induction d as [|[k v] d IH]; auto. now rewrite !mapR_cons, IH. }
  destruct D as (js & ED & D).
  assert (L : exists s, load (JObj js) = ODict s /\ pairs P d s).
  { cbn [load]. assert (K : map fst js = map (fun kv => name_of (fst kv)) d).
    { clear - D. induction D as [|a b ? ? [E _] ? IHD]; cbn [map]; congruence. }
    rewrite fold_oset_fresh.
    - eexists. split; [reflexivity|]. cbn [app]. rewrite map_map. cbn [fst snd]. apply Forall2_map_r.
      clear - D Fn. induction D as [|a b ? ? [E S] ? IH]; constructor; inversion_clear Fn as [|? ? F1 F2]; auto.
      cbn [fst snd]. destruct F1 as (s & F1). rewrite E. rewrite F1 at 1. rewrite F1 at 1. split; auto.
    - cbn [map app]. rewrite map_map. cbn [fst].
      replace (map (fun x : str * json => OKey (KS (fst x))) js) with (map (fun s => OKey (KS s)) (map fst js)) by now rewrite map_map.
      rewrite K. apply Injective_map_NoDup; [intros a b; congruence|]. now apply names_nodup. }
  destruct L as (s & EL & FP).
  assert (X : exists x, oget (OKey #"integers") s = Some x).
  { destruct (oget (OKey #"integers") s) eqn:X; eauto. apply oget_none in X. rewrite (pairs_keys _ _ _ FP) in X. contradiction. }
  destruct X as (x & X). destruct (pairs_get _ _ _ _ _ FP X) as (v & Iv & j & Ej & -> & _ & Sv & _).
  destruct (options_back v (Sv eq_refl)) as (j' & w & E1 & E2 & SO). assert (j' = j) as -> by congruence.
  exists (JObj js), s, (load j), w, (ODict (oset (OKey #"integers") w s)).
  split; auto. split; auto. split; auto. split; auto. split; auto.
  exists d, (oset (OKey #"integers") w s). split; auto. split; auto.
  eapply (replace_at P (fun k v w => (k = OKey #"integers" -> same_options v w) /\ (k <> OKey #"integers" -> same v w))); eauto.
  - intros v' Iv' _. assert (v' = v) as -> by (apply (oget_in _ _ _ N) in Iv, Iv'; congruence). split; [auto|congruence].
  - intros k' v' y Nk (j1 & D1 & -> & S). split; [congruence|]. intros _. destruct S as (_ & _ & S2). cbn [fst snd] in S2.
    destruct (writable_dump v' (S2 Nk)) as (j2 & D2 & S3). congruence.
Qed.

(** ** The parameters *)
Definition started (k : okey) (v w : obj) : Prop := exists j, dump (jsonify v) = Ok j /\ w = load j /\ param_ok k v.
Definition stage (done : list okey) (k : okey) (v w : obj) : Prop :=
  (In k done -> same_param k v w) /\ (~ In k done -> started k v w).
Lemma stage_next k0 done k v w : k <> k0 -> stage done k v w -> stage (k0 :: done) k v w.
Proof. intros N [A B]. split; [intros [->|I]; [congruence|auto]|]. intros I. apply B. intros X. apply I. now right. Qed.
Lemma restore_ok k p q done : NoDup (map fst p) -> pairs (stage done) p q -> In k numbered_names -> k <> OKey #"selections" -> ~ In k done ->
  exists q', restore k q = Ok q' /\ pairs (stage (k :: done)) p q'.
Proof.
  intros N F I NS ND. unfold restore. destruct (oget k q) as [w|] eqn:G.
  - destruct (pairs_get _ _ _ _ _ F G) as (v & Iv & _ & St). destruct (St ND) as (j & E & -> & P1 & _).
    destruct (options_back v (P1 I)) as (j' & w & E1 & E2 & S). assert (j' = j) as -> by congruence.
    rewrite E2. cbn [bind]. eexists. split; [reflexivity|]. eapply replace_at; eauto using stage_next.
    intros v' Iv' _. assert (v' = v) as -> by (apply (oget_in _ _ _ N) in Iv, Iv'; congruence). split.
    + intros _. split; [auto|]. split; [congruence|]. intros X. contradiction.
    + intros X. exfalso. apply X. now left.
  - exists q. split; auto. apply oget_none in G. rewrite (pairs_keys _ _ _ F) in G. eapply replace_none; eauto using stage_next.
Qed.
Lemma selections_restored p q done : NoDup (map fst p) -> pairs (stage done) p q -> ~ In (OKey #"selections") done ->
  exists q', restore_selections q = Ok q' /\ pairs (stage (OKey #"selections" :: done)) p q'.
Proof.
  intros N F ND. unfold restore_selections. destruct (oget (OKey #"selections") q) as [w|] eqn:G.
  - destruct (pairs_get _ _ _ _ _ F G) as (v & Iv & _ & St). destruct (St ND) as (j & E & -> & _ & P1 & _).
    destruct (selections_back v (P1 eq_refl)) as (j' & s & x & x' & w & E1 & E2 & E3 & E4 & -> & S).
    assert (j' = j) as -> by congruence. rewrite E2, E3, E4. cbn [bind]. eexists. split; [reflexivity|].
    eapply replace_at; eauto using stage_next.
    intros v' Iv' _. assert (v' = v) as -> by (apply (oget_in _ _ _ N) in Iv, Iv'; congruence). split.
    + intros _. split; [|split; [auto|congruence]]. intros [X|[X|[]]]; vm_compute in X; discriminate X.
    + intros X. exfalso. apply X. now left.
  - exists q. split; auto. apply oget_none in G. rewrite (pairs_keys _ _ _ F) in G. eapply replace_none; eauto using stage_next.
Qed.
Lemma params_started p : params_ok p -> exists js q, dump (jsonify (ODict p)) = Ok (JObj js) /\ load (JObj js) = ODict q /\ pairs (stage []) p q.
Proof.
  intros (N & F).
  assert (Fn : Forall (fun kv => is_name (fst kv)) p) by (eapply Forall_impl; [|exact F]; intros ? []; auto).
  assert (D : exists js, dump (jsonify (ODict p)) = Ok (JObj js) /\ Forall2 (fun a b => fst b = name_of (fst a) /\ started (fst a) (snd a) (load (snd b))) p js).
  { destruct (mapR_ok (fun kv => match kv with (k, v) => let* k := dump_key k in let* v := dump (jsonify v) in Ok (k, v) end)
                (fun a b => fst b = name_of (fst a) /\ started (fst a) (snd a) (load (snd b))) p) as (js & E & G).
    { eapply Forall_impl; [|exact F]. intros [k v] ((s & Ek) & P). pose proof P as (S1 & S2 & S3). cbn [fst snd] in *. subst k. cbn [dump_key bind].
      assert (X : exists j, dump (jsonify v) = Ok j).
      { destruct (in_dec okey_dec (OKey (KS s)) numbered_names) as [E|E].
        - destruct (options_back v (S1 E)) as (j & w & E1 & _). eauto.
        - destruct (okey_dec (OKey (KS s)) (OKey #"selections")) as [E'|E'].
          + destruct (selections_back v (S2 E')) as (j & ? & ? & ? & ? & E1 & _). eauto.
          + destruct (writable_dump v (S3 E E')) as (j & E1 & _). eauto. }
      destruct X as (j & X). rewrite X. cbn [bind]. eexists. split; [reflexivity|]. cbn [fst snd name_of]. split; auto.
      exists j. auto. }
    exists js. split; auto. cbn [jsonify dump]. rewrite mapR_map.
    match goal with |- bind ?x _ = _ => replace x with (Ok js); [reflexivity|] end. rewrite <- E.
    clear. induction p as [|[k v] d IH]; auto. now rewrite !mapR_cons, IH. }
  destruct D as (js & ED & D). exists js. cbn [load].
  assert (K : map fst js = map (fun kv => name_of (fst kv)) p).
  { clear - D. induction D as [|a b ? ? [E _] ? IHD]; cbn [map]; congruence. }
  rewrite fold_oset_fresh.
  - eexists. split; auto. split; [reflexivity|]. cbn [app]. rewrite map_map. cbn [fst snd]. apply Forall2_map_r.
    clear - D Fn. induction D as [|a b ? ? [E S] ? IH]; constructor; inversion_clear Fn as [|? ? F1 F2]; auto.
    cbn [fst snd]. destruct F1 as (s & F1). rewrite E. rewrite F1 at 1. rewrite F1 at 1. split; auto. split; [intros []|auto].
  - cbn [map app]. rewrite map_map. cbn [fst].
    replace (map (fun x : str * json => OKey (KS (fst x))) js) with (map (fun s => OKey (KS s)) (map fst js)) by now rewrite map_map.
    rewrite K. apply Injective_map_NoDup; [intros a b; congruence|]. now apply names_nodup.
Qed.
Theorem json_roundtrip p : params_ok p -> exists j q, json_tree (ODict p) = Ok j /\ json_read j = Ok (ODict q) /\ same_params p q.
Proof.
  intros H. destruct (params_started p H) as (js & q & E & L & F). destruct H as [N _].
  destruct (restore_ok (OKey #"extra_options") p q [] N F) as (q1 & E1 & F1); [now left|intros X; vm_compute in X; discriminate X|intros []|].
  destruct (restore_ok (OKey #"more_options") p q1 _ N F1) as (q2 & E2 & F2);
    [right; now left|intros X; vm_compute in X; discriminate X|intros [X|[]]; vm_compute in X; discriminate X|].
  destruct (selections_restored p q2 _ N F2) as (q3 & E3 & F3);
    [intros [X|[X|[]]]; vm_compute in X; discriminate X|].
  exists (JObj js), q3. split; auto. split.
  - unfold json_read. rewrite L, E1. cbn [bind]. rewrite E2. cbn [bind]. rewrite E3. reflexivity.
  - eapply Forall2_impl'; [|exact F3]. cbv beta. intros a b [Ea [S1 S2]]. split; auto.
    destruct (in_dec okey_dec (fst a) [OKey #"selections"; OKey #"more_options"; OKey #"extra_options"]) as [I|I]; auto.
    destruct (S2 I) as (j & D & Ej & _ & _ & P3). split; [|split].
    + intros X. exfalso. apply I. destruct X as [<-|[<-|[]]]; [right; right; now left|right; now left].
    + intros X. exfalso. apply I. left. auto.
    + intros X Y. destruct (writable_dump _ (P3 X Y)) as (j' & D' & S). rewrite Ej. congruence.
Qed.

(** ** Files *)
Lemma append_fold n recs : forall f t, f n = Some (Text t) ->
  fold_left (fun g r => append n r g) recs f n = Some (Text (t ++ concat recs)) /\
  forall m, m <> n -> fold_left (fun g r => append n r g) recs f m = f m.
Proof.
  induction recs as [|r recs IH]; intros f t E; cbn [fold_left concat]; [now rewrite app_nil_r|].
  assert (A : append n r f n = Some (Text (t ++ r))) by (unfold append; rewrite E; unfold put; now rewrite streqb_refl).
  destruct (IH _ _ A) as [H1 H2]. split; [now rewrite H1, app_assoc|].
  intros m N. rewrite H2 by auto. unfold append. rewrite E. unfold put. apply streqb_neq in N. now rewrite N.
Qed.
Theorem failed_write f n u s e f' : tough_write f n u s = (Err e, f') -> forall m, f' m = f m.
Proof.
  unfold tough_write. destruct (match sel_of s with Some _ => _ | None => _ end); [discriminate|]. now intros [= <- <-].
Qed.
Theorem good_write f n u s t : write_text u s = Ok t -> exists f', tough_write f n u s = (Ok tt, f') /\
  f' n = Some (Text t) /\ forall m, m <> n -> f' m = f m.
Proof.
  unfold write_text, tough_write. destruct (sel_of s) as [sel|]; [|discriminate].
  destruct (prepare u) as [p|]; cbn [bind]; [|discriminate]. destruct (write_buffer p sel) as [recs|]; cbn [bind]; [|discriminate].
  intros [= <-]. eexists. split; [reflexivity|].
  destruct (append_fold n recs (open_w n f) []) as [H1 H2]; [unfold open_w, put; now rewrite streqb_refl|].
  split; auto. intros m N. rewrite H2 by auto. unfold open_w, put. apply streqb_neq in N. now rewrite N.
Qed.
Theorem write_raises f n u s e f' : tough_write f n u s = (Err e, f') <-> write_text u s = Err e /\ f' = f.
Proof.
  unfold write_text, tough_write. destruct (sel_of s) as [sel|]; [|split; [intros [= <- <-]; auto|intros [[= <-] ->]; auto]].
  destruct (prepare u) as [p|]; cbn [bind]; [|split; [intros [= <- <-]; auto|intros [[= <-] ->]; auto]].
  destruct (write_buffer p sel) as [recs|]; cbn [bind]; [split; [discriminate|intros [? _]; discriminate]|split; [intros [= <- <-]; auto|intros [[= <-] ->]; auto]].
Qed.
Theorem json_write_ok f n p : params_ok p -> exists j q f', json_write f n (ODict p) = (Ok tt, f') /\ f' n = Some (Json j) /\
  (forall m, m <> n -> f' m = f m) /\ json_read j = Ok (ODict q) /\ same_params p q.
Proof.
  intros H. destruct (json_roundtrip p H) as (j & q & E & R & S). unfold json_write. rewrite E.
  exists j, q. eexists. split; [reflexivity|]. split; [unfold put; now rewrite streqb_refl|]. split; auto.
  intros m N. unfold open_w, put. apply streqb_neq in N. now rewrite N.
Qed.
