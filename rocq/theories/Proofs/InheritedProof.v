(** Inherited values may be left out of the rocks. *)
From Coq Require Import String Ascii ZArith Bool Lia List.
From Verif Require Import Base.Str Base.Digits Base.Flt.
From Verif Require Import Model.Py Model.Records Model.Write.
From Verif Require Import Proofs.DictLemmas Spec.DictOrder Spec.Known Proofs.KnownProof Spec.Defaults Spec.Inherited.
Import ListNotations.
Local Open Scope nat_scope.

(** ** Dictionaries with each key once *)
Lemma once_dup d : once (PDict d) -> NoDup (dkeys d). Proof. intros (N & _). exact N. Qed.
Lemma once_in d : once (PDict d) -> forall k v, In (k, v) d -> once v.
Proof. intros (_ & H). induction d as [|[a x] d IH]; intros k v; [intros []|]. destruct H as (A & B). intros [E|I]; [now injection E as <- <-|exact (IH B k v I)]. Qed.
Lemma once_get d k v : once (PDict d) -> dget k d = Some v -> once v.
Proof. intros O G. exact (once_in d O k v (dget_in _ _ _ G)). Qed.
Lemma known_refl (R : key -> pyval -> pyval -> Prop) v : (forall k x, once x -> R k x x) -> once v -> known_in R v v.
Proof.
  intros H O. destruct v; try reflexivity. cbn [known_in]. split; [now apply once_dup|]. split; [now apply once_dup|]. intros k _. destruct (dget k d) eqn:E; [|exact I]. apply H. exact (once_get _ _ _ O E).
Qed.
Lemma mixed_refl (R : key -> pyval -> pyval -> Prop) v : (forall k x, once x -> R k x x) -> once v -> mixed R v v.
Proof.
  intros H O. destruct v; try reflexivity. cbn [mixed]. split; [now apply once_dup|]. split; [now apply once_dup|]. intros k. destruct (dget k d) eqn:E; [|exact I]. apply H. exact (once_get _ _ _ O E).
Qed.
Lemma inside_refl k v : once v -> inside_known k v v.
Proof.
  intros O. unfold inside_known. destruct (key_eqb k _); [apply mixed_refl; auto|]. destruct (existsb _ _); [apply known_refl; auto|reflexivity].
Qed.
Lemma exact_refl k v : once v -> inside k v v.
Proof. intros O. unfold inside. destruct (existsb _ _); [apply mixed_refl; auto|reflexivity]. Qed.
Lemma rows_refl v : once v -> rows vk v v.
Proof.
  intros O. destruct v; try reflexivity. cbn [rows]. pose proof (once_in _ O) as X. clear O. induction d as [|[a x] d IH]; constructor.
  - split; [reflexivity|]. cbn [snd]. apply known_refl; [exact inside_refl|]. apply (X a). now left.
  - apply IH. intros k v I. apply (X k). now right.
Qed.
Lemma parameter_refl k v : once v -> parameter_known k v v.
Proof.
  intros O. unfold parameter_known. destruct (existsb _ number_names); [exact (mixed_refl _ v exact_refl O)|]. destruct (existsb _ switch_names); [split; [exact (known_refl _ v inside_refl O)|tauto]|].
  destruct (existsb _ group_names); [exact (known_refl _ v inside_refl O)|]. destruct (existsb _ table_names); [exact (rows_refl v O)|reflexivity].
Qed.

(** ** Padded dictionaries *)
Lemma padded_get D d d' : padded D d d' -> NoDup (dkeys d') -> forall k, dget k d' = dget k d \/ (dget k d = None /\ exists v, dget k d' = Some v /\ dget k D = Some v).
Proof.
  intros H. induction H as [|[a x] d d' H IH|a x d d' G H IH]; intros N k; [now left| |]; unfold dkeys in N; cbn [map fst] in N; inversion N as [|? ? A B]; subst; cbn [dget].
  - destruct (key_eqb k a); [now left|]. exact (IH B k).
  - destruct (key_eqb k a) eqn:E; [|exact (IH B k)]. apply key_eqb_eq in E as ->. right. split; [|eauto]. destruct (IH B a) as [X|(X & _)]; [|exact X].
    rewrite <- X. apply dget_none_notin. exact A.
Qed.
Lemma dget_default k def : dget k (fill_default def) = match dget k def with Some v => Some v | None => dget k d_default end.
Proof.
  unfold fill_default. generalize d_default as l. intros l. revert def. induction l as [|[a v] l IH]; intros def; cbn [fold_left dget fst snd].
  - now destruct (dget k def).
  - rewrite IH. destruct (key_eqb k a) eqn:E.
    + apply key_eqb_eq in E as <-. unfold dmem. destruct (dget k def) eqn:G; [now rewrite G|]. rewrite dget_dset, key_eqb_refl. reflexivity.
    + destruct (dmem a def); [reflexivity|]. rewrite dget_dset, E. reflexivity.
Qed.
Lemma nodup_default def : NoDup (dkeys def) -> NoDup (dkeys (fill_default def)).
Proof. unfold fill_default. generalize d_default as l. intros l. revert def. induction l as [|kv l IH]; intros def N; cbn [fold_left]; [exact N|]. apply IH. destruct (dmem _ _); [exact N|now apply nodup_dset]. Qed.
Lemma sub_default k v : dget k default_defaults = Some v -> dget k d_default = Some v.
Proof. intros H. exact H. Qed.
Lemma once_default k v : dget k d_default = Some v -> once v.
Proof.
  intros G. apply dget_in in G. assert (X : Forall (fun kv => once (snd kv)) d_default); [|rewrite Forall_forall in X; exact (X _ G)].
  unfold d_default. cbn [map app]. repeat (apply Forall_cons; [cbn; repeat split; try (apply DictLemmas.no_dup_keys_ok; vm_compute; reflexivity)|]). apply Forall_nil.
Qed.
Lemma dget_filter (f : key -> bool) k d : dget k (filter (fun kv => f (fst kv)) d) = if f k then dget k d else None.
Proof.
  induction d as [|[a v] d IH]; cbn [filter dget fst]; [now destruct (f k)|]. destruct (f a) eqn:F; cbn [dget]; destruct (key_eqb k a) eqn:E; try exact IH.
  - apply key_eqb_eq in E as ->. now rewrite F.
  - apply key_eqb_eq in E as ->. rewrite IH, F. reflexivity.
Qed.
Lemma dget_both k a b : dget k (a ++ b) = match dget k a with Some v => Some v | None => dget k b end.
Proof. induction a as [|[x v] a IH]; cbn [app dget]; [reflexivity|]. destruct (key_eqb k x); [reflexivity|exact IH]. Qed.
Lemma inherited_get u k v : dget k (inherited u) = Some v -> kept_out k = false /\ dget k (fill_default (given_default u)) = Some v.
Proof.
  unfold inherited. rewrite (dget_filter (fun k => negb (own k))). change (own k) with (kept_out k). destruct (kept_out k); cbn [negb]; [discriminate|]. rewrite dget_both, dget_default. intros H. split; [reflexivity|].
  destruct (dget k (given_default u)); [exact H|]. now apply sub_default.
Qed.
Lemma default_longer c c' : NoDup (dkeys c') -> padded default_defaults c c' -> forall k, dget k (fill_default c) = dget k (fill_default c').
Proof.
  intros N P k. rewrite !dget_default. destruct (padded_get _ _ _ P N k) as [->|(-> & v & -> & G)]; [reflexivity|]. now apply sub_default.
Qed.

(** ** The parameters *)
Definition both (t : dict) (k : key) (v w : pyval) : Prop := once v /\ once w /\ respelled t k v w.
Lemma re_refl t k v : respelled t k v v.
Proof. unfold respelled, rows_of, longer. destruct (key_eqb k _); [now left|]. destruct (key_eqb k _); [now left|reflexivity]. Qed.
Lemma self_both t : ea every (both t) d_Parameters d_Parameters.
Proof.
  split; [apply nodup_ok; vm_compute; reflexivity|]. split; [apply nodup_ok; vm_compute; reflexivity|]. intros k _. destruct (dget k d_Parameters) as [v|] eqn:E; [|exact I]. apply dget_in in E.
  assert (V : once v).
  { assert (X : forallb (fun kv => match snd kv with PDict [] => true | PDict _ => false | _ => true end) d_Parameters = true) by (vm_compute; reflexivity).
    rewrite forallb_forall in X. specialize (X _ E). cbn [snd] in X. destruct v as [| | | | | | |[|? ?]]; cbn; auto; [split; [constructor|exact I]|discriminate]. }
  split; [exact V|]. split; [exact V|apply re_refl].
Qed.
Lemma given_both u u' : once (PDict u) -> once (PDict u') -> all_respelled u u' -> ea every (both (inherited u)) u u'.
Proof.
  intros O O' H. split; [now apply once_dup|]. split; [now apply once_dup|]. intros k _. unfold all_respelled in H. revert H. generalize (inherited u) as t. intros t H.
  assert (X : match dget k u, dget k u' with Some v, Some w => respelled t k v w | None, None => True | _, _ => False end).
  { clear O O'. induction H as [|[a v] [b w] d d' (X & Y) H IH]; cbn [dget]; [exact I|]. cbn [fst snd] in *. subst b. destruct (key_eqb k a) eqn:E; [apply key_eqb_eq in E as ->; exact Y|exact IH]. }
  destruct (dget k u) eqn:E, (dget k u') eqn:E'; try contradiction; [|exact I]. split; [exact (once_get _ _ _ O E)|]. split; [exact (once_get _ _ _ O' E')|exact X].
Qed.
Lemma both_get t p p' k : ea every (both t) p p' -> rres (both t k) (dgetE k p) (dgetE k p').
Proof. intros H. pose proof (ea_get every _ _ _ k eq_refl H) as X. unfold dgetE. destruct (dget k p), (dget k p'); try contradiction; cbn; auto. Qed.
Lemma same_entries f f' : NoDup (dkeys f) -> NoDup (dkeys f') -> (forall k, dget k f = dget k f') -> (forall k v, dget k f = Some v -> once v) -> kn inside_known f f'.
Proof. intros N N' E O. split; [exact N|]. split; [exact N'|]. intros k _. rewrite <- E. destruct (dget k f) eqn:G; [|exact I]. apply inside_refl. exact (O k p G). Qed.
Lemma rocks_both t v w : once v -> once w -> rows_of (fun _ => longer t) v w ->
  rres (Forall2 (fun a b => fst a = fst b /\ once (snd a) /\ once (snd b) /\ longer t (snd a) (snd b))) (as_dict v) (as_dict w).
Proof.
  intros O O' [->|(d & d' & -> & -> & H)].
  - destruct w; try reflexivity. cbn [as_dict rres]. pose proof (once_in _ O) as X. clear O O'. induction d as [|[a x] d IH]; constructor.
    + cbn [fst snd]. assert (Y : once x) by (apply (X a); now left). split; [reflexivity|]. split; [exact Y|]. split; [exact Y|now left].
    + apply IH. intros k v J. apply (X k). now right.
  - cbn [as_dict rres]. pose proof (once_in _ O) as X. pose proof (once_in _ O') as X'. clear O O'. induction H as [|[a x] [b y] d d' (K & L) H IH]; constructor.
    + cbn [fst snd] in *. split; [exact K|]. split; [apply (X a); now left|]. split; [apply (X' b); now left|exact L].
    + apply IH; intros k v J; [apply (X k)|apply (X' k)]; now right.
Qed.
Lemma rock_both t f f' v w : (forall k, dget k f = dget k f') -> (forall k x, dget k f = Some x -> once x) -> (forall k x, dget k t = Some x -> kept_out k = false /\ dget k f = Some x) ->
  once v -> once w -> longer t v w -> rres (kn inside_known) (let* r := as_dict v in Ok (fill_rock f r)) (let* r := as_dict w in Ok (fill_rock f' r)).
Proof.
  intros F OF T O O' L. assert (X : forall r r', once (PDict r) -> once (PDict r') -> (forall k, dget k (fill_rock f r) = dget k (fill_rock f' r')) -> kn inside_known (fill_rock f r) (fill_rock f' r')).
  { intros r r' A B E. apply same_entries; [apply nodup_fill, once_dup, A|apply nodup_fill, once_dup, B|exact E|]. intros k x. rewrite dget_fill. destruct (dget k r) eqn:G; [intros Y; injection Y as <-; exact (once_get _ _ _ A G)|].
    destruct (kept_out k); [discriminate|]. apply OF. }
  destruct L as [->|(r & r' & -> & -> & N & P)].
  - destruct w; try reflexivity. cbn [as_dict bind rres]. apply X; auto. intros k. rewrite !dget_fill, F. reflexivity.
  - cbn [as_dict bind rres]. apply X; auto. intros k. rewrite !dget_fill. destruct (padded_get _ _ _ P N k) as [->|(-> & x & -> & G)]; [now rewrite F|]. destruct (T k x G) as (-> & ->). reflexivity.
Qed.
Lemma prepare_both u u' : once (PDict u) -> once (PDict u') -> all_respelled u u' -> rres alike (prepare u) (prepare u').
Proof.
  intros O O' H. unfold prepare. cbv zeta.
  assert (L : forall c v, get_dict #"default" (dset #"title" v (dupdate d_Parameters u)) = Ok c -> c = given_default u).
  { intros c v. unfold get_dict, dgetE, given_default. rewrite dget_dset. change (key_eqb #"default" #"title") with false. cbv iota. rewrite dget_dupdate by (exact (once_dup _ O)).
    destruct (dget #"default" u) as [[]|]; cbn; intros X; try discriminate X; injection X as <-; reflexivity. }
  pose proof (ea_update _ _ _ _ _ (self_both (inherited u)) (given_both u u' O O' H)) as P. pose proof (inherited_get u) as T. revert P T L. generalize (inherited u) as t, (given_default u) as g, (dupdate d_Parameters u) as p, (dupdate d_Parameters u') as p'.
  clear. intros t g p p' P T L.
  eapply bind_rr; [exact (both_get t p p' #"title" P)|]. intros x y (OX & OY & E). change (x = y) in E. subst y.
  specialize (fun c => L c (if is_str x then PSeq SList [x] else x)). cbv beta in L.
  assert (Q : ea every (both t) (dset #"title" (if is_str x then PSeq SList [x] else x) p) (dset #"title" (if is_str x then PSeq SList [x] else x) p')).
  { apply ea_set; [|exact P]. assert (Z : once (if is_str x then PSeq SList [x] else x)) by (destruct (is_str x); [exact I|exact OX]). split; [exact Z|]. split; [exact Z|reflexivity]. }
  revert Q L. generalize (dset #"title" (if is_str x then PSeq SList [x] else x) p) as q, (dset #"title" (if is_str x then PSeq SList [x] else x) p') as q'. clear P. intros q q' Q L.
  apply bind_rr with (R := fun c c' => c = g /\ once (PDict c) /\ once (PDict c') /\ forall k, dget k (fill_default c) = dget k (fill_default c')).
  - assert (D : rres (fun c c' => once (PDict c) /\ once (PDict c') /\ forall k, dget k (fill_default c) = dget k (fill_default c')) (get_dict #"default" q) (get_dict #"default" q')).
    { unfold get_dict. eapply bind_rr; [exact (both_get t q q' #"default" Q)|]. intros v w (A & B & E). change (longer default_defaults v w) in E. destruct E as [->|(d & d' & -> & -> & N & R)].
      - destruct w; try reflexivity. cbn [as_dict rres]. auto.
      - cbn [as_dict rres]. split; [exact A|]. split; [exact B|]. exact (default_longer d d' N R). }
    destruct (get_dict #"default" q) as [c|], (get_dict #"default" q') as [c'|]; cbn [rres] in *; try contradiction; [|exact D]. split; [exact (L c eq_refl)|exact D].
  - intros c c' (-> & OC & OC' & F).
    assert (N : NoDup (dkeys (fill_default g))) by (apply nodup_default, once_dup, OC). assert (N' : NoDup (dkeys (fill_default c'))) by (apply nodup_default, once_dup, OC').
    assert (OF : forall k v, dget k (fill_default g) = Some v -> once v).
    { intros k v. rewrite dget_default. destruct (dget k g) eqn:G; [intros Y; injection Y as <-; exact (once_get _ _ _ OC G)|apply once_default]. }
    revert N N' F OF T. generalize (fill_default g) as f, (fill_default c') as f'. clear L OC OC'. intros f f' N N' F OF T.
    unfold get_dict, dgetE. rewrite !dget_dset. change (key_eqb #"rocks" #"default") with false. cbv iota. fold (dgetE #"rocks" q) (dgetE #"rocks" q').
    apply bind_rr with (R := Forall2 (fun a b => fst a = fst b /\ once (snd a) /\ once (snd b) /\ longer t (snd a) (snd b))).
    + eapply bind_rr; [exact (both_get t q q' #"rocks" Q)|]. intros v w (A & B & E). change (rows_of (fun _ => longer t) v w) in E. now apply rocks_both.
    + intros d d' D. apply bind_rr with (R := trows).
      * apply (mapM_rr _ (fun a b => fst a = fst b /\ vk (snd a) (snd b)) _ (fun kv => let* r := as_dict (snd kv) in Ok (fst kv, PDict (fill_rock f' r))) d d' D). intros a b (K & A & B & E). pose proof (rock_both t f f' (snd a) (snd b) F OF T A B E) as Z.
        destruct (as_dict (snd a)), (as_dict (snd b)); cbn [bind rres] in *; try contradiction; [|exact Z]. cbn [fst snd known_in]. split; [exact K|exact Z].
      * intros l l' X. cbn [rres]. destruct Q as (NQ & NQ' & Q). split; [now do 2 apply nodup_dset|]. split; [now do 2 apply nodup_dset|]. intros k K. rewrite !dget_dset. destruct (key_eqb k #"rocks") eqn:E1; [apply key_eqb_eq in E1 as ->; exact X|].
        destruct (key_eqb k #"default") eqn:E2; [apply key_eqb_eq in E2 as ->; exact (same_entries f f' N N' F OF)|]. specialize (Q k eq_refl). destruct (dget k q), (dget k q'); try contradiction; [|exact I].
        destruct Q as (A & B & E). unfold respelled in E. rewrite E1, E2 in E. subst p1. now apply parameter_refl.
Qed.
Lemma inherited_same u u' blk : once (PDict u) -> once (PDict u') -> all_respelled u u' -> write_text u blk = write_text u' blk.
Proof.
  intros O O' H. unfold write_text. destruct (sel_of blk) as [sel|]; [|reflexivity]. eapply bind_r; [exact (prepare_both u u' O O' H)|]. intros p p' P. now rewrite (buffer_same p p' sel P).
Qed.
