(** Cell data and cell blocks. *)
From Coq Require Import String Ascii Arith ZArith Bool Lia Permutation List.
From Verif Require Import Base.Str Model.Py Model.Numpy Model.Mesh Spec.Order Spec.MeshCells Proofs.DictLemmas Proofs.NumpyProof Proofs.ConnectProof.
Import ListNotations.
Local Open Scope nat_scope.

Lemma removelast_cumsum b n m r : removelast (cumsum b (n :: m :: r)) = (b + n) :: removelast (cumsum (b + n) (m :: r)).
Proof. reflexivity. Qed.
Lemma split_from_ok {V} (ns : list nat) : ns <> [] -> forall b (arr : list V), List.length arr = list_sum ns ->
  map (@List.length V) (split_from b (removelast (cumsum b ns)) arr) = ns /\ concat (split_from b (removelast (cumsum b ns)) arr) = arr.
Proof.
  induction ns as [|n [|m r] IH]; intros NE b arr L; [contradiction| |].
  - cbn [cumsum removelast split_from map concat]. cbn in L. rewrite app_nil_r. split; [f_equal; lia|reflexivity].
  - rewrite removelast_cumsum. cbn [split_from map concat]. replace (b + n - b) with n by lia. change (list_sum (n :: m :: r)) with (n + list_sum (m :: r)) in L.
    destruct (IH ltac:(discriminate) (b + n) (skipn n arr)) as [A B]; [rewrite skipn_length; lia|]. rewrite A, B. split.
    + f_equal. rewrite firstn_length. lia.
    + apply firstn_skipn.
Qed.
Theorem split_ok {V} cells (arr : list V) : cells <> [] -> List.length arr = n_cells cells ->
  exists ps, split cells arr = Ok ps /\ concat ps = arr /\ map (@List.length V) ps = sizes cells.
Proof.
  intros NE L. unfold split. rewrite L, Nat.eqb_refl. cbn [guard bind]. eexists. split; [reflexivity|].
  destruct (split_from_ok (V:=V) (sizes cells)) with (b := 0) (arr := arr) as [A B]; [destruct cells; [contradiction|discriminate]|exact L|].
  split; [exact B|exact A].
Qed.
Theorem split_refused {V} cells (arr : list V) : List.length arr <> n_cells cells -> split cells arr = Err ValueError.
Proof. intros N. unfold split. destruct (Nat.eqb_spec (List.length arr) (n_cells cells)); [contradiction|reflexivity]. Qed.

(** grouping *)
Definition of_type {B} (t : str) (l : list (str * B)) : list (str * B) := filter (fun x => streqb t (fst x)) l.
Lemma add_to_In {B} t x (d : list (str * list B)) : NoDup (map fst d) ->
  NoDup (map fst (add_to t x d)) /\
  forall k l, In (k, l) (add_to t x d) <-> (k <> t /\ In (k, l) d) \/ (k = t /\ exists l0, l = l0 ++ [x] /\ (In (t, l0) d \/ (l0 = [] /\ ~ In t (map fst d)))).
Proof.
  induction d as [|[k0 l0] d IH]; intros N; cbn [add_to map fst].
  - split; [constructor; [intros []|constructor]|]. intros k l. cbn [In]. split.
    + intros [E | []]. injection E as <- <-. right. split; auto. exists []. split; auto.
    + intros [[_ []] | (-> & l1 & -> & [[] | [-> _]])]. now left.
  - cbn [map fst] in N. inversion N as [|? ? N1 N2]; subst. destruct (streqb t k0) eqn:E.
    + apply streqb_eq in E. subst k0. split; [exact N|]. intros k l. cbn [In]. split.
      * intros [X | I]; [injection X as <- <-; right; split; auto; exists l0; split; auto|].
        left. split; [intros ->; apply N1; change t with (fst (t, l)); now apply in_map|now right].
      * intros [[NE [X | I]] | (-> & l1 & -> & [[X | I] | [_ X]])].
        -- injection X as <- <-. contradiction.
        -- now right.
        -- injection X as <-. now left.
        -- destruct N1. change t with (fst (t, l1)). now apply in_map.
        -- destruct X. now left.
    + destruct (IH N2) as [IN1 IN2]. assert (NE : k0 <> t) by (intros ->; rewrite streqb_refl in E; discriminate). split.
      * cbn [map fst]. constructor; auto. intros I. apply in_map_iff in I as ([k l] & X & I). cbn [fst] in X. subst k.
        apply IN2 in I as [[_ I] | (-> & _)]; [|contradiction]. apply N1. change k0 with (fst (k0, l)). now apply in_map.
      * intros k l. cbn [In]. rewrite IN2. split.
        -- intros [X | [[A B0] | (-> & l1 & -> & C)]]; [injection X as <- <-; left; auto|left; auto|right; split; auto; exists l1; split; auto].
           destruct C as [C | [-> C]]; [left; now right|right]. split; auto. intros [X | X]; auto.
        -- intros [[A [X | B0]] | (-> & l1 & -> & C)]; [now left|right; left; auto|right; right]. split; auto. exists l1. split; auto.
           destruct C as [[X | C] | [-> C]]; [injection X as <- <-; contradiction|auto|]. right. split; auto.
Qed.
Lemma of_type_app {B} t (a b : list (str * B)) : of_type t (a ++ b) = of_type t a ++ of_type t b.
Proof. apply filter_app. Qed.
Lemma grouped_spec {B} (l : list (str * B)) : NoDup (map fst (grouped l)) /\
  forall t xs, In (t, xs) (grouped l) <-> xs = map snd (of_type t l) /\ xs <> [].
Proof.
  induction l as [|[t0 x] l IH] using rev_ind.
  - split; [constructor|]. intros t xs. split; [intros []|]. intros [-> X]. now destruct X.
  - unfold grouped in *. rewrite fold_left_app. cbn [fold_left fst snd]. destruct IH as [IH1 IH2].
    destruct (add_to_In t0 x _ IH1) as [A1 A2]. split; [exact A1|]. intros t xs. rewrite A2, of_type_app. cbn [of_type filter fst].
    destruct (streqb t t0) eqn:E.
    + apply streqb_eq in E. subst t0. rewrite map_app. cbn [map snd]. split.
      * intros [[X _] | (_ & l0 & -> & [I | [-> I]])]; [contradiction| |].
        -- apply IH2 in I as [-> _]. split; auto. intros X. apply app_eq_nil in X as [_ X]. discriminate.
        -- split; [|discriminate]. destruct (map snd (of_type t l)) as [|y ys] eqn:M; [reflexivity|]. exfalso. apply I.
           change t with (fst (t, y :: ys)). apply in_map. apply IH2. split; [auto|discriminate].
      * intros [-> _]. right. split; auto. exists (map snd (of_type t l)). split; auto.
        destruct (map snd (of_type t l)) as [|y ys] eqn:M; [right|left; apply IH2; split; [auto|discriminate]]. split; auto.
        intros I. apply in_map_iff in I as ([t' ys] & X & I). cbn [fst] in X. subst t'. apply IH2 in I as [-> X]. congruence.
    + rewrite app_nil_r, IH2. assert (NE : t <> t0) by (intros ->; rewrite streqb_refl in E; discriminate). split; [intros [[_ H] | [-> _]]; [exact H|contradiction]|]. intros H. left. auto.
Qed.

Lemma take_by_type {B V} t (l : list (str * B)) (ps : list V) : List.length l = List.length ps ->
  take ps (map snd (of_type t (combine (map fst l) (seq 0 (List.length l))))) = Ok (map snd (of_type t (combine (map fst l) ps))).
Proof.
  intros L. assert (G : forall (l : list (str * B)) (ps pre : list V), List.length l = List.length ps ->
    take (pre ++ ps) (map snd (of_type t (combine (map fst l) (seq (List.length pre) (List.length l))))) = Ok (map snd (of_type t (combine (map fst l) ps)))).
  { clear. induction l as [|[k b] l IH]; intros [|p ps] pre L; try discriminate; [reflexivity|].
    cbn [map fst List.length seq combine]. specialize (IH ps (pre ++ [p])). rewrite app_length in IH. cbn [List.length] in IH. rewrite Nat.add_1_r, <- app_assoc in IH. cbn [app] in IH.
    cbn [List.length] in L. cbn [of_type filter fst]. destruct (streqb t k); cbn [map snd].
    - unfold take in *. cbn [mapM]. unfold item at 1. rewrite nth_error_app2 by lia. rewrite Nat.sub_diag. cbn [nth_error bind].
      unfold of_type in IH. rewrite IH by lia. reflexivity.
    - apply IH. lia. }
  exact (G l ps [] L).
Qed.
Lemma grouped_keys {B C} (l : list (str * B)) (m : list (str * C)) : map fst l = map fst m -> map fst (grouped l) = map fst (grouped m).
Proof.
  unfold grouped. assert (G : forall (l : list (str * B)) (m : list (str * C)) d e, map fst l = map fst m -> map fst d = map fst e ->
    map fst (fold_left (fun d tx => add_to (fst tx) (snd tx) d) l d) = map fst (fold_left (fun d tx => add_to (fst tx) (snd tx) d) m e)).
  { clear. induction l as [|[t x] l IH]; intros [|[u y] m] d e E D; try discriminate; [exact D|]. cbn [map fst] in E. injection E as -> E.
    cbn [fold_left fst snd]. apply IH; auto. clear -D. revert e D. induction d as [|[k a] d IH]; intros [|[k' a'] e] D; try discriminate; [reflexivity|].
    cbn [map fst] in D. injection D as -> D. cbn [add_to]. destruct (streqb u k'); cbn [map fst]; [now f_equal|f_equal; auto]. }
  intros E. now apply G.
Qed.

(** blocks with their data, cell by cell *)
Lemma combine_app {A B} (a a' : list A) (b b' : list B) : List.length a = List.length b -> combine (a ++ a') (b ++ b') = combine a b ++ combine a' b'.
Proof. revert b. induction a as [|x a IH]; intros [|y b] L; try discriminate; [reflexivity|]. cbn [app combine]. f_equal. apply IH. now injection L. Qed.
Lemma paired_blocks {V} cells (ps : list (list V)) : map (@List.length V) ps = sizes cells ->
  paired cells ps = flat_map (fun bd => combine (map (pair (fst (fst bd))) (snd (fst bd))) (snd bd)) (combine cells ps).
Proof.
  revert ps. induction cells as [|b cells IH]; intros [|p ps] L; try discriminate; [reflexivity|]. cbn [sizes map] in L. injection L as L1 L2.
  unfold paired in *. cbn [flat flat_map concat combine fst snd]. rewrite combine_app by now rewrite map_length. f_equal. now apply IH.
Qed.
Lemma filter_flat_map {A B} (f : B -> bool) (g : A -> list B) l : filter f (flat_map g l) = flat_map (fun x => filter f (g x)) l.
Proof. induction l as [|x l IH]; [reflexivity|]. cbn [flat_map]. now rewrite filter_app, IH. Qed.
Lemma filter_block {V} t k (cs : list (list nat)) (ds : list V) :
  filter (has_type t) (combine (map (pair k) cs) ds) = if streqb t k then combine (map (pair k) cs) ds else [].
Proof.
  revert ds. induction cs as [|c cs IH]; intros [|d ds]; cbn [map combine filter]; try (now destruct (streqb t k)).
  unfold has_type at 1. cbn [fst]. rewrite IH. now destruct (streqb t k).
Qed.
Lemma paired_type {V} t cells (ps : list (list V)) : map (@List.length V) ps = sizes cells ->
  filter (has_type t) (paired cells ps) =
  combine (map (pair t) (concat (map snd (of_type t cells)))) (concat (map snd (of_type t (combine (map fst cells) ps)))).
Proof.
  intros L. rewrite paired_blocks by exact L. rewrite filter_flat_map. revert ps L.
  induction cells as [|[k cs] cells IH]; intros [|p ps] L; try discriminate; [reflexivity|]. cbn [sizes map] in L. injection L as L1 L2.
  cbn [combine flat_map fst snd map of_type filter]. rewrite filter_block, IH by exact L2. unfold of_type. destruct (streqb t k) eqn:E; [|reflexivity].
  apply streqb_eq in E. subst k. cbn [map snd concat]. rewrite map_app, combine_app; [reflexivity|]. now rewrite map_length.
Qed.
Lemma flat_type t cells : filter (fun x => streqb t (fst x)) (flat cells) = map (pair t) (concat (map snd (of_type t cells))).
Proof.
  induction cells as [|[k cs] cells IH]; [reflexivity|]. cbn [flat flat_map fst snd]. rewrite filter_app. cbn [of_type filter fst]. 
  assert (G : filter (fun x : str * list nat => streqb t (fst x)) (map (pair k) cs) = if streqb t k then map (pair k) cs else []).
  { induction cs as [|c cs IHc]; cbn [map filter fst]; [now destruct (streqb t k)|]. rewrite IHc. now destruct (streqb t k). }
  rewrite G. unfold flat in IH. rewrite IH. destruct (streqb t k) eqn:E; [|reflexivity]. apply streqb_eq in E. subst k. cbn [map snd concat]. now rewrite map_app.
Qed.

Lemma char_order : total_order char_leb.
Proof.
  unfold char_leb. destruct nat_order as (T & TR & AS). split; [intros; apply T|]. split; [intros x y z; apply TR|].
  intros x y A B. rewrite <- (ascii_nat_embedding x), <- (ascii_nat_embedding y). f_equal. now apply AS.
Qed.
Lemma str_order : total_order str_leb.
Proof. apply lexb_order, char_order. Qed.
Lemma assoc_In {B} k (x : B) d : NoDup (map fst d) -> In (k, x) d -> assoc k d = Ok x.
Proof.
  induction d as [|[k' y] d IH]; intros N I; [destruct I|]. cbn [assoc]. cbn [map fst] in N. inversion N; subst.
  destruct I as [E | I]; [injection E as -> ->; now rewrite streqb_refl|]. destruct (streqb k k') eqn:E; [|auto].
  apply streqb_eq in E. subst k'. destruct H1. change k with (fst (k, x)). now apply in_map.
Qed.
Lemma mapM_map {A B C} (f : A -> res B) (g : C -> A) l : mapM f (map g l) = mapM (fun x => f (g x)) l.
Proof. induction l as [|x l IH]; [reflexivity|]. cbn [map mapM]. now rewrite IH. Qed.
Lemma of_type_map {B} t (f : str -> B) T : NoDup T ->
  of_type t (map (fun u => (u, f u)) T) = if existsb (streqb t) T then [(t, f t)] else [].
Proof.
  induction T as [|u T IH]; intros N; [reflexivity|]. inversion N; subst. cbn [map of_type filter fst existsb]. fold (of_type t (map (fun u => (u, f u)) T)).
  rewrite IH by auto. destruct (streqb t u) eqn:E; cbn [orb]; [|reflexivity]. apply streqb_eq in E. subst u.
  destruct (existsb (streqb t) T) eqn:X; [|reflexivity]. apply existsb_exists in X as (w & W & E). apply streqb_eq in E. subst w. contradiction.
Qed.

Section Layouts.
  Context {V : Type} (cells : list cellblock) (data : list (str * list (list V))).
  Let T := map fst (old_cells cells).
  Let cells_of t := concat (map snd (of_type t cells)).
  Let data_of (ps : list (list V)) t := concat (map snd (of_type t (combine (map fst cells) ps))).

  Lemma T_grouped : T = map fst (grouped cells).
  Proof. unfold T, old_cells. rewrite map_map. reflexivity. Qed.
  Lemma T_nodup : NoDup T.
  Proof. rewrite T_grouped. apply grouped_spec. Qed.
  Lemma T_In t : In t T <-> of_type t cells <> [].
  Proof.
    rewrite T_grouped. split.
    - intros I. apply in_map_iff in I as ([t' xs] & E & I). cbn [fst] in E. subst t'. apply grouped_spec in I as [-> N]. intros X. rewrite X in N. now apply N.
    - intros N. change t with (fst (t, map snd (of_type t cells))). apply in_map. apply grouped_spec. split; auto. destruct (of_type t cells); [contradiction|discriminate].
  Qed.
  Lemma old_cells_T : old_cells cells = map (fun t => (t, cells_of t)) T.
  Proof.
    unfold T, old_cells. rewrite map_map. cbn [fst]. rewrite map_map. apply map_ext_in. intros [t xs] I. cbn [fst snd]. apply grouped_spec in I as [-> _]. reflexivity.
  Qed.
  Lemma blocks_T : grouped (combine (map fst cells) (seq 0 (List.length cells))) =
    map (fun t => (t, map snd (of_type t (combine (map fst cells) (seq 0 (List.length cells)))))) T.
  Proof.
    rewrite T_grouped. rewrite (grouped_keys cells (combine (map fst cells) (seq 0 (List.length cells)))).
    - rewrite map_map. rewrite <- map_id at 1. apply map_ext_in. intros [t xs] I. cbn [fst]. apply grouped_spec in I as [-> _]. reflexivity.
    - assert (G : forall (a : list str) (b : list nat), List.length a = List.length b -> map fst (combine a b) = a).
      { clear. induction a as [|x a IH]; intros [|y b] L; try discriminate; [reflexivity|]. cbn [combine map fst]. f_equal. apply IH. now injection L. }
      rewrite G; [reflexivity|]. now rewrite map_length, seq_length.
  Qed.

  Hypothesis NE : cells <> [].
  Hypothesis ND : NoDup (map fst data).
  Hypothesis WF : Forall (fun kv => map (@List.length V) (snd kv) = sizes cells) data.
  Let old_data := match data with [] => [] | _ => map (fun t => (t, map (fun kv => (fst kv, data_of (snd kv) t)) data)) T end.

  Lemma wf_length kv : In kv data -> List.length (snd kv) = List.length cells.
  Proof. intros I. rewrite Forall_forall in WF. specialize (WF kv I). apply (f_equal (@List.length nat)) in WF. unfold sizes in WF. now rewrite !map_length in WF. Qed.
  Lemma get_old_ok : get_old_meshio_cells cells data = Ok (old_cells cells, old_data).
  Proof.
    assert (X : mapM (fun tb => let* l := mapM (fun kv => let* vs := take (snd kv) (snd tb) in Ok (fst kv, concat vs)) data in Ok (fst tb, l))
                  (grouped (combine (map fst cells) (seq 0 (List.length cells))))
                = Ok (map (fun t => (t, map (fun kv => (fst kv, data_of (snd kv) t)) data)) T)).
    { rewrite blocks_T, mapM_map. apply (mapM_ok _ (fun t => (t, map (fun kv => (fst kv, data_of (snd kv) t)) data))). intros t _. cbn [fst snd].
      rewrite (mapM_ok _ (fun kv => (fst kv, data_of (snd kv) t))); [reflexivity|]. intros kv I.
      pose proof (take_by_type t cells (snd kv) (eq_sym (wf_length kv I))) as TK. unfold cellblock in *. rewrite TK. reflexivity. }
    unfold get_old_meshio_cells, old_data. revert X. destruct data as [|kv0 rest]; intros X; [reflexivity|]. cbv zeta. rewrite X. reflexivity.
  Qed.
  Lemma T_nonempty : T <> [].
  Proof.
    assert (H : exists t cs r, cells = (t, cs) :: r) by (destruct cells as [|[t cs] r]; [contradiction|eauto]). destruct H as (t & cs & r & E).
    intros X. assert (I : In t T).
    { apply T_In. rewrite E. cbn [of_type filter fst]. rewrite streqb_refl. discriminate. }
    rewrite X in I. destruct I.
  Qed.
  Lemma old_data_ne : data <> [] -> old_data = map (fun t => (t, map (fun kv => (fst kv, data_of (snd kv) t)) data)) T.
  Proof. intros H. unfold old_data. destruct data; [contradiction|reflexivity]. Qed.
  Lemma old_data_nil : data = [] -> old_data = [].
  Proof. intros ->. reflexivity. Qed.
  Lemma data_dec : data = [] \/ data <> [].
  Proof. destruct data; [now left|right; discriminate]. Qed.
  Lemma data_ne kv : In kv data -> data <> [].
  Proof. intros I X. rewrite X in I. destruct I. Qed.
  Lemma old_data_keys : NoDup (map fst old_data).
  Proof.
    destruct data_dec as [X | X]; [rewrite old_data_nil by auto; constructor|]. rewrite old_data_ne by auto. rewrite map_map. cbn [fst]. rewrite map_id. apply T_nodup.
  Qed.
  Lemma labels_In k : In k (concat (map (fun kv => map fst (snd kv)) old_data)) <-> In k (map fst data).
  Proof.
    destruct data_dec as [X | X]; [rewrite (old_data_nil X), X; cbn; tauto|]. rewrite (old_data_ne X). rewrite in_concat. split.
    - intros (l & L & I). apply in_map_iff in L as (x & <- & L). apply in_map_iff in L as (t & <- & _). cbn [snd] in I. rewrite map_map in I. exact I.
    - intros I. pose proof T_nonempty as TN. assert (HT : exists t r, T = t :: r) by (destruct T as [|t r]; [contradiction|eauto]). destruct HT as (t & r & ->).
      exists (map fst data). split; [|exact I]. cbn [map]. left. cbn [snd]. rewrite map_map. reflexivity.
  Qed.
  Let new_data := map (fun k => (k, map (fun t => match assoc k data with Ok ps => data_of ps t | Err _ => [] end) T)) (unique str_leb (concat (map (fun kv => map fst (snd kv)) old_data))).
  Lemma get_new_ok : get_new_meshio_cells (old_cells cells) old_data = Ok (old_cells cells, new_data).
  Proof.
    unfold get_new_meshio_cells. rewrite (mapM_ok _ (fun k => (k, map (fun t => match assoc k data with Ok ps => data_of ps t | Err _ => [] end) T))); [reflexivity|].
    intros k I. apply (proj1 (unique_In _ str_order _ _)) in I. apply (proj1 (labels_In k)) in I. apply in_map_iff in I as ([k' ps] & E & I). cbn [fst] in E. subst k'.
    rewrite (mapM_ok _ (fun tc => data_of ps (fst tc))).
    - cbn [bind]. rewrite (assoc_In k ps data ND I). unfold T. rewrite map_map. reflexivity.
    - intros [t cs] TI. cbn [fst]. assert (TT : In t T) by (unfold T; change t with (fst (t, cs)); now apply in_map).
      assert (X : assoc t old_data = Ok (map (fun kv => (fst kv, data_of (snd kv) t)) data)).
      { apply assoc_In; [apply old_data_keys|]. rewrite (old_data_ne (data_ne _ I)). apply in_map_iff. exists t. auto. }
      rewrite X. cbn [bind]. apply assoc_In.
      + rewrite map_map. exact ND.
      + apply in_map_iff. exists (k, ps). auto.
  Qed.
  Lemma cells_of_absent t : existsb (streqb t) T = false -> cells_of t = [].
  Proof.
    intros X. unfold cells_of. destruct (of_type t cells) eqn:E; [reflexivity|]. assert (I : In t T) by (apply T_In; congruence).
    assert (Y : existsb (streqb t) T = true) by (apply existsb_exists; exists t; split; [exact I|apply streqb_refl]). congruence.
  Qed.
  Lemma flat_old t : filter (fun x => streqb t (fst x)) (flat (old_cells cells)) = filter (fun x => streqb t (fst x)) (flat cells).
  Proof.
    rewrite !flat_type, old_cells_T, of_type_map by apply T_nodup. f_equal. fold (cells_of t). destruct (existsb (streqb t) T) eqn:X.
    - cbn [map snd concat]. apply app_nil_r.
    - now rewrite cells_of_absent.
  Qed.
  Lemma data_of_length ps t : map (@List.length V) ps = sizes cells -> List.length (data_of ps t) = List.length (cells_of t).
  Proof.
    unfold data_of, cells_of. clear. revert ps. induction cells as [|[k cs] r IH]; intros [|p ps] L; try discriminate; [reflexivity|].
    unfold sizes in L. cbn [map snd] in L. injection L as L1 L2. cbn [map fst combine of_type filter]. specialize (IH ps L2). unfold of_type in IH.
    destruct (streqb t k); cbn [map snd concat]; [rewrite !app_length; lia|exact IH].
  Qed.
  Lemma combine_map_same {A B C} (f : A -> B) (g : A -> C) l : combine (map f l) (map g l) = map (fun x => (f x, g x)) l.
  Proof. induction l as [|x l IH]; [reflexivity|]. cbn [map combine]. now rewrite IH. Qed.
  Lemma paired_old ps t : map (@List.length V) ps = sizes cells ->
    map (@List.length V) (map (data_of ps) T) = sizes (old_cells cells) /\
    filter (has_type t) (paired (old_cells cells) (map (data_of ps) T)) = filter (has_type t) (paired cells ps).
  Proof.
    intros L. assert (SZ : map (@List.length V) (map (data_of ps) T) = sizes (old_cells cells)).
    { rewrite old_cells_T. unfold sizes. rewrite !map_map. apply map_ext. intros u. cbn [snd]. now apply data_of_length. }
    split; [exact SZ|]. rewrite !paired_type by auto. rewrite old_cells_T. rewrite map_map. cbn [fst]. rewrite of_type_map by apply T_nodup.
    rewrite map_id. fold (cells_of t) (data_of ps t).
    assert (C : combine T (map (data_of ps) T) = map (fun u => (u, data_of ps u)) T) by (rewrite <- (map_id T) at 1; apply combine_map_same).
    rewrite C, of_type_map by apply T_nodup. destruct (existsb (streqb t) T) eqn:X.
    - cbn [map snd concat]. now rewrite !app_nil_r.
    - now rewrite (cells_of_absent t X).
  Qed.
  Theorem layouts : exists oc od nd,
    get_old_meshio_cells cells data = Ok (oc, od) /\ get_new_meshio_cells oc od = Ok (oc, nd) /\
    NoDup (map fst oc) /\
    (forall t, filter (fun x => streqb t (fst x)) (flat oc) = filter (fun x => streqb t (fst x)) (flat cells)) /\
    (forall k, In k (map fst nd) <-> In k (map fst data)) /\
    (forall k ps, In (k, ps) data ->
      (exists ps', assoc k nd = Ok ps' /\ map (@List.length V) ps' = sizes oc /\
        forall t, filter (has_type t) (paired oc ps') = filter (has_type t) (paired cells ps)) /\
      (forall t cs, In (t, cs) oc -> exists dt v, assoc t od = Ok dt /\ assoc k dt = Ok v /\
        combine (map (pair t) cs) v = filter (has_type t) (paired cells ps))).
  Proof.
    exists (old_cells cells), old_data, new_data. split; [exact get_old_ok|]. split; [exact get_new_ok|]. split; [exact T_nodup|]. split; [exact flat_old|]. split.
    - intros k. unfold new_data. rewrite map_map. cbn [fst]. rewrite map_id. rewrite (unique_In _ str_order). apply labels_In.
    - intros k ps I. assert (L : map (@List.length V) ps = sizes cells) by (rewrite Forall_forall in WF; exact (WF _ I)). split.
      + exists (map (data_of ps) T). split; [|split; [now apply (paired_old ps [])|intros t; now apply paired_old]].
        apply assoc_In.
        * unfold new_data. rewrite map_map. cbn [fst]. rewrite map_id. apply (unique_nodup _ str_order).
        * unfold new_data. apply in_map_iff. exists k. rewrite (assoc_In k ps data ND I). split; [reflexivity|].
          apply (proj2 (unique_In _ str_order _ _)). apply labels_In. change k with (fst (k, ps)). now apply in_map.
      + intros t cs C. assert (TT : In t T) by (unfold T; change t with (fst (t, cs)); now apply in_map).
        assert (CS : cs = cells_of t) by (rewrite old_cells_T in C; apply in_map_iff in C as (u & E & _); injection E as -> <-; reflexivity). subst cs.
        exists (map (fun kv => (fst kv, data_of (snd kv) t)) data), (data_of ps t). split; [|split].
        * apply assoc_In; [apply old_data_keys|]. rewrite (old_data_ne (data_ne _ I)). apply in_map_iff. exists t. auto.
        * apply assoc_In; [rewrite map_map; exact ND|]. apply in_map_iff. exists (k, ps). auto.
        * now rewrite paired_type.
  Qed.
End Layouts.
