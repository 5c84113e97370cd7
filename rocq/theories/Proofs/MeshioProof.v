(** Conversion to and from meshes of meshio. *)
From Coq Require Import String Ascii Arith ZArith Bool Lia List.
From Verif Require Import Base.Str Model.Py Model.Numpy Model.Mesh Model.MeshOps Model.Pyvista Model.Meshio Spec.MeshCells Spec.Meshio Proofs.DictLemmas Proofs.NumpyProof Proofs.ConnectProof Proofs.BlocksProof Proofs.GridProof Proofs.PyvistaProof.
Import ListNotations.
Local Open Scope nat_scope.

Lemma same_names k : Avsucd.is_material k = names_material k.
Proof. reflexivity. Qed.
Lemma assoc_in {B} k (d : list (str * B)) v : NoDup (map fst d) -> In (k, v) d -> assoc k d = Ok v.
Proof.
  induction d as [|[k' x] d IH]; intros N I; [destruct I|]. cbn [map fst] in N. apply NoDup_cons_iff in N as [N1 N2]. cbn [assoc]. destruct (streqb k k') eqn:E.
  - apply streqb_eq in E. subst k'. destruct I as [I|I]; [injection I as ->; reflexivity|]. exfalso. apply N1. apply (in_map fst) in I. exact I.
  - destruct I as [I|I]; [injection I as -> ->; rewrite streqb_refl in E; discriminate E|]. auto.
Qed.
Lemma in_assoc {B} k (d : list (str * B)) v : assoc k d = Ok v -> In (k, v) d.
Proof.
  induction d as [|[k' x] d IH]; cbn [assoc]; [discriminate|]. destruct (streqb k k') eqn:E; [|right; auto]. intros H. injection H as ->. apply streqb_eq in E. subst. now left.
Qed.
Lemma put_in {B} k (x : B) d k' y : NoDup (map fst d) -> In (k', y) (put k x d) <-> (k' = k /\ y = x) \/ (k' <> k /\ In (k', y) d).
Proof.
  induction d as [|[k0 x0] d IH]; intros N.
  - cbn. split; [intros [E|[]]; injection E; auto|]. intros [[-> ->]|[_ []]]; auto.
  - cbn [map fst] in N. apply NoDup_cons_iff in N as [N1 N2]. cbn [put]. destruct (streqb k k0) eqn:E.
    + apply streqb_eq in E. subst k0. cbn [In]. split.
      * intros [X|X]; [injection X as <- <-; auto|]. right. split; [|auto]. intros ->. apply N1. apply (in_map fst) in X. exact X.
      * intros [[-> ->]|[D [X|X]]]; [now left| |now right]. injection X as -> _. contradiction.
    + cbn [In]. rewrite (IH N2). split.
      * intros [X|[X|[D X]]]; [|auto|auto]. injection X as -> ->. right. split; [|auto]. intros ->. rewrite streqb_refl in E. discriminate E.
      * tauto.
Qed.
Lemma put_keys {B} k (x : B) d : NoDup (map fst d) -> NoDup (map fst (put k x d)).
Proof.
  induction d as [|[k0 x0] d IH]; intros N; [constructor; [intros []|constructor]|]. cbn [map fst] in N. apply NoDup_cons_iff in N as [N1 N2]. cbn [put]. destruct (streqb k k0) eqn:E; cbn [map fst].
  - apply streqb_eq in E. subst. now constructor.
  - constructor; [|auto]. intros I. apply in_map_iff in I as ([k1 y] & E1 & I). cbn in E1. subst k1. apply (put_in k x d k0 y N2) in I as [[-> _]|[_ I]].
    + rewrite streqb_refl in E. discriminate E.
    + apply N1. apply (in_map fst) in I. exact I.
Qed.
Lemma pop_in {B} k (d : list (str * B)) k' y : In (k', y) (pop k d) <-> k' <> k /\ In (k', y) d.
Proof.
  unfold pop. rewrite filter_In. cbn [fst]. destruct (streqb k k') eqn:E.
  - apply streqb_eq in E. subst. cbn. split; [intros [_ X]; discriminate X|tauto].
  - cbn. split; [intros [X _]; split; [|exact X]; intros ->; rewrite streqb_refl in E; discriminate E|tauto].
Qed.
Lemma pop_keys {B} k (d : list (str * B)) : NoDup (map fst d) -> NoDup (map fst (pop k d)).
Proof.
  unfold pop. induction d as [|[k0 x] d IH]; intros N; [constructor|]. cbn [map fst] in N. apply NoDup_cons_iff in N as [N1 N2]. cbn [filter fst]. destruct (negb _); [|auto]. cbn [map fst]. constructor; [|auto].
  intros I. apply N1. apply in_map_iff in I as (e & <- & I). apply filter_In in I as [I _]. now apply in_map.
Qed.

Lemma is_name_material : names_material $"material" = true.
Proof. reflexivity. Qed.
Lemma in_map_key {B} (k : str) (v : B) d : In (k, v) d -> In k (map fst d).
Proof. intros I. apply (in_map fst) in I. exact I. Qed.
(** Renaming the only material. *)
Lemma renamed_ok {B} (d : list (str * B)) : NoDup (map fst d) -> one_material d ->
  exists d', material_renamed d = Ok d' /\ NoDup (map fst d') /\ (forall k v, In (k, v) d' <-> exists k0, k = new_name k0 /\ In (k0, v) d).
Proof.
  intros N O. unfold material_renamed, material_key. destruct (filter (fun kv => Avsucd.is_material (fst kv)) d) as [|[k x] r] eqn:F.
  - exists d. split; [reflexivity|]. split; [exact N|]. intros k v. assert (G : forall k v, In (k, v) d -> names_material k = false).
    { intros k' v' I. destruct (names_material k') eqn:E; [|reflexivity]. assert (X : In (k', v') (filter (fun kv => Avsucd.is_material (fst kv)) d)) by (apply filter_In; split; [exact I|exact E]). rewrite F in X. destruct X. }
    unfold new_name. split; [intros I; exists k; rewrite (G k v I); auto|]. intros (k0 & -> & I). now rewrite (G k0 v I).
  - assert (X : In (k, x) d /\ names_material k = true).
    { assert (Y : In (k, x) (filter (fun kv => Avsucd.is_material (fst kv)) d)) by (rewrite F; now left). apply filter_In in Y. exact Y. }
    destruct X as [I M]. cbn [fst]. rewrite (assoc_in k d x N I). cbn [bind]. eexists. split; [reflexivity|]. split; [now apply put_keys, pop_keys|].
    intros k' v. rewrite put_in by now apply pop_keys. rewrite pop_in. unfold new_name. split.
    + intros [[-> ->]|(D & D' & J)]; [exists k; rewrite M; auto|]. exists k'. split; [|exact J]. destruct (names_material k') eqn:E; [|reflexivity]. exfalso. apply D'. symmetry. eapply O; eauto; eapply in_map_key; eauto.
    + intros (k0 & E & J). destruct (names_material k0) eqn:M0.
      * left. split; [exact E|]. assert (k0 = k) by (eapply O; eauto; eapply in_map_key; eauto). subst k0. pose proof (assoc_in k d x N I). pose proof (assoc_in k d v N J). congruence.
      * subst k'. right. split; [intros ->; discriminate M0|]. split; [intros ->; congruence|exact J].
Qed.

Lemma fold_max r : forall x, In (fold_left Z.max r x) (x :: r) /\ forall y, In y (x :: r) -> (y <= fold_left Z.max r x)%Z.
Proof.
  induction r as [|a r IH]; intros x; cbn [fold_left]; [split; [now left|intros y [->|[]]; lia]|]. destruct (IH (Z.max x a)) as [I L]. split.
  - destruct I as [I|I]; [|now right; right]. destruct (Z.max_spec x a) as [[_ E]|[_ E]]; rewrite E in I at 1; rewrite <- I; auto. right. now left. now left.
  - intros y [->|[->|J]].
    + specialize (L (Z.max y a) (or_introl eq_refl)). lia.
    + specialize (L (Z.max x y) (or_introl eq_refl)). lia.
    + apply L. now right.
Qed.
Lemma default_ok f : (f = [] \/ exists name j, In (name, (j, 3%Z)) f) -> exists i, default_number f = Ok i /\ new_number f i.
Proof.
  intros H. unfold default_number. destruct f as [|e f]; [exists 1%Z; split; [reflexivity|now left]|]. destruct H as [H|(name & j & I)]; [discriminate H|]. remember (e :: f) as l.
  assert (M : forall z, In z (map (fun kv => fst (snd kv)) (filter (fun kv : str * (Z * Z) => Z.eqb (snd (snd kv)) 3) l)) <-> exists name, In (name, (z, 3%Z)) l).
  { intros z. rewrite in_map_iff. split.
    - intros ([n [a b]] & <- & F). apply filter_In in F as [F E]. cbn in *. apply Z.eqb_eq in E. subst b. eauto.
    - intros (n & F). exists (n, (z, 3%Z)). split; [reflexivity|]. apply filter_In. auto. }
  destruct (map _ (filter _ l)) as [|x r] eqn:E; [exfalso; apply (M j); eauto|]. exists (fold_left Z.max r x + 1)%Z. split; [reflexivity|]. right. destruct (fold_max r x) as [X L]. split.
  - replace (fold_left Z.max r x + 1 - 1)%Z with (fold_left Z.max r x) by lia. now apply M.
  - intros n j' J. assert (Y : In j' (x :: r)) by (apply M; eauto). specialize (L _ Y). lia.
Qed.

(** ** Since version 4 *)
Lemma split_all {V} (cs : list cellblock) (d : list (str * list V)) : cs <> [] -> Forall (fun kv => List.length (snd kv) = List.length (flat cs)) d ->
  exists data, mapM (fun kv => let* ps := split cs (snd kv) in Ok (fst kv, ps)) d = Ok data /\ map fst data = map fst d /\
    map (fun kv => (fst kv, concat (snd kv))) data = d /\ Forall (fun kv => map (@List.length V) (snd kv) = sizes cs) data.
Proof.
  intros NE. induction 1 as [|[k v] d L F (data & E & E1 & E2 & E3)]; [exists []; auto|]. cbn [snd] in L. destruct (split_ok cs v NE) as (ps & S & C & SZ); [now rewrite n_cells_flat|].
  exists ((k, ps) :: data). cbn [mapM fst snd]. rewrite S. cbn [bind]. rewrite E. cbn [bind map fst snd]. rewrite E1, E2, C. split; [reflexivity|]. split; [reflexivity|]. split; [reflexivity|]. now constructor.
Qed.
Lemma has_key_false {B} k (d : list (str * B)) : has_key k d = false -> forall v, ~ In (k, v) d.
Proof. unfold has_key. intros H v I. assert (X : existsb (fun kv => streqb k (fst kv)) d = true) by (apply existsb_exists; exists (k, v); split; [exact I|apply streqb_refl]). congruence. Qed.
Lemma has_key_true {B} k (d : list (str * B)) : has_key k d = true -> exists v, In (k, v) d.
Proof. unfold has_key. intros H. apply existsb_exists in H as ([k' v] & I & E). apply streqb_eq in E. cbn in E. subst. eauto. Qed.


Definition all_some {V} (nd : list (str * list (list V))) := Forall (fun kv : str * list (list V) => snd kv <> []) nd.
Lemma data_part {V} (nd : list (str * list (list V))) : NoDup (map fst nd) -> one_material nd -> all_some nd ->
  exists d1, material_renamed nd = Ok d1 /\ forallb (fun kv => match snd kv with [] => false | _ => true end) d1 = true /\
    let d' := map (fun kv => (fst kv, concat (snd kv))) d1 in
    NoDup (map fst d') /\ forall k v, In (k, v) d' <-> exists k0 ps, k = new_name k0 /\ v = concat ps /\ In (k0, ps) nd.
Proof.
  intros N O A. destruct (renamed_ok nd N O) as (d1 & E & N1 & I). exists d1. split; [exact E|]. split; [|cbv zeta; split].
  - apply forallb_forall. intros [k ps] J. apply I in J as (k0 & _ & J). unfold all_some in A. rewrite Forall_forall in A. specialize (A _ J). cbn [snd] in *. destruct ps; [contradiction|reflexivity].
  - rewrite map_map. cbn [fst]. exact N1.
  - intros k v. rewrite in_map_iff. split.
    + intros ([k1 ps] & X & J). injection X as <- <-. apply I in J as (k0 & -> & J). eauto.
    + intros (k0 & ps & -> & -> & J). exists (new_name k0, ps). split; [reflexivity|]. apply I. eauto.
Qed.
(** The default material. *)
Lemma end_part {C V} (num : Z -> V) name dm (pts : list (list C)) b (pd d' : list (str * list V)) f kept :
  NoDup (map fst d') -> NoDup (map fst f) -> (In $"material" (map fst d') \/ f = [] \/ exists n j, In (n, (j, 3%Z)) f) ->
  exists data f' f'',
    (if has_key $"material" d' then Ok (Mesh dm pts b pd d' f, Mio pts kept pd f)
     else
       let* imat := default_number f in
       let field := put name (imat, 3%Z) f in
       Ok (Mesh dm pts b pd (d' ++ [($"material", repeat (num imat) (n_cells b))]) field,
           Mio pts kept pd (match f with [] => [] | _ => field end))) = Ok (Mesh dm pts b pd data f', Mio pts kept pd f'') /\
    NoDup (map fst data) /\ (forall e, In e d' -> In e data) /\
    (forall k, In k (map fst data) -> k = $"material" \/ In k (map fst d')) /\
    (In $"material" (map fst d') -> f' = f) /\
    (~ In $"material" (map fst d') -> exists i, new_number f i /\ In ($"material", repeat (num i) (List.length (flat b))) data /\ with_name name (i, 3%Z) f f').
Proof.
  intros N NF H. destruct (has_key $"material" d') eqn:K.
  - destruct (has_key_true _ _ K) as (v & I). assert (M : In $"material" (map fst d')) by (eapply in_map_key; eauto).
    exists d', f, f. split; [reflexivity|]. split; [exact N|]. split; [auto|]. split; [auto|]. split; [auto|]. intros X. contradiction.
  - pose proof (has_key_false _ _ K) as NI. assert (M : ~ In $"material" (map fst d')).
    { intros X. apply in_map_iff in X as ([k v] & E & X). cbn in E. subst k. exact (NI v X). }
    destruct (default_ok f) as (i & D & NN); [tauto|]. rewrite D. cbn [bind]. rewrite n_cells_flat. do 3 eexists. split; [reflexivity|]. split; [|split; [|split; [|split]]].
    + rewrite map_app. cbn [map fst]. apply nodup_app; [exact N|constructor; [intros []|constructor]|]. intros x I [<-|[]]. contradiction.
    + intros e I. apply in_or_app. now left.
    + intros k I. rewrite map_app in I. apply in_app_iff in I as [I|[I|[]]]; [now right|]. left. symmetry. exact I.
    + intros X. contradiction.
    + intros _. exists i. split; [exact NN|]. split; [apply in_or_app; right; left; reflexivity|]. split; [apply put_in; auto|]. intros k y D'. rewrite put_in by exact NF. tauto.
Qed.
Lemma has_material_new {B} {B'} (d : list (str * B)) (d' : list (str * B')) : (forall k, In k (map fst d') <-> exists k0, k = new_name k0 /\ In k0 (map fst d)) -> (In $"material" (map fst d') <-> has_material d).
Proof.
  intros H. rewrite H. unfold has_material, new_name. split.
  - intros (k & E & I). exists k. split; [exact I|]. destruct (names_material k) eqn:M; [reflexivity|]. subst k. discriminate M.
  - intros (k & I & M). exists k. rewrite M. auto.
Qed.

(** Data as lists of arrays [nd], joined in [d]. *)
Lemma both_parts {C V} (num : Z -> V) name dm (pts : list (list C)) b (pd d : list (str * list V)) (nd : list (str * list (list V))) (same : list V -> list V -> Prop) f kept :
  NoDup (map fst nd) -> all_some nd -> one_material d -> NoDup (map fst f) -> (has_material d \/ f = [] \/ exists n j, In (n, (j, 3%Z)) f) ->
  (forall k, In k (map fst nd) <-> In k (map fst d)) -> (forall k v, In (k, v) d -> exists ps, In (k, ps) nd /\ same v (concat ps)) ->
  exists d1, material_renamed nd = Ok d1 /\ forallb (fun kv => match snd kv with [] => false | _ => true end) d1 = true /\
  exists data f' f'',
    (let d' := map (fun kv => (fst kv, concat (snd kv))) d1 in
     if has_key $"material" d' then Ok (Mesh dm pts b pd d' f, Mio pts (kept d1) pd f)
     else
       let* imat := default_number f in
       let field := put name (imat, 3%Z) f in
       Ok (Mesh dm pts b pd (d' ++ [($"material", repeat (num imat) (n_cells b))]) field,
           Mio pts (kept d1) pd (match f with [] => [] | _ => field end))) = Ok (Mesh dm pts b pd data f', Mio pts (kept d1) pd f'') /\
    kept_data num name (List.length (flat b)) same d data f f'.
Proof.
  intros N A O NF H K S. assert (O' : one_material nd) by (intros k k' I I'; apply O; now apply K). destruct (data_part nd N O' A) as (d1 & E & G & N' & I). exists d1. split; [exact E|]. split; [exact G|]. cbv zeta.
  set (d' := map (fun kv => (fst kv, concat (snd kv))) d1) in *.
  assert (KK : forall k, In k (map fst d') <-> exists k0, k = new_name k0 /\ In k0 (map fst d)).
  { intros k. split.
    - intros X. apply in_map_iff in X as ([k1 v] & <- & X). apply I in X as (k0 & ps & -> & _ & X). exists k0. split; [reflexivity|]. apply K. eapply in_map_key; eauto.
    - intros (k0 & -> & X). apply K in X. apply in_map_iff in X as ([k1 ps] & <- & X). apply (in_map_key _ (concat ps)). apply I. cbn [fst]. eauto. }
  pose proof (has_material_new d d' KK) as HM.
  destruct (end_part num name dm pts b pd d' f (kept d1) N' NF) as (data & f' & f'' & R & ND & IN & OUT & F1 & F2); [rewrite HM; exact H|].
  exists data, f', f''. split; [exact R|]. split; [exact ND|]. split; [|split; [|split]].
  - intros k v X. destruct (S k v X) as (ps & J & SM). exists (concat ps). split; [|exact SM]. apply IN. apply I. eauto.
  - intros k X. apply OUT in X as [X|X]; [now left|]. apply KK in X as (k0 & -> & X). unfold new_name. destruct (names_material k0) eqn:M; [now left|right]. auto.
  - intros X. apply F1. now apply HM.
  - intros X. apply F2. now rewrite HM.
Qed.
Lemma sizes_some {V} cs (data : list (str * list (list V))) : cs <> [] -> Forall (fun kv => map (@List.length V) (snd kv) = sizes cs) data -> all_some data.
Proof. intros NE. apply Forall_impl. intros [k ps] L E. cbn [snd] in *. subst ps. destruct cs; [contradiction|discriminate L]. Qed.
Lemma from_blocks {C V} (num : Z -> V) name dm (pts : list (list C)) b nd pd f d1 r :
  material_renamed nd = Ok d1 -> forallb (fun kv => match snd kv with [] => false | _ => true end) d1 = true ->
  (let d' := map (fun kv => (fst kv, concat (snd kv))) d1 in
     if has_key $"material" d' then Ok (Mesh dm pts b pd d' f, Mio pts (Blocks b d1) pd f)
     else
       let* imat := default_number f in
       let field := put name (imat, 3%Z) f in
       Ok (Mesh dm pts b pd (d' ++ [($"material", repeat (num imat) (n_cells b))]) field,
           Mio pts (Blocks b d1) pd (match f with [] => [] | _ => field end))) = r ->
  from_meshio num name dm (Mio pts (Blocks b nd) pd f) = r.
Proof.
  intros E G R. unfold from_meshio. cbn [mi_cells mi_points mi_point_data mi_field_data]. destruct nd as [|x nd]; [cbn in E; injection E as <-; exact R|]. rewrite E. cbn [bind]. rewrite G. exact R.
Qed.
Lemma from_types {C V} (num : Z -> V) name dm (pts : list (list C)) b od nd pd f d1 r :
  get_new_meshio_cells b od = Ok (b, nd) -> material_renamed nd = Ok d1 -> forallb (fun kv => match snd kv with [] => false | _ => true end) d1 = true ->
  (let d' := map (fun kv => (fst kv, concat (snd kv))) d1 in
     if has_key $"material" d' then Ok (Mesh dm pts b pd d' f, Mio pts (Types b od) pd f)
     else
       let* imat := default_number f in
       let field := put name (imat, 3%Z) f in
       Ok (Mesh dm pts b pd (d' ++ [($"material", repeat (num imat) (n_cells b))]) field,
           Mio pts (Types b od) pd (match f with [] => [] | _ => field end))) = r ->
  from_meshio num name dm (Mio pts (Types b od) pd f) = r.
Proof.
  intros N E G R. unfold from_meshio. cbn [mi_cells mi_points mi_point_data mi_field_data]. destruct od as [|x od].
  - cbn in N. injection N as <-. cbn in E. injection E as <-. exact R.
  - rewrite N. cbn [bind fst snd]. rewrite E. cbn [bind]. rewrite G. exact R.
Qed.

Section Back.
Context {C V : Type} (num : Z -> V) (name : str) (m : mesh C V).
Hypothesis NE : cells m <> [].
Hypothesis CO : complete (cells m) (cell_data m).
Hypothesis OM : one_material (cell_data m).
Hypothesis NF : NoDup (map fst (field_data m)).
Hypothesis DF : has_material (cell_data m) \/ field_data m = [] \/ exists n j, In (n, (j, 3%Z)) (field_data m).

Theorem back_new : exists io m' io', to_meshio true m = Ok io /\ from_meshio num name (dim m) io = Ok (m', io') /\
  dim m' = dim m /\ points m' = points m /\ cells m' = cells m /\ point_data m' = point_data m /\
  kept_data num name (List.length (flat (cells m))) eq (cell_data m) (cell_data m') (field_data m) (field_data m').
Proof.
  destruct CO as [ND F]. destruct (split_all (cells m) (cell_data m) NE F) as (nd & E & EK & EC & ES).
  destruct (both_parts num name (dim m) (points m) (cells m) (point_data m) (cell_data m) nd eq (field_data m) (Blocks (cells m))) as (d1 & R & G & data & f' & f'' & X & K); auto.
  - now rewrite EK.
  - eapply sizes_some; eauto.
  - intros k. now rewrite EK.
  - intros k v I. rewrite <- EC in I. apply in_map_iff in I as ([k1 ps] & Y & I). injection Y as <- <-. eauto.
  - do 3 eexists. split; [unfold to_meshio; rewrite E; reflexivity|]. split; [eapply from_blocks; [exact R|exact G|exact X]|]. cbn [dim points cells point_data cell_data field_data]. auto 6.
Qed.

Theorem back_old : exists io m' io', to_meshio false m = Ok io /\ from_meshio num name (dim m) io = Ok (m', io') /\
  dim m' = dim m /\ points m' = points m /\ point_data m' = point_data m /\
  NoDup (map fst (cells m')) /\ (forall t, filter (fun x => streqb t (fst x)) (flat (cells m')) = filter (fun x => streqb t (fst x)) (flat (cells m))) /\
  kept_data num name (List.length (flat (cells m'))) (same_by_type (cells m) (cells m')) (cell_data m) (cell_data m') (field_data m) (field_data m').
Proof.
  destruct CO as [ND F]. destruct (split_all (cells m) (cell_data m) NE F) as (nd & E & EK & EC & ES).
  assert (NK : NoDup (map fst nd)) by now rewrite EK.
  destruct (layouts (cells m) nd NE NK ES) as (oc & od & nd' & GO & GN & NT & FT & KI & DI).
  assert (NK' : NoDup (map fst nd')).
  { unfold get_new_meshio_cells in GN. destruct (mapM _ (unique _ _)) as [l|] eqn:M; [|discriminate GN]. cbn [bind] in GN. injection GN as ->. 
    assert (W : map fst nd' = unique str_leb (concat (map (fun kv => map fst (snd kv)) od))).
    { revert nd' M KI DI. generalize (unique str_leb (concat (map (fun kv => map fst (snd kv)) od))). intros u nd' M _ _. revert nd' M. induction u as [|x u IH]; intros nd' M; cbn [mapM] in M; [injection M as <-; reflexivity|].
      destruct (mapM _ oc) as [y|]; [|discriminate M]. cbn [bind] in M. destruct (mapM _ u) as [z|]; [|discriminate M]. cbn [bind] in M. injection M as <-. cbn [map fst]. f_equal. auto. }
    rewrite W. apply (unique_nodup _ str_order). }
  assert (S : forall k ps, In (k, ps) nd' -> exists ps0, In (k, ps0) nd /\ map (@List.length V) ps = sizes oc /\ forall t, filter (has_type t) (paired oc ps) = filter (has_type t) (paired (cells m) ps0)).
  { intros k ps I. assert (IK : In k (map fst nd)) by (apply KI; eapply in_map_key; eauto). apply in_map_iff in IK as ([k1 ps0] & <- & I0). cbn [fst] in *. destruct (DI _ _ I0) as [(ps' & A & L & T) _].
    exists ps0. split; [exact I0|]. rewrite (assoc_in _ _ _ NK' I) in A. injection A as <-. auto. }
  assert (NO : oc <> []).
  { intros ->. unfold get_old_meshio_cells in GO. assert (Z : old_cells (cells m) = []) by (cbv zeta in GO; match type of GO with bind ?x _ = _ => destruct x end; [|discriminate GO]; cbn [bind] in GO; injection GO as Z _; exact Z).
    apply (f_equal (map fst)) in Z. exact (T_nonempty (cells m) nd NE ES Z). }
  destruct (both_parts num name (dim m) (points m) oc (point_data m) (cell_data m) nd' (same_by_type (cells m) oc) (field_data m) (fun _ => Types oc od)) as (d1 & R & G & data & f' & f'' & X & K); auto.
  - apply (sizes_some oc); [exact NO|]. apply Forall_forall. intros [k ps] I. destruct (S k ps I) as (_ & _ & L & _). exact L.
  - intros k. now rewrite KI, EK.
  - intros k v I. rewrite <- EC in I. apply in_map_iff in I as ([k1 ps] & Y & I). injection Y as <- <-. destruct (DI _ _ I) as [(ps' & A & L & T) _]. exists ps'. split; [now apply in_assoc|]. split; [|exact T].
    rewrite <- n_cells_flat. unfold n_cells. fold (sizes oc). rewrite <- L. clear. induction ps' as [|p ps IH]; [reflexivity|]. cbn [concat map]. rewrite app_length, IH. reflexivity.
  - do 3 eexists. split; [unfold to_meshio; rewrite E; cbn [bind]; rewrite GO; reflexivity|]. cbn [fst snd]. split; [eapply from_types; [exact GN|exact R|exact G|exact X]|]. cbn [dim points cells point_data cell_data field_data]. auto 8.
Qed.
End Back.
