(** What the reader of FLAC3D grids builds from points, cells and groups. *)
From Coq Require Import String Ascii Arith ZArith Bool Lia List.
From Verif Require Import Base.Str Base.Flt Model.Py Model.Numpy Model.Mesh Model.F3grid Spec.MeshCells Spec.F3grid.
Import ListNotations.
Local Open Scope nat_scope.

Definition pid (i : nat) : Z := Z.of_nat (S i).
Definition feed_points (s : state) (ps : list (nat * list flt)) : state :=
  fold_left (fun s ip => add_point s (pid (fst ip)) (snd ip)) ps s.
Definition feed_cells (f : flag) (s : state) (rows : list (nat * list nat)) : res state :=
  foldM (fun s ic => add_cell f s (pid (fst ic)) (map pid (snd ic)) false) s rows.
Definition feed_groups (f : flag) (slot : str) (s : state) (gs : list (str * list nat)) : res state :=
  foldM (fun s g => add_group f s (fst g) slot (map Z.of_nat (snd g))) s gs.

(** ** Dictionaries with consecutive keys *)
Definition keyed {B} (a : nat) (vs : list B) : list (Z * B) := combine (map pid (seq a (List.length vs))) vs.
Lemma pid_inj i j : pid i = pid j -> i = j.
Proof. unfold pid. lia. Qed.
Lemma keyed_cons {B} a (v : B) vs : keyed a (v :: vs) = (pid a, v) :: keyed (S a) vs.
Proof. reflexivity. Qed.
Lemma keyed_snoc {B} a (vs : list B) v : zset (pid (a + List.length vs)) v (keyed a vs) = keyed a (vs ++ [v]).
Proof.
  revert a. induction vs as [|w vs IH]; intros a; cbn [List.length app].
  - now rewrite Nat.add_0_r.
  - rewrite !keyed_cons. cbn [zset]. destruct (Z.eqb_spec (pid (a + S (List.length vs))) (pid a)) as [E|E]; [apply pid_inj in E; lia|].
    f_equal. rewrite <- IH. do 2 f_equal. lia.
Qed.
Lemma keyed_get {B} a (vs : list B) i v : nth_error vs i = Some v -> zget (pid (a + i)) (keyed a vs) = Ok v.
Proof.
  revert a i. induction vs as [|w vs IH]; intros a i H; [destruct i; discriminate|]. rewrite keyed_cons. cbn [zget].
  destruct i as [|i].
  - rewrite Nat.add_0_r, Z.eqb_refl. injection H as <-. reflexivity.
  - destruct (Z.eqb_spec (pid (a + S i)) (pid a)) as [E|E]; [apply pid_inj in E; lia|].
    rewrite <- (IH (S a) i H). f_equal. f_equal. lia.
Qed.
Lemma keyed_set {B} a (vs : list B) i v : i < List.length vs -> zset (pid (a + i)) v (keyed a vs) = keyed a (set_nth i v vs).
Proof.
  revert a i. induction vs as [|w vs IH]; intros a i H; [cbn in H; lia|]. rewrite keyed_cons. cbn [zset].
  destruct i as [|i]; cbn [set_nth].
  - now rewrite Nat.add_0_r, Z.eqb_refl.
  - destruct (Z.eqb_spec (pid (a + S i)) (pid a)) as [E|E]; [apply pid_inj in E; lia|].
    rewrite keyed_cons. f_equal. rewrite <- IH by (cbn in H; lia). f_equal. f_equal. lia.
Qed.

(** ** Points *)
Lemma feed_points_spec pts s : List.length (r_ids s) = List.length (r_points s) -> r_ids s = keyed 0 (seq 0 (List.length (r_points s))) ->
  feed_points s (combine (seq (List.length (r_points s)) (List.length pts)) pts) =
  State (r_points s ++ pts) (keyed 0 (seq 0 (List.length (r_points s) + List.length pts))) (r_cells s) (r_field s)
    (r_zmap s) (r_fmap s) (r_zslots s) (r_fslots s) (r_cidx s) (r_gidx s).
Proof.
  revert s. induction pts as [|p pts IH]; intros s L E.
  - cbn. rewrite app_nil_r, Nat.add_0_r, <- E. now destruct s.
  - cbn [List.length seq combine]. unfold feed_points. cbn [fold_left fst snd]. fold (feed_points (add_point s (pid (List.length (r_points s))) p)).
    set (s1 := add_point s (pid (List.length (r_points s))) p).
    assert (E1 : r_ids s1 = keyed 0 (seq 0 (List.length (r_points s1)))).
    { unfold s1, add_point. cbn [r_ids r_points]. rewrite E, app_length. cbn [List.length].
      rewrite Nat.add_1_r, seq_S. rewrite <- keyed_snoc. rewrite seq_length. reflexivity. }
    assert (L1 : List.length (r_points s1) = S (List.length (r_points s))) by (unfold s1, add_point; cbn [r_points]; rewrite app_length; cbn; lia).
    change (fold_left _ (combine (seq (S (List.length (r_points s))) (List.length pts)) pts) s1) with
      (feed_points s1 (combine (seq (S (List.length (r_points s))) (List.length pts)) pts)).
    rewrite <- L1. rewrite IH; auto.
    + rewrite L1. unfold s1, add_point. cbn [r_points r_cells r_field r_zmap r_fmap r_zslots r_fslots r_cidx r_gidx].
      rewrite <- app_assoc. cbn [app]. f_equal. f_equal. f_equal. lia.
    + rewrite E1. unfold keyed. rewrite combine_length, map_length, !seq_length. lia.
Qed.

(** ** Cells *)
Definition push (cells : list cellblock) (tc : str * list nat) : list cellblock :=
  match rev cells with
  | (t', rows) :: r => if streqb (fst tc) t' then rev ((t', rows ++ [snd tc]) :: r) else cells ++ [(fst tc, [snd tc])]
  | [] => [(fst tc, [snd tc])]
  end.
Lemma push_snoc cells t rows tc : push (cells ++ [(t, rows)]) tc =
  if streqb (fst tc) t then cells ++ [(t, rows ++ [snd tc])] else cells ++ [(t, rows); (fst tc, [snd tc])].
Proof.
  unfold push. rewrite rev_app_distr. cbn [rev app]. destruct (streqb (fst tc) t).
  - now rewrite rev_involutive.
  - now rewrite <- app_assoc.
Qed.
Lemma flat_app a b : flat (a ++ b) = flat a ++ flat b.
Proof. apply flat_map_app. Qed.
Lemma push_flat cells tc : flat (push cells tc) = flat cells ++ [tc].
Proof.
  destruct cells as [|b cells] using rev_ind.
  - destruct tc. reflexivity.
  - destruct b as [t rows]. rewrite push_snoc. destruct tc as [u row]. cbn [fst snd]. destruct (streqb u t) eqn:E.
    + apply streqb_eq in E as ->. rewrite !flat_app. unfold flat at 2 4. cbn [flat_map fst snd]. rewrite map_app, !app_nil_r. cbn [map]. now rewrite app_assoc.
    + rewrite !flat_app. unfold flat at 2 4. cbn [flat_map fst snd map]. rewrite !app_nil_r. now rewrite app_assoc.
Qed.
Lemma merged_snoc cells t rows : merged (cells ++ [(t, rows)]) <->
  merged cells /\ rows <> [] /\ match rev cells with [] => True | (t', _) :: _ => t' <> t end.
Proof.
  induction cells as [|[u us] cells IH]; cbn [app merged rev].
  - tauto.
  - destruct cells as [|[w ws] cells].
    + cbn. tauto.
    + cbn [app] in *. rewrite IH. cbn [rev]. 
      assert (X : forall b, match (rev cells ++ [(w, ws)]) ++ [b : cellblock] with [] => True | (t', _) :: _ => t' <> t end <->
                   match rev cells ++ [(w, ws)] with [] => True | (t', _) :: _ => t' <> t end).
      { intros b. destruct (rev cells ++ [(w, ws)]) eqn:E; [destruct (rev cells); discriminate|]. cbn. tauto. }
      rewrite X. tauto.
Qed.
Lemma push_merged cells tc : merged cells -> merged (push cells tc).
Proof.
  destruct cells as [|b cells] using rev_ind; intros M.
  - cbn. repeat split. discriminate.
  - destruct b as [t rows]. rewrite push_snoc. destruct tc as [u row]. cbn [fst snd]. apply merged_snoc in M as (M1 & M2 & M3).
    destruct (streqb u t) eqn:E.
    + apply merged_snoc. split; auto. split; auto. destruct rows; discriminate.
    + apply streqb_neq in E. change (cells ++ [(t, rows); (u, [row])]) with (cells ++ [(t, rows)] ++ [(u, [row])]). rewrite app_assoc.
      apply merged_snoc. split; [now apply merged_snoc|]. split; [discriminate|]. rewrite rev_app_distr. cbn. auto.
Qed.
Lemma push_all l cells : flat (fold_left push l cells) = flat cells ++ l /\ (merged cells -> merged (fold_left push l cells)).
Proof.
  revert cells. induction l as [|tc l IH]; intros cells; cbn [fold_left].
  - now rewrite app_nil_r.
  - destruct (IH (push cells tc)) as [A B]. rewrite A, push_flat, <- app_assoc. split; auto. intros M. now apply B, push_merged.
Qed.

Definition with_cells (f : flag) (s : state) (cells : list cellblock) (m : list (Z * list nat)) (k : nat) : state :=
  State (r_points s) (r_ids s) cells (r_field s) (match f with Zone => m | Face => r_zmap s end) (match f with Zone => r_fmap s | Face => m end)
    (r_zslots s) (r_fslots s) k (r_gidx s).
Lemma feed_cells_spec f n a rows : forall ts s vs, r_ids s = keyed 0 (seq 0 n) -> mapper f s = keyed a vs ->
  Forall2 (fun t row => type_of f (List.length row) = Ok t /\ Forall (fun v => v < n) row) ts rows ->
  feed_cells f s (combine (seq (a + List.length vs) (List.length rows)) rows) =
  Ok (with_cells f s (fold_left push (combine ts rows) (r_cells s))
       (keyed a (vs ++ map (fun i => [i]) (seq (r_cidx s) (List.length rows)))) (r_cidx s + List.length rows)).
Proof.
  induction rows as [|row rows IH]; intros ts s vs E M F; inversion F as [|t ? ts' ? [T N] F']; subst.
  - cbn. rewrite app_nil_r, Nat.add_0_r, <- M. destruct s, f; reflexivity.
  - cbn [List.length seq combine]. unfold feed_cells. cbn [foldM fst snd].
    assert (A : add_cell f s (pid (a + List.length vs)) (map pid row) false =
      Ok (with_cells f s (push (r_cells s) (t, row)) (keyed a (vs ++ [[r_cidx s]])) (S (r_cidx s)))).
    { unfold add_cell. assert (G : mapM (fun i => zget i (r_ids s)) (map pid row) = Ok row).
      { rewrite E. clear - N. induction N as [|v row L N IH]; auto. cbn [map mapM].
        assert (GV : zget (pid v) (keyed 0 (seq 0 n)) = Ok v).
        { apply (keyed_get 0 (seq 0 n) v v). rewrite nth_error_nth' with (d := 0) by (rewrite seq_length; lia). rewrite seq_nth by lia. reflexivity. }
        rewrite GV. cbn [bind]. now rewrite IH. }
      rewrite G. cbn [bind]. unfold update_cells. rewrite T. cbn [bind]. rewrite M, keyed_snoc. unfold push. cbn [fst snd].
      destruct (rev (r_cells s)) as [|[t' rs] r]; [reflexivity|]. destruct (streqb t t'); reflexivity. }
    rewrite A. cbn [bind]. set (s1 := with_cells f s _ _ _).
    change (foldM _ s1 ?l) with (feed_cells f s1 l).
    assert (M1 : mapper f s1 = keyed a (vs ++ [[r_cidx s]])) by (destruct f; reflexivity).
    specialize (IH ts' s1 (vs ++ [[r_cidx s]]) E M1 F'). rewrite app_length in IH. cbn [List.length] in IH.
    replace (a + (List.length vs + 1)) with (S (a + List.length vs)) in IH by lia. rewrite IH.
    unfold s1, with_cells. cbn [r_points r_ids r_cells r_field r_zmap r_fmap r_zslots r_fslots r_cidx r_gidx combine fold_left map].
    rewrite <- app_assoc. cbn [app]. rewrite Nat.add_succ_r. destruct f; reflexivity.
Qed.

(** ** Groups *)
Definition upd {B} (a : nat) (F : nat -> B -> B) (vs : list B) : list B := map (fun iv => F (fst iv) (snd iv)) (combine (seq a (List.length vs)) vs).
Lemma upd_cons {B} a F (v : B) vs : upd a F (v :: vs) = F a v :: upd (S a) F vs.
Proof. reflexivity. Qed.
Lemma upd_length {B} a F (vs : list B) : List.length (upd a F vs) = List.length vs.
Proof. unfold upd. rewrite map_length, combine_length, seq_length. lia. Qed.
Lemma upd_upd {B} a F G (vs : list B) : upd a F (upd a G vs) = upd a (fun i v => F i (G i v)) vs.
Proof. revert a. induction vs as [|v vs IH]; intros a; auto. rewrite !upd_cons. now rewrite IH. Qed.
Lemma upd_ext {B} a F G (vs : list B) : (forall i v, a <= i -> F i v = G i v) -> upd a F vs = upd a G vs.
Proof. revert a. induction vs as [|v vs IH]; intros a H; auto. rewrite !upd_cons. f_equal; auto. apply IH. intros. apply H. lia. Qed.
Lemma upd_set {B} a (vs : list B) i v F : nth_error vs i = Some v -> set_nth i (F v) vs = upd a (fun j w => if j =? a + i then F w else w) vs.
Proof.
  revert a i. induction vs as [|w vs IH]; intros a i H; [destruct i; discriminate|]. rewrite upd_cons. destruct i as [|i]; cbn [set_nth].
  - injection H as ->. rewrite Nat.add_0_r, Nat.eqb_refl. f_equal. rewrite (upd_ext _ _ (fun _ w => w)).
    + clear. generalize (S a). induction vs as [|w vs IH]; intros b; auto. rewrite upd_cons. now rewrite <- IH.
    + intros j u L. destruct (Nat.eqb_spec j a); [lia|reflexivity].
  - destruct (Nat.eqb_spec a (a + S i)); [lia|]. f_equal. rewrite (IH (S a) i) by auto. apply upd_ext. intros j u _. now replace (S a + i) with (a + S i) by lia.
Qed.
Definition mem (i : nat) (ids : list nat) : bool := existsb (Nat.eqb i) ids.
Lemma feed_ids a g ids : forall vs, NoDup ids -> Forall (fun i => a < i <= a + List.length vs) ids ->
  foldM (fun m cid => let* v := zget cid m in Ok (zset cid (v ++ [g]) m)) (keyed a vs) (map Z.of_nat ids) =
  Ok (keyed a (upd a (fun i (v : list nat) => v ++ if mem (S i) ids then [g] else []) vs)).
Proof.
  induction ids as [|x ids IH]; intros vs N F; cbn [map foldM].
  - f_equal. f_equal. rewrite (upd_ext _ _ (fun _ w => w)); [|intros; apply app_nil_r].
    clear. revert a. induction vs as [|w vs IH]; intros a; auto. rewrite upd_cons. now rewrite <- IH.
  - inversion N; subst. apply Forall_cons_iff in F as [X F]. destruct x as [|x]; [lia|].
    change (Z.of_nat (S x)) with (pid x). replace x with (a + (x - a)) by lia. set (i := x - a) in *.
    assert (Li : i < List.length vs) by lia. destruct (nth_error vs i) as [v|] eqn:E; [|apply nth_error_None in E; lia].
    rewrite (keyed_get a vs i v E). cbn [bind]. rewrite keyed_set by auto. rewrite (upd_set a vs i v (fun w => w ++ [g]) E).
    rewrite IH; auto; [|now rewrite upd_length]. f_equal. f_equal. rewrite upd_upd. apply upd_ext. intros j w _.
    unfold mem. cbn [existsb]. destruct (Nat.eqb_spec j (a + i)) as [->|NE].
    + rewrite Nat.eqb_refl. cbn [orb]. replace (a + i) with x by lia. destruct (existsb (Nat.eqb (S x)) ids) eqn:EX.
      * apply existsb_exists in EX as (y & Iy & Ey). apply Nat.eqb_eq in Ey. subst y. contradiction.
      * now rewrite app_nil_r.
    + destruct (Nat.eqb_spec (S j) (S (a + i))); [lia|]. reflexivity.
Qed.
Fixpoint marks (k g : nat) (gs : list (str * list nat)) : list nat :=
  match gs with [] => [] | x :: r => (if mem k (snd x) then [S g] else []) ++ marks k (S g) r end.
Fixpoint fields (f : flag) (g : nat) (gs : list (str * list nat)) : list (str * (nat * Z)) :=
  match gs with [] => [] | x :: r => (fst x, (S g, numdim f)) :: fields f (S g) r end.
Lemma sset_new {B} k (v : B) d : ~ In k (map fst d) -> sset k v d = d ++ [(k, v)].
Proof.
  induction d as [|[k' v'] d IH]; intros N; auto. cbn [map fst In] in N. cbn [sset app].
  destruct (streqb k k') eqn:E; [apply streqb_eq in E; subst; tauto|]. f_equal. apply IH. tauto.
Qed.
Definition with_groups (f : flag) (s : state) (fd : list (str * (nat * Z))) (m : list (Z * list nat)) (sl : list str) (g : nat) : state :=
  State (r_points s) (r_ids s) (r_cells s) fd (match f with Zone => m | Face => r_zmap s end) (match f with Zone => r_fmap s | Face => m end)
    (match f with Zone => sl | Face => r_zslots s end) (match f with Zone => r_fslots s | Face => sl end) (r_cidx s) g.
Definition slots_of (slot : str) (gs : list (str * list nat)) (old : list str) : list str := match gs with [] => old | _ => [slot] end.
Lemma feed_groups_spec f slot a gs : forall s vs, mapper f s = keyed a vs -> (slots f s = [] \/ slots f s = [slot]) ->
  NoDup (map fst (r_field s) ++ map fst gs) ->
  Forall (fun g => NoDup (snd g) /\ Forall (fun i => a < i <= a + List.length vs) (snd g)) gs ->
  feed_groups f slot s gs = Ok (with_groups f s (r_field s ++ fields f (r_gidx s) gs)
    (keyed a (upd a (fun i v => v ++ marks (S i) (r_gidx s) gs) vs)) (slots_of slot gs (slots f s)) (r_gidx s + List.length gs)).
Proof.
  induction gs as [|g gs IH]; intros s vs M SL N F; unfold feed_groups; cbn [foldM].
  - cbn [fields marks slots_of List.length]. rewrite app_nil_r, Nat.add_0_r.
    rewrite (upd_ext _ _ (fun _ w => w)); [|intros; apply app_nil_r].
    assert (U : upd a (fun _ w => w) vs = vs) by (clear; revert a; induction vs as [|w vs IH]; intros a; auto; rewrite upd_cons; now rewrite IH).
    rewrite U, <- M. destruct s, f; reflexivity.
  - apply Forall_cons_iff in F as [[G1 G2] F]. unfold add_group at 1. rewrite M, feed_ids by auto. cbn [bind].
    assert (SL' : (if existsb (streqb slot) (slots f s) then slots f s else slots f s ++ [slot]) = [slot]).
    { destruct SL as [-> | ->]; cbn; [reflexivity|now rewrite streqb_refl]. }
    rewrite SL'. cbn [List.length Nat.leb guard bind].
    assert (NI : ~ In (fst g) (map fst (r_field s))).
    { intros I. apply NoDup_remove_2 in N. apply N. apply in_or_app. now left. }
    rewrite sset_new by auto.
    match goal with |- foldM _ ?x _ = _ => set (s1 := x) end. change (foldM _ s1 gs) with (feed_groups f slot s1 gs).
    assert (M1 : mapper f s1 = keyed a (upd a (fun i v => v ++ if mem (S i) (snd g) then [S (r_gidx s)] else []) vs)) by (destruct f; reflexivity).
    rewrite (IH s1 _ M1).
    + unfold s1, with_groups. cbn [r_points r_ids r_cells r_field r_zmap r_fmap r_zslots r_fslots r_cidx r_gidx].
      rewrite upd_upd. cbn [fields marks List.length]. rewrite <- app_assoc. cbn [app]. rewrite Nat.add_succ_r.
      rewrite (upd_ext a _ (fun i v => v ++ (if mem (S i) (snd g) then [S (r_gidx s)] else []) ++ marks (S i) (S (r_gidx s)) gs)) by (intros; now rewrite <- app_assoc).
      destruct f, gs; reflexivity.
    + right. destruct f; reflexivity.
    + unfold s1. cbn [r_field]. rewrite map_app. cbn [map fst]. rewrite <- app_assoc. exact N.
    + rewrite upd_length. exact F.
Qed.

(** ** The whole file *)
Definition feed (slot : str) (pts : list (list flt)) (zrows : list (list nat)) (zg : list (str * list nat)) (frows : list (list nat)) (fg : list (str * list nat)) : res state :=
  let s := feed_points start (combine (seq 0 (List.length pts)) pts) in
  let* s := feed_cells Zone s (combine (seq 0 (List.length zrows)) zrows) in
  let* s := feed_groups Zone slot s zg in
  let* s := feed_cells Face s (combine (seq (List.length zrows) (List.length frows)) frows) in
  feed_groups Face slot s fg.
Lemma upd_seq {B} a k F (h : nat -> B) : upd a F (map h (seq a k)) = map (fun i => F i (h i)) (seq a k).
Proof. revert a. induction k as [|k IH]; intros a; auto. cbn [seq map]. rewrite upd_cons. now rewrite IH. Qed.
Lemma fields_length f g gs : List.length (fields f g gs) = List.length gs.
Proof. revert g. induction gs as [|x gs IH]; intros g; cbn [fields List.length]; auto. Qed.
Lemma fields_names f g gs : map fst (fields f g gs) = map fst gs.
Proof. revert g. induction gs as [|x gs IH]; intros g; cbn [fields map fst]; auto. now rewrite IH. Qed.
Definition good_rows (f : flag) (n : nat) (ts : list str) (rows : list (list nat)) : Prop :=
  Forall2 (fun t row => type_of f (List.length row) = Ok t /\ Forall (fun v => v < n) row) ts rows.
Definition good_groups (a k : nat) (gs : list (str * list nat)) : Prop :=
  Forall (fun g => NoDup (snd g) /\ Forall (fun i => a < i <= a + k) (snd g)) gs.
Lemma feed_ok slot pts zts zrows zg fts frows fg :
  let nz := List.length zrows in let nf := List.length frows in
  good_rows Zone (List.length pts) zts zrows -> good_rows Face (List.length pts) fts frows ->
  NoDup (map fst zg ++ map fst fg) -> good_groups 0 nz zg -> good_groups nz nf fg ->
  feed slot pts zrows zg frows fg = Ok (State pts (keyed 0 (seq 0 (List.length pts)))
    (fold_left push (combine zts zrows ++ combine fts frows) [])
    (fields Zone 0 zg ++ fields Face (List.length zg) fg)
    (keyed 0 (map (fun i => i :: marks (S i) 0 zg) (seq 0 nz)))
    (keyed nz (map (fun i => i :: marks (S i) (List.length zg) fg) (seq nz nf)))
    (slots_of slot zg []) (slots_of slot fg []) (nz + nf) (List.length zg + List.length fg)).
Proof.
  intros nz nf GZ GF N Z F. unfold feed. fold nz nf.
  pose proof (feed_points_spec pts start eq_refl eq_refl) as P. cbn [start r_points List.length app] in P. rewrite P. clear P.
  cbn [Nat.add r_cells r_field r_zmap r_fmap r_zslots r_fslots r_cidx r_gidx].
  set (s0 := State pts _ _ _ _ _ _ _ _ _).
  pose proof (feed_cells_spec Zone (List.length pts) 0 zrows zts s0 [] eq_refl eq_refl GZ) as C. cbn [Nat.add List.length] in C.
  fold nz in C. rewrite C. clear C. cbn [bind]. unfold with_cells, s0. cbn [r_points r_ids r_cells r_field r_zmap r_fmap r_zslots r_fslots r_cidx r_gidx app Nat.add].
  set (s1 := State pts _ _ _ _ _ _ _ _ _).
  assert (ZL : good_groups 0 (List.length (map (fun i => [i]) (seq 0 nz))) zg) by (rewrite map_length, seq_length; exact Z).
  assert (NZ : NoDup (map fst zg)) by (revert N; clear; induction (map fst zg) as [|x l IH]; intros N; constructor; inversion N; subst; [intros I; apply H1; apply in_or_app; auto|auto]).
  rewrite (feed_groups_spec Zone slot 0 zg s1 (map (fun i => [i]) (seq 0 nz)) eq_refl (or_introl eq_refl) NZ ZL). cbn [bind].
  rewrite upd_seq. unfold with_groups, s1. cbn [slots r_points r_ids r_cells r_field r_zmap r_fmap r_zslots r_fslots r_cidx r_gidx app Nat.add].
  clear s0 s1 ZL. set (s2 := State pts _ _ _ _ _ _ _ _ _).
  pose proof (feed_cells_spec Face (List.length pts) nz frows fts s2 [] eq_refl eq_refl GF) as C. cbn [List.length] in C. rewrite Nat.add_0_r in C.
  fold nf in C. rewrite C. clear C. cbn [bind]. unfold with_cells, s2. cbn [r_points r_ids r_cells r_field r_zmap r_fmap r_zslots r_fslots r_cidx r_gidx app Nat.add].
  clear s2. set (s3 := State pts _ _ _ _ _ _ _ _ _).
  assert (FL : good_groups nz (List.length (map (fun i => [i]) (seq nz nf))) fg) by (rewrite map_length, seq_length; exact F).
  rewrite (feed_groups_spec Face slot nz fg s3 (map (fun i => [i]) (seq nz nf)) eq_refl (or_introl eq_refl)).
  - rewrite upd_seq. unfold with_groups, s3. cbn [slots r_points r_ids r_cells r_field r_zmap r_fmap r_zslots r_fslots r_cidx r_gidx app Nat.add].
    rewrite fold_left_app. reflexivity.
  - unfold s3. cbn [start r_field r_gidx app]. rewrite fields_names. exact N.
  - exact FL.
Qed.

Lemma assign_seq (G : nat -> nat) k : forall a pre old, List.length pre = a -> k <= List.length old ->
  assign (pre ++ old) (keyed a (map (fun i => [i; G i]) (seq a k))) = Ok (pre ++ map G (seq a k) ++ skipn k old).
Proof.
  induction k as [|k IH]; intros a pre old L K; [reflexivity|]. destruct old as [|x old]; [cbn in K; lia|].
  cbn [seq map]. rewrite keyed_cons. unfold assign. cbn [foldM snd bind].
  assert (S1 : set_nth a (G a) (pre ++ x :: old) = (pre ++ [G a]) ++ old).
  { rewrite <- app_assoc, <- L. generalize (G (List.length pre)). clear. intros v. induction pre as [|y pre IHp]; [reflexivity|]. cbn [List.length app set_nth]. now f_equal. }
  rewrite S1. change (foldM _ ((pre ++ [G a]) ++ old) ?m) with (assign ((pre ++ [G a]) ++ old) m).
  rewrite IH; [|rewrite app_length; cbn; lia | cbn in K; lia]. rewrite <- !app_assoc. reflexivity.
Qed.
