(** Groups of FLAC3D grids. *)
From Coq Require Import String Ascii Arith ZArith Bool Lia Permutation List.
From Verif Require Import Base.Str Base.Digits Base.Flt Base.FltText Model.Py Model.Numpy Model.Mesh Model.F3grid Spec.Order Spec.MeshCells Spec.F3grid
  Proofs.F3Order Proofs.F3Build Proofs.F3Finish Proofs.F3Binary Proofs.F3Text Proofs.F3Write.
From Verif Require Proofs.NumpyProof.
Import ListNotations.
Local Open Scope nat_scope.

Lemma Z_order : total_order Z.leb.
Proof. split; [intros x y; rewrite !Z.leb_le; lia|]. split; [intros x y z; rewrite !Z.leb_le; lia|]. intros x y; rewrite !Z.leb_le; lia. Qed.
Lemma label_named f fd k : named fd k (numdim f) (label f fd k).
Proof.
  unfold label, named. destruct (find _ (rev fd)) as [e|] eqn:E.
  - apply find_some in E as [I E]. apply andb_true_iff in E as [A B]. apply Z.eqb_eq in A, B. left. apply in_rev in I. destruct e as [n [a b]]. cbn [fst snd] in *. now subst.
  - right. split; [|reflexivity]. intros other I. apply in_rev in I. pose proof (find_none _ _ E _ I) as X. cbn [fst snd] in X. rewrite !Z.eqb_refl in X. discriminate X.
Qed.
Lemma numbered_In {A} (l : list A) i x : In (i, x) (numbered l) <-> nth_error l i = Some x.
Proof.
  unfold numbered. enough (G : forall a, In (i, x) (combine (seq a (List.length l)) l) <-> exists j, i = a + j /\ nth_error l j = Some x).
  { rewrite G. split; [intros (j & -> & H); exact H|intros H; now exists i]. }
  induction l as [|y l IH]; intros a; cbn [List.length seq combine In].
  - split; [contradiction|]. intros (j & _ & H). destruct j; discriminate.
  - rewrite IH. split.
    + intros [E|(j & -> & H)]; [injection E as <- <-; exists 0; split; [lia|reflexivity]|exists (S j); split; [lia|exact H]].
    + intros ([|j] & -> & H); [left; cbn in H; f_equal; [lia|congruence]|right; exists j; split; [lia|exact H]].
Qed.
Lemma numbered_fst {A} (l : list A) : map fst (numbered l) = seq 0 (List.length l).
Proof. unfold numbered. generalize 0. induction l as [|x l IH]; intros a; cbn; congruence. Qed.
Lemma combine_nth {A B} (a : list A) (b : list B) i x y : nth_error (combine a b) i = Some (x, y) <-> nth_error a i = Some x /\ nth_error b i = Some y.
Proof.
  revert b i. induction a as [|u a IH]; intros [|v b] [|i]; cbn [combine nth_error]; try (split; [discriminate|intros [? ?]; discriminate]); auto.
  split; [intros E; injection E as -> ->; auto|intros [E F]; congruence].
Qed.
Lemma members_In f mat ds k x : In x (members f mat ds k) <-> exists i, x = S i /\ nth_error mat i = Some k /\ nth_error ds i = Some (numdim f).
Proof.
  unfold members. rewrite in_map_iff. split.
  - intros ([i [m d]] & <- & I). apply filter_In in I as [I E]. cbn [fst snd] in *. apply andb_true_iff in E as [A B]. apply Z.eqb_eq in A, B. subst.
    apply numbered_In, combine_nth in I. exists i. tauto.
  - intros (i & -> & A & B). exists (i, (k, numdim f)). split; [reflexivity|]. apply filter_In. cbn [fst snd]. rewrite !Z.eqb_refl. split; auto. apply numbered_In, combine_nth. auto.
Qed.
Lemma NoDup_filter_fst {A B} (p : A * B -> bool) l : NoDup (map fst l) -> NoDup (map fst (filter p l)).
Proof.
  induction l as [|x l IH]; intros N; cbn [filter map]; [constructor|]. inversion N as [|? ? H N']; subst. destruct (p x); auto. cbn [map]. constructor; auto.
  intros I. apply H. apply in_map_iff in I as (y & E & I). apply filter_In in I as [I _]. apply in_map_iff. eauto.
Qed.
Lemma members_nodup f mat ds k : NoDup (members f mat ds k).
Proof.
  unfold members. rewrite <- (map_map fst S). apply FinFun.Injective_map_NoDup; [intros a b; lia|]. apply NoDup_filter_fst. rewrite numbered_fst. apply seq_NoDup.
Qed.
Lemma dims_flat cells : dims cells = map (fun a => if known face_types (fst a) then 2 else 3)%Z (flat cells).
Proof.
  unfold dims, flat. induction cells as [|[t rows] cells IH]; auto. cbn [map concat flat_map fst snd]. rewrite map_app, IH. f_equal.
  rewrite map_map. cbn [fst]. clear. induction rows; cbn; congruence.
Qed.
Lemma solid_dim (a : str * list nat) : is_solid a -> known face_types (fst a) = false.
Proof. intros (t & n & H). apply solid_zone in H. destruct (zone_not_face _ _ H) as [e E]. unfold known. now rewrite E. Qed.
Lemma surface_dim (a : str * list nat) : is_surface a -> known face_types (fst a) = true.
Proof. intros (t & n & H). apply surface_face in H. unfold known. now rewrite H. Qed.
Lemma dims_sorted cells zs fs : flat cells = zs ++ fs -> Forall is_solid zs -> Forall is_surface fs -> dims cells = dimensions zs fs.
Proof.
  intros E Z F. rewrite dims_flat, E, map_app. unfold dimensions. f_equal; clear E.
  - induction Z as [|a zs H Z IH]; auto. cbn [map List.length repeat]. now rewrite solid_dim, IH.
  - induction F as [|a fs H F IH]; auto. cbn [map List.length repeat]. now rewrite surface_dim, IH.
Qed.
Lemma dimensions_nth {A} (zs fs : list A) i d : nth_error (dimensions zs fs) i = Some d <->
  (i < List.length zs /\ d = 3%Z) \/ (List.length zs <= i < List.length zs + List.length fs /\ d = 2%Z).
Proof.
  unfold dimensions. destruct (Nat.lt_ge_cases i (List.length zs)) as [L|L].
  - rewrite nth_error_app1 by (rewrite repeat_length; lia). rewrite (nth_error_repeat 3%Z L). split; [intros E; left; split; [lia|congruence]|intros [[_ ->]|[? _]]; [reflexivity|lia]].
  - rewrite nth_error_app2 by (rewrite repeat_length; lia). rewrite repeat_length. destruct (Nat.lt_ge_cases (i - List.length zs) (List.length fs)) as [L'|L'].
    + rewrite (nth_error_repeat 2%Z L'). split; [intros E; right; split; [lia|congruence]|intros [[? _]|[_ ->]]; [lia|reflexivity]].
    + replace (nth_error _ _) with (@None Z) by (symmetry; apply nth_error_None; rewrite repeat_length; lia). split; [discriminate|intros [[? _]|[? _]]; lia].
Qed.
(** The groups as a list of materials *)
Lemma groups_materials f cells mat fd gs zs fs : flat cells = zs ++ fs -> Forall is_solid zs -> Forall is_surface fs ->
  translate_groups f cells mat fd = Ok gs ->
  let ds := dimensions zs fs in List.length mat = List.length (zs ++ fs) /\
  exists ks, NoDup ks /\ (forall k, In k ks <-> used zs fs mat k (numdim f)) /\ gs = map (fun k => (label f fd k, members f mat ds k)) ks.
Proof.
  intros E Z F H ds. unfold translate_groups in H. rewrite (dims_sorted cells zs fs E Z F) in H. fold ds in H. cbv zeta in H.
  destruct (Nat.eqb_spec (List.length mat) (List.length ds)) as [L|]; cbn [guard bind] in H; [|discriminate].
  split; [rewrite L; unfold ds, dimensions; now rewrite !app_length, !repeat_length|].
  set (p := fun k => negb (List.length (members f mat ds k) =? 0)). exists (filter p (unique Z.leb mat)). split; [apply NoDup_filter, NumpyProof.unique_nodup, Z_order|]. split.
  - intros k. rewrite filter_In, (NumpyProof.unique_In _ Z_order). unfold p, used. split.
    + intros [_ N]. destruct (members f mat ds k) as [|x r] eqn:EM; [discriminate|].
      assert (I : In x (members f mat ds k)) by (rewrite EM; now left). apply members_In in I as (i & _ & A & B). eapply nth_error_In. apply combine_nth. split; eauto.
    + intros I. apply In_nth_error in I as (i & I). apply combine_nth in I as [A B]. split; [eapply nth_error_In; eauto|].
      assert (IM : In (S i) (members f mat ds k)) by (apply members_In; eauto). destruct (members f mat ds k); [contradiction|reflexivity].
  - assert (G : gs = map (fun g => (label f fd (fst g), snd g)) (filter (fun g => negb (List.length (snd g) =? 0)) (map (fun k => (k, members f mat ds k)) (unique Z.leb mat)))) by congruence.
    rewrite G. clear. induction (unique Z.leb mat) as [|k l IH]; auto. cbn [map filter snd]. unfold p at 1. destruct (negb (List.length (members f mat ds k) =? 0)); cbn [map fst snd]; now rewrite IH.
Qed.
Lemma mem_In x l : mem x l = true <-> In x l.
Proof. unfold mem. rewrite existsb_exists. split; [intros (y & I & E); apply Nat.eqb_eq in E; now subst|intros I; exists x; split; auto; apply Nat.eqb_refl]. Qed.
Lemma marks_none x g gs : Forall (fun y => mem x (snd y) = false) gs -> marks x g gs = [].
Proof. intros F. revert g. induction F as [|y gs H F IH]; intros g; auto. cbn [marks]. now rewrite H, IH. Qed.
Lemma marks_one f x (G : Z -> str * list nat) ks k0 : NoDup ks -> In k0 ks -> (forall k, In k ks -> mem x (snd (G k)) = Z.eqb k k0) ->
  forall g, exists n, marks x g (map G ks) = [n] /\ In (fst (G k0), (n, numdim f)) (fields f g (map G ks)).
Proof.
  intros N. induction N as [|k ks NI N IH]; intros I H g; [contradiction|]. cbn [map marks fields]. destruct (Z.eqb_spec k k0) as [->|NE].
  - exists (S g). rewrite (H k0 (or_introl eq_refl)), Z.eqb_refl. rewrite marks_none; [split; [reflexivity|now left]|]. apply Forall_map, Forall_forall. intros k' I'.
    rewrite H by now right. apply Z.eqb_neq. intros ->. contradiction.
  - destruct I as [|I]; [congruence|]. rewrite (H k (or_introl eq_refl)). destruct (Z.eqb_spec k k0); [congruence|]. cbn [app].
    destruct (IH I (fun k' I' => H k' (or_intror I')) (S g)) as (n0 & M & IN). exists n0. split; auto. now right.
Qed.
Lemma numdim_range f (zs fs : list (str * list nat)) i : nth_error (dimensions zs fs) i = Some (numdim f) <->
  match f with Zone => i < List.length zs | Face => List.length zs <= i < List.length zs + List.length fs end.
Proof. rewrite dimensions_nth. destruct f; cbn [numdim]; split; [intros [[? _]|[_ ?]]; [lia|discriminate]|auto|intros [[_ ?]|[? _]]; [discriminate|lia]|auto]. Qed.
Lemma groups_good f mat (zs fs : list (str * list nat)) fd ks : 
  good_groups (match f with Zone => 0 | Face => List.length zs end) (match f with Zone => List.length zs | Face => List.length fs end)
    (map (fun k => (label f fd k, members f mat (dimensions zs fs) k)) ks).
Proof.
  apply Forall_map, Forall_forall. intros k _. cbn [snd]. split; [apply members_nodup|]. apply Forall_forall. intros x I. apply members_In in I as (i & -> & _ & B).
  apply numdim_range in B. destruct f; lia.
Qed.
Lemma groups_mark f mat (zs fs : list (str * list nat)) fd ks i m : NoDup ks -> (forall k, In k ks <-> used zs fs mat k (numdim f)) ->
  nth_error mat i = Some m -> nth_error (dimensions zs fs) i = Some (numdim f) ->
  forall g, exists n, marks (S i) g (map (fun k => (label f fd k, members f mat (dimensions zs fs) k)) ks) = [n] /\
    In (label f fd m, (n, numdim f)) (fields f g (map (fun k => (label f fd k, members f mat (dimensions zs fs) k)) ks)).
Proof.
  intros N U M D. apply (marks_one f (S i) (fun k => (label f fd k, members f mat (dimensions zs fs) k)) ks m N).
  - apply U. unfold used. eapply nth_error_In. apply combine_nth. eauto.
  - intros k _. cbn [snd]. apply eq_true_iff_eq. rewrite mem_In, members_In, Z.eqb_eq. split.
    + intros (j & E & A & _). injection E as <-. congruence.
    + intros ->. eauto.
Qed.
Lemma nodup_names (zs fs : list (str * list nat)) mat fd kz kf : unambiguous fd zs fs mat -> NoDup kz -> NoDup kf ->
  (forall k, In k kz <-> used zs fs mat k 3%Z) -> (forall k, In k kf <-> used zs fs mat k 2%Z) ->
  NoDup (map (label Zone fd) kz ++ map (label Face fd) kf).
Proof.
  intros U NZ NF IZ IF.
  assert (P : forall f k f' k', used zs fs mat k (numdim f) -> used zs fs mat k' (numdim f') -> label f fd k = label f' fd k' -> k = k' /\ numdim f = numdim f').
  { intros f k f' k' A B E. apply (U _ _ _ _ (label f fd k) A B); [apply label_named|rewrite E; apply label_named]. }
  assert (G : forall f ks, NoDup ks -> (forall k, In k ks -> used zs fs mat k (numdim f)) -> NoDup (map (label f fd) ks)).
  { intros f ks N I. induction N as [|k ks NI N IH]; cbn [map]; constructor.
    - intros J. apply in_map_iff in J as (k' & E & J). apply NI. destruct (P f k' f k) as [-> _]; auto; apply I; [now right|now left].
    - apply IH. intros; apply I; now right. }
  assert (DJ : forall x, In x (map (label Zone fd) kz) -> ~ In x (map (label Face fd) kf)).
  { intros x I J. apply in_map_iff in I as (k & <- & I). apply in_map_iff in J as (k' & E & J). destruct (P Face k' Zone k) as [_ H]; auto; [now apply IF|now apply IZ|discriminate H]. }
  assert (GZ := G Zone kz NZ (fun k I => proj1 (IZ k) I)). assert (GF := G Face kf NF (fun k I => proj1 (IF k) I)). clear - GZ GF DJ.
  induction GZ as [|x l NI N IH]; cbn [app]; auto. constructor.
  - intros I. apply in_app_or in I as [I|I]; [contradiction|]. now apply (DJ x); [left|].
  - apply IH. intros y I. apply DJ. now right.
Qed.
Lemma fields_ids f g gs : map (fun e => fst (snd e)) (fields f g gs) = seq (S g) (List.length gs).
Proof. revert g. induction gs as [|x gs IH]; intros g; auto. cbn [fields map List.length seq fst snd]. now rewrite IH. Qed.
Lemma Forall2_seq {A} (R : A -> nat -> Prop) (l : list A) n a (G : nat -> nat) : List.length l = n ->
  (forall i x, nth_error l i = Some x -> R x (G (a + i))) -> Forall2 R l (map G (seq a n)).
Proof.
  intros <-. revert a. induction l as [|x l IH]; intros a H; cbn [List.length seq map]; constructor.
  - specialize (H 0 x eq_refl). now rewrite Nat.add_0_r in H.
  - apply IH. intros i y E. specialize (H (S i) y E). now rewrite <- Nat.add_succ_comm in H.
Qed.
Lemma sorted_app zs fs : Forall is_solid zs -> Forall is_surface fs -> forall zs' fs', sorted_out (zs ++ fs) zs' fs' -> zs' = zs /\ fs' = fs.
Proof.
  intros SZ SF. induction SZ as [|a zs H SZ IH]; cbn [app].
  - induction SF as [|a fs H SF IH]; intros zs' fs' S.
    + inversion S. auto.
    + remember (a :: fs) as l eqn:El. destruct S as [|b l zs fs0 Hb S|b l zs fs0 Hb S|b l zs fs0 Hb Hb' S]; [discriminate| | |]; injection El as -> ->.
      * exfalso. eapply solid_not_surface; eauto.
      * destruct (IH _ _ S). now subst.
      * contradiction.
  - intros zs' fs' S. remember (a :: zs ++ fs) as l eqn:El. destruct S as [|b l zs1 fs1 Hb S|b l zs1 fs1 Hb S|b l zs1 fs1 Hb Hb' S]; [discriminate| | |]; injection El as -> ->.
    + destruct (IH _ _ S). now subst.
    + exfalso. eapply solid_not_surface; eauto.
    + contradiction.
Qed.
(** C49 *)
Theorem groups_read (binary : bool) version now m file mats zs fs : write binary version now m = Ok file -> g_material m = Some mats ->
  Forall in_space (g_points m) -> valid (List.length (g_points m)) (flat (g_cells m)) ->
  flat (g_cells m) = zs ++ fs -> Forall is_solid zs -> Forall is_surface fs -> zs ++ fs <> [] -> unambiguous (g_field m) zs fs mats ->
  (binary = false -> without_newline version /\ without_newline now /\ plain_names (g_field m) zs fs mats /\
     forall m m', used zs fs mats m 2%Z -> used zs fs mats m' 2%Z -> m = m') ->
  exists c gs, read file = Ok c /\ c_points c = g_points m /\ Forall2 comes_back (zs ++ fs) (flat (c_cells c)) /\ merged (c_cells c) /\
    c_groups c = Some gs /\ map (@List.length nat) gs = map (fun b => List.length (snd b)) (c_cells c) /\
    NoDup (map fst (c_field c)) /\ NoDup (map (fun e => fst (snd e)) (c_field c)) /\
    Forall2 (fun md g => exists name, named (g_field m) (fst md) (snd md) name /\ In (name, (g, snd md)) (c_field c)) (combine mats (dimensions zs fs)) (concat gs).
Proof.
  intros W MM P V EC SZ SF NE UN TX. destruct (write_parts _ _ _ _ _ W) as (zb & fb & zg & fg & TZ & TF & GZ & GF).
  destruct (sort_out _ _ _ _ TZ TF) as (zs' & fs' & S & RZ & RF).
  assert (ES : zs' = zs /\ fs' = fs).
  { rewrite EC in S. now apply sorted_app in S. }
  destruct ES as [-> ->]. rewrite MM in GZ, GF. cbn [groups_of] in GZ, GF.
  destruct (sorted_valid _ _ _ _ S V) as [VZ VF].
  destruct (zones_good _ _ _ _ VZ RZ) as (AZ & _ & BZ). destruct (faces_good _ _ _ VF RF) as (AF & _ & BF).
  destruct (groups_materials _ _ _ _ _ _ _ EC SZ SF GZ) as (LM & kz & NZ & IZ & EZ). destruct (groups_materials _ _ _ _ _ _ _ EC SZ SF GF) as (_ & kf & NF & IF & EF).
  cbn [numdim] in IZ, IF.
  assert (LZ : List.length (map snd (flat zb)) = List.length zs) by (rewrite map_length; clear - RZ; induction RZ; cbn; auto).
  assert (LF : List.length (map snd (flat fb)) = List.length fs) by (rewrite map_length; clear - RF; induction RF; cbn; auto).
  assert (NM : NoDup (map fst zg ++ map fst fg)).
  { rewrite EZ, EF, !map_map. cbn [fst]. now apply (nodup_names zs fs mats). }
  assert (HZ : forall i, i < List.length zs -> exists mt n, nth_error mats i = Some mt /\ marks (Datatypes.S i) 0 zg = [n] /\ In (label Zone (g_field m) mt, (n, 3%Z)) (fields Zone 0 zg)).
  { intros i L. destruct (nth_error mats i) as [mt|] eqn:E; [|apply nth_error_None in E; rewrite app_length in LM; lia].
    destruct (groups_mark Zone mats zs fs (g_field m) kz i mt NZ IZ E) with (g := 0) as (n & A & B); [now apply numdim_range|]. rewrite EZ. eauto. }
  assert (HF : forall i, List.length zs <= i < List.length zs + List.length fs -> exists mt n, nth_error mats i = Some mt /\ marks (Datatypes.S i) (List.length zg) fg = [n] /\ In (label Face (g_field m) mt, (n, 2%Z)) (fields Face (List.length zg) fg)).
  { intros i L. destruct (nth_error mats i) as [mt|] eqn:E; [|apply nth_error_None in E; rewrite app_length in LM; lia].
    destruct (groups_mark Face mats zs fs (g_field m) kf i mt NF IF E) with (g := List.length zg) as (n & A & B); [now apply numdim_range|]. rewrite EF. eauto. }
  set (Gz := fun i => hd 0 (marks (Datatypes.S i) 0 zg)). set (Gf := fun i => hd 0 (marks (Datatypes.S i) (List.length zg) fg)).
  destruct (finish_ok (if binary then $"Default" else []) (g_points m) _ _ zg _ _ fg Gz Gf AZ AF NM) as (c & E & CP & FB & MG & CF & CG).
  - rewrite LZ, EZ. apply (groups_good Zone).
  - rewrite LZ, LF, EF. apply (groups_good Face).
  - rewrite !combine_fst_snd. apply Forall_app. auto.
  - intros _ i L. rewrite LZ in L. destruct (HZ i L) as (mt & n & _ & A & _). unfold Gz. now rewrite A.
  - intros _ i L. rewrite LZ, LF in L. destruct (HF i L) as (mt & n & _ & A & _). unfold Gf. now rewrite A.
  - intros _. rewrite LZ, LF, <- app_length. destruct (zs ++ fs); [contradiction|cbn; lia].
  - rewrite !combine_fst_snd in FB. rewrite LZ, LF in CG.
    destruct (feed _ _ _ _ _ _) as [st|] eqn:FD; cbn [bind] in E; [|discriminate].
    assert (ZG : zs <> [] -> zg <> []).
    { intros NZs X. destruct zs as [|a zs0]; [contradiction|]. destruct (HZ 0) as (mt & n & _ & A & _); [cbn; lia|]. rewrite X in A. discriminate A. }
    assert (FG : fs <> [] -> fg <> []).
    { intros NFs X. destruct fs as [|a fs0]; [contradiction|]. destruct (HF (List.length zs)) as (mt & n & _ & A & _); [cbn; lia|]. rewrite X in A. discriminate A. }
    assert (GG : exists gs, c_groups c = Some gs /\ map (@List.length nat) gs = block_sizes (c_cells c) /\ concat gs = map Gz (seq 0 (List.length zs)) ++ map Gf (seq (List.length zs) (List.length fs))).
    { assert (X : zg ++ fg <> []).
      { intros X. apply app_eq_nil in X as [X Y]. destruct zs; [destruct fs; [contradiction|]|]; [now apply FG|now apply ZG]. }
      destruct (zg ++ fg) eqn:EG; [contradiction|]. destruct CG as (gs & A & B & D). exists gs. split; auto. split; auto. rewrite D. f_equal.
      - destruct zs as [|a zs0]; [now destruct zg|]. destruct zg; [exfalso; now apply ZG|reflexivity].
      - destruct fs as [|a fs0]; [now destruct fg|]. destruct fg; [exfalso; now apply FG|reflexivity]. }
    destruct GG as (gs & A & B & D). exists c, gs. 
    rewrite (read_feed binary version now m file zb fb zg fg st W P V TZ TF); [|now rewrite MM|now rewrite MM| |exact FD].
    + split; auto. split; auto. split; [eapply comes; eauto|]. split; auto. split; auto. split; auto. split; [|split].
      * rewrite CF, map_app, !fields_names. exact NM.
      * rewrite CF, map_app, !fields_ids. change (Datatypes.S (List.length zg)) with (1 + List.length zg). rewrite <- seq_app. apply seq_NoDup.
      * rewrite D, CF. assert (CM : combine mats (dimensions zs fs) = combine (firstn (List.length zs) mats) (repeat 3%Z (List.length zs)) ++ combine (skipn (List.length zs) mats) (repeat 2%Z (List.length fs))).
        { unfold dimensions. rewrite <- (firstn_skipn (List.length zs) mats) at 1. rewrite app_length in LM.
          assert (LL : List.length (firstn (List.length zs) mats) = List.length (repeat 3%Z (List.length zs))) by (rewrite firstn_length, repeat_length; lia).
          revert LL. generalize (firstn (List.length zs) mats) (repeat 3%Z (List.length zs)). clear. intros a b. revert b. induction a as [|x a IH]; intros [|y b] L; try discriminate; auto. cbn [app combine]. f_equal. apply IH. cbn in L. lia. }
        rewrite CM. rewrite app_length in LM.
        apply Forall2_app.
        -- assert (L1 : List.length (combine (firstn (List.length zs) mats) (repeat 3%Z (List.length zs))) = List.length zs) by (rewrite combine_length, firstn_length, repeat_length; lia).
           apply (Forall2_seq _ _ _ _ _ L1). intros i [mt d] N. apply combine_nth in N as [N1 N2]. apply nth_error_In, repeat_spec in N2 as ->. cbn [fst snd].
           assert (L2 : i < List.length zs) by (assert (X : i < List.length (firstn (List.length zs) mats)) by (apply nth_error_Some; congruence); rewrite firstn_length in X; lia).
           destruct (HZ i L2) as (mt' & n & M1 & M2 & M3). assert (mt' = mt).
           { rewrite <- (firstn_skipn (List.length zs) mats), nth_error_app1 in M1 by (rewrite firstn_length; lia). congruence. }
           subst mt'. exists (label Zone (g_field m) mt). split; [apply (label_named Zone)|]. apply in_or_app. left. unfold Gz. rewrite Nat.add_0_l, M2. exact M3.
        -- assert (L1 : List.length (combine (skipn (List.length zs) mats) (repeat 2%Z (List.length fs))) = List.length fs) by (rewrite combine_length, skipn_length, repeat_length; lia).
           apply (Forall2_seq _ _ _ _ _ L1). intros i [mt d] N. apply combine_nth in N as [N1 N2]. assert (L2 : i < List.length fs) by (rewrite <- (repeat_length 2%Z (List.length fs)); apply nth_error_Some; congruence).
           apply nth_error_In, repeat_spec in N2 as ->. cbn [fst snd].
           destruct (HF (List.length zs + i)) as (mt' & n & M1 & M2 & M3); [lia|]. assert (mt' = mt).
           { rewrite <- (firstn_skipn (List.length zs) mats), nth_error_app2 in M1 by (rewrite firstn_length; lia). rewrite firstn_length, Nat.min_l in M1 by lia. replace (List.length zs + i - List.length zs) with i in M1 by lia. congruence. }
           subst mt'. exists (label Face (g_field m) mt). split; [apply (label_named Face)|]. apply in_or_app. right. unfold Gf. rewrite M2. exact M3.
    + intros HB. destruct (TX HB) as (T1 & T2 & T3 & T4). split; auto. split; auto.
      assert (GN : forall name, plain name -> good_name name).
      { intros name PL. split; [unfold no_space_str; apply forallb_forall; intros x I; destruct (PL x I) as [Q _]; now rewrite Q|]. intros I. now destruct (PL _ I). }
      split; [|split].
      * rewrite EZ. apply Forall_map, Forall_forall. intros k I. cbn [fst]. apply GN. eapply T3; [apply IZ; exact I|apply (label_named Zone)].
      * rewrite EF. apply Forall_map, Forall_forall. intros k I. cbn [fst]. apply GN. eapply T3; [apply IF; exact I|apply (label_named Face)].
      * rewrite EF, map_length. destruct kf as [|k [|k' kf]]; cbn; try lia. exfalso. inversion NF as [|? ? NI _]; subst. apply NI. left.
        apply T4; apply IF; [right; now left|now left].
Qed.
