(** Reading FLAC3D grids of other programs. *)
From Coq Require Import String Ascii Arith ZArith Bool Permutation Lia List.
From Verif Require Import Base.Str Base.Digits Base.Flt Model.Py Model.Numpy Model.Mesh Model.F3grid
  Spec.MeshCells Spec.F3grid Proofs.F3Build Proofs.F3Text Proofs.F3Finish Proofs.BlocksProof Proofs.UcdFileProof Spec.F3File.
From Verif Require Proofs.NumpyProof Proofs.MaterialProof.
Import ListNotations.
Local Open Scope nat_scope.

Definition flag_of (b : body) : flag := match b with Solid => Zone | Surface => Face end.
Lemma same_bodyP a b : same_body a b = true <-> a = b.
Proof. destruct a, b; cbn; split; congruence. Qed.
Lemma same_body_refl a : same_body a a = true.
Proof. now destruct a. Qed.
Lemma nodup_prefix {A} (l k : list A) : NoDup (l ++ k) -> NoDup l.
Proof. induction k as [|y k IH] using rev_ind; intros N; [now rewrite app_nil_r in N|]. apply IH. rewrite app_assoc in N. apply NoDup_remove_1 in N. now rewrite app_nil_r in N. Qed.
Lemma numbered_snoc {A} (l : list A) x : numbered (l ++ [x]) = numbered l ++ [(List.length l, x)].
Proof.
  unfold numbered. rewrite app_length, Nat.add_1_r, seq_S. cbn [Nat.add].
  enough (G : forall (a : list nat) (l : list A) b y, List.length a = List.length l -> combine (a ++ [b]) (l ++ [y]) = combine a l ++ [(b, y)]) by (apply G; now rewrite seq_length).
  clear. induction a as [|z a IH]; intros [|w l] b y L; try discriminate L; cbn; auto. now rewrite IH by (cbn in L; lia).
Qed.
Lemma in_numbered {A} (l : list A) i x : In (i, x) (numbered l) <-> nth_error l i = Some x.
Proof.
  unfold numbered. enough (G : forall l a, In (i, x) (combine (seq a (List.length l)) l) <-> a <= i /\ nth_error l (i - a) = Some x).
  { rewrite G, Nat.sub_0_r. split; [tauto|]. intros H. split; [lia|auto]. }
  clear. induction l as [|y l IH]; intros a; cbn [List.length seq combine In].
  - split; [tauto|]. intros [_ H]. destruct (i - a); discriminate H.
  - rewrite IH. split.
    + intros [E|[L H]]; [injection E as -> ->; split; [lia|now rewrite Nat.sub_diag]|]. split; [lia|]. now replace (i - a) with (S (i - S a)) by lia.
    + intros [L H]. destruct (Nat.eq_dec a i) as [->|D]; [left; rewrite Nat.sub_diag in H; cbn in H; congruence|]. right. split; [lia|]. now replace (i - a) with (S (i - S a)) in H by lia.
Qed.

(** ** Groups of an element *)
Definition hits (i : nat) (l : list (nat * list nat)) : list nat := flat_map (fun g => repeat (fst g) (count_occ Nat.eq_dec (snd g) i)) l.
Lemma hits_app i l k : hits i (l ++ k) = hits i l ++ hits i k.
Proof. apply flat_map_app. Qed.
Lemma hits_more i l g ms j : hits i (l ++ [(g, ms ++ [j])]) = hits i (l ++ [(g, ms)]) ++ (if Nat.eq_dec j i then [g] else []).
Proof.
  rewrite !hits_app. unfold hits at 2 4. cbn [flat_map fst snd]. rewrite !app_nil_r, count_occ_app, repeat_app, app_assoc. f_equal.
  cbn [count_occ]. destruct (Nat.eq_dec j i); reflexivity.
Qed.
Lemma hits_empty i l g : hits i (l ++ [(g, [])]) = hits i l.
Proof. rewrite hits_app. cbn. now rewrite app_nil_r. Qed.
Lemma hits_none i l : (forall g, In g l -> ~ In i (snd g)) -> hits i l = [].
Proof.
  induction l as [|g l IH]; intros H; [reflexivity|]. cbn [hits flat_map]. rewrite (proj1 (count_occ_not_In Nat.eq_dec (snd g) i)) by (apply H; now left).
  cbn [repeat app]. apply IH. intros k K. apply H. now right.
Qed.
(** numbers and members of the groups of a body *)
Definition parts (b : body) (G : list group) : list (nat * list nat) :=
  flat_map (fun kg => if same_body (g_body (snd kg)) b then [(S (fst kg), g_members (snd kg))] else []) (numbered G).
Lemma parts_snoc b G g : parts b (G ++ [g]) = parts b G ++ (if same_body (g_body g) b then [(S (List.length G), g_members g)] else []).
Proof. unfold parts. rewrite numbered_snoc, flat_map_app. cbn [flat_map fst snd]. now rewrite app_nil_r. Qed.
Lemma in_parts b G n ms : In (n, ms) (parts b G) <-> exists k g, nth_error G k = Some g /\ g_body g = b /\ n = S k /\ ms = g_members g.
Proof.
  unfold parts. rewrite in_flat_map. split.
  - intros ([k g] & I & J). apply in_numbered in I. cbn [fst snd] in J. destruct (same_body (g_body g) b) eqn:E; [|destruct J]. apply same_bodyP in E.
    destruct J as [J|[]]. injection J as <- <-. exists k, g. auto.
  - intros (k & g & I & E & -> & ->). exists (k, g). split; [now apply in_numbered|]. cbn [fst snd]. rewrite (proj2 (same_bodyP _ _) E). now left.
Qed.

(** ** The state of the reader *)
Definition elements (b : body) (C : list cell) : list (nat * cell) := filter (fun ic => same_body (c_body (snd ic)) b) (numbered C).
Definition entries (b : body) (C : list cell) (l : list (nat * list nat)) : list (Z * list nat) := map (fun ic => (c_number (snd ic), fst ic :: hits (fst ic) l)) (elements b C).
Definition slot_list (b : body) (G : list group) : list str := match filter (fun g => same_body (g_body g) b) G with [] => [] | g :: _ => [g_slot g] end.
Definition named_groups (G : list group) : list (str * (nat * Z)) := map (fun kg => (g_name (snd kg), (S (fst kg), numdim (flag_of (g_body (snd kg)))))) (numbered G).
(** an element as it stands in the file *)
Definition in_file (c : cell) (row : str * list nat) : Prop := fst row = c_type c /\ type_of (flag_of (c_body c)) (List.length (snd row)) = Ok (c_type c) /\ read_zone (c_type c) (snd row) = Ok (c_nodes c).
Definition inv (P : list gridpoint) (C : list cell) (G : list group) (s : state) : Prop :=
  r_points s = map snd P /\ r_ids s = places 0 (map fst P) /\
  (exists rows, Forall2 in_file C rows /\ r_cells s = fold_left push rows []) /\ r_cidx s = List.length C /\ r_gidx s = List.length G /\
  r_field s = named_groups G /\ (forall b, mapper (flag_of b) s = entries b C (parts b G)) /\ (forall b, slots (flag_of b) s = slot_list b G).
Definition members_ok (C : list cell) (G : list group) : Prop := forall g i, In g G -> In i (g_members g) -> exists c, nth_error C i = Some c /\ c_body c = g_body g.
Definition unique_numbers (C : list cell) : Prop := NoDup (map (fun c => (c_body c, c_number c)) C).
Lemma start_inv : inv [] [] [] start.
Proof.
  unfold inv. split; [reflexivity|]. split; [reflexivity|]. split; [exists []; split; [constructor|reflexivity]|]. split; [reflexivity|]. split; [reflexivity|]. split; [reflexivity|].
  split; intros []; reflexivity.
Qed.
Lemma inv_point P C G s z p : inv P C G s -> NoDup (map fst (P ++ [(z, p)])) -> inv (P ++ [(z, p)]) C G (add_point s z p).
Proof.
  intros (A & B & D & E & F & H & M & S) N. unfold inv, add_point. cbn [r_points r_ids r_cells r_cidx r_gidx r_field].
  split; [rewrite A, map_app; reflexivity|]. split.
  - rewrite A, B, map_length. rewrite map_app in *. cbn [map fst] in *. pose proof (places_set (map fst P) z N) as X. rewrite map_length in X. exact X.
  - split; [exact D|]. split; [exact E|]. split; [exact F|]. split; [exact H|]. split; intros b; [rewrite <- M|rewrite <- S]; destruct b; reflexivity.
Qed.
Lemma elements_snoc b C c : elements b (C ++ [c]) = elements b C ++ (if same_body (c_body c) b then [(List.length C, c)] else []).
Proof. unfold elements. rewrite numbered_snoc, filter_app. cbn [filter snd]. now destruct (same_body (c_body c) b). Qed.
Lemma hits_fresh b C G : members_ok C G -> hits (List.length C) (parts b G) = [].
Proof.
  intros M. apply hits_none. intros [n ms] I J. apply in_parts in I as (k & g & K & _ & _ & ->). cbn [snd] in J.
  destruct (M g _ (nth_error_In _ _ K) J) as (c & E & _). assert (X : nth_error C (List.length C) <> None) by congruence. apply nth_error_Some in X. lia.
Qed.
Lemma entries_fst b C l : map fst (entries b C l) = map (fun ic => c_number (snd ic)) (elements b C).
Proof. unfold entries. rewrite map_map. reflexivity. Qed.
Lemma zones_numbers b C : unique_numbers C -> NoDup (map (fun ic => c_number (snd ic)) (elements b C)).
Proof.
  unfold unique_numbers, elements. intros N. assert (X : forall a, NoDup (map (fun ic => c_number (snd ic)) (filter (fun ic : nat * cell => same_body (c_body (snd ic)) b) (combine (seq a (List.length C)) C)))).
  { induction C as [|c C IH]; intros a; cbn [List.length seq combine filter map]; [constructor|]. cbn [map] in N. inversion_clear N as [|? ? I N']. cbn [snd].
    destruct (same_body (c_body c) b) eqn:E; [|now apply IH]. cbn [map snd]. constructor; [|now apply IH]. intros J. apply I. apply in_map_iff in J as ([i c'] & Q & J). apply filter_In in J as [J B].
    cbn [snd] in *. apply in_combine_r in J. apply in_map_iff. exists c'. split; auto. apply same_bodyP in E, B. congruence. }
  apply X.
Qed.
Lemma inv_cell P C G s c us (b7 : bool) ids row : inv P C G s -> NoDup (map fst P) -> unique_numbers (C ++ [c]) -> members_ok C G ->
  Forall2 (fun z v => exists p, nth_error P v = Some p /\ fst p = z) ids us ->
  (if b7 then match rev us with v :: _ => Ok (us ++ [v]) | [] => Err IndexError end else Ok us) = Ok row -> in_file c (c_type c, row) ->
  exists s', add_cell (flag_of (c_body c)) s (c_number c) ids b7 = Ok s' /\ inv P (C ++ [c]) G s'.
Proof.
  intros (A & B & (rows & D & D') & E & F & H & M & S) N U MO I R IF. unfold add_cell.
  assert (X : mapM (fun i => zget i (r_ids s)) ids = Ok us).
  { rewrite B. clear - I N. induction I as [|z v ids us (p & Q & <-) I IH]; [reflexivity|]. cbn [mapM]. rewrite (places_get _ v) by (auto; now apply map_nth_error). cbn [bind]. now rewrite IH. }
  rewrite X. cbn [bind]. rewrite R. cbn [bind]. destruct IF as (T1 & T2 & T3). cbn [fst snd] in T1, T2, T3.
  assert (UC : update_cells (r_cells s) row (flag_of (c_body c)) = Ok (push (r_cells s) (c_type c, row))).
  { unfold update_cells. rewrite T2. cbn [bind]. unfold push. cbn [fst snd]. destruct (rev (r_cells s)) as [|[t' rows'] r]; auto. now destruct (streqb (c_type c) t'). }
  rewrite UC. cbn [bind]. eexists. split; [reflexivity|]. unfold inv. cbn [r_points r_ids r_cells r_cidx r_gidx r_field].
  split; [exact A|]. split; [exact B|]. split.
  { exists (rows ++ [(c_type c, row)]). split; [apply Forall2_app; [exact D|constructor; [|constructor]; split; [reflexivity|split; auto]]|]. rewrite fold_left_app, <- D'. reflexivity. }
  split; [rewrite app_length; cbn; lia|]. split; [exact F|]. split; [exact H|]. split.
  - assert (W : zset (c_number c) [r_cidx s] (mapper (flag_of (c_body c)) s) = entries (c_body c) (C ++ [c]) (parts (c_body c) G)).
    { rewrite M, zset_fresh.
      - unfold entries. rewrite elements_snoc, same_body_refl, map_app. cbn [map fst snd]. now rewrite (hits_fresh _ C G MO), E.
      - rewrite entries_fst. pose proof (zones_numbers (c_body c) (C ++ [c]) U) as ND. rewrite elements_snoc, same_body_refl, map_app in ND. cbn [map snd] in ND. apply NoDup_remove_2 in ND. now rewrite app_nil_r in ND. }
    intros b. destruct (same_body (c_body c) b) eqn:Q.
    + apply same_bodyP in Q as <-. destruct (c_body c); exact W.
    + assert (V : entries b (C ++ [c]) (parts b G) = mapper (flag_of b) s) by (rewrite M; unfold entries; rewrite elements_snoc, Q, app_nil_r; reflexivity). rewrite V.
      destruct (c_body c), b; try discriminate Q; reflexivity.
  - intros b. rewrite <- S. destruct (c_body c), b; reflexivity.
Qed.

(** ** Groups *)
Lemma zget_mid {B} k (v : B) a b : ~ In k (map fst a) -> zget k (a ++ (k, v) :: b) = Ok v.
Proof.
  induction a as [|[k' v'] a IH]; intros N; cbn [app zget]; [now rewrite Z.eqb_refl|]. destruct (Z.eqb_spec k k') as [->|D]; [elim N; now left|]. apply IH. intros I. apply N. now right.
Qed.
Lemma zset_mid {B} k (v w : B) a b : ~ In k (map fst a) -> zset k w (a ++ (k, v) :: b) = a ++ (k, w) :: b.
Proof.
  induction a as [|[k' v'] a IH]; intros N; cbn [app zset]; [now rewrite Z.eqb_refl|]. destruct (Z.eqb_spec k k') as [->|D]; [elim N; now left|]. f_equal. apply IH. intros I. apply N. now right.
Qed.
Lemma elements_split b C i c : nth_error C i = Some c -> c_body c = b -> exists x y, elements b C = x ++ (i, c) :: y /\ ~ In i (map fst x) /\ ~ In i (map fst y).
Proof.
  intros E Q. assert (I : In (i, c) (elements b C)) by (apply filter_In; split; [now apply in_numbered|cbn; now apply same_bodyP]).
  apply in_split in I as (x & y & I). exists x, y. split; auto.
  assert (N : NoDup (map fst (elements b C))).
  { unfold elements, numbered. clear. generalize 0. induction C as [|c C IH]; intros a; cbn [List.length seq combine filter]; [constructor|]. destruct (same_body _ b); [|apply IH]. cbn [map fst]. constructor; [|apply IH].
    intros J. apply in_map_iff in J as ([j c'] & <- & J). apply filter_In in J as [J _]. apply in_combine_l in J. apply in_seq in J. cbn in J. lia. }
  rewrite I, map_app in N. cbn [map fst] in N. apply NoDup_remove_2 in N. split; intros J; apply N, in_or_app; auto.
Qed.
Lemma group_fold b C l g : unique_numbers C -> forall ids ms done, Forall2 (number_of_cell C b) ids ms ->
  foldM (fun m cid => let* v := zget cid m in Ok (zset cid (v ++ [g]) m)) (entries b C (l ++ [(g, done)])) ids = Ok (entries b C (l ++ [(g, done ++ ms)])).
Proof.
  intros U ids ms done F. revert done. induction F as [|z i ids ms (c & E & Q & NZ) F IH]; intros done; [cbn; now rewrite app_nil_r|]. cbn [foldM].
  destruct (elements_split b C i c E Q) as (x & y & S & N1 & N2). pose proof (zones_numbers b C U) as ND. rewrite S, map_app in ND. cbn [map snd] in ND. apply NoDup_remove_2 in ND.
  assert (X : ~ In z (map fst (map (fun ic : nat * cell => (c_number (snd ic), fst ic :: hits (fst ic) (l ++ [(g, done)]))) x))).
  { rewrite map_map. cbn [fst]. rewrite <- NZ. intros J. apply ND, in_or_app. now left. }
  assert (W : exists v, zget z (entries b C (l ++ [(g, done)])) = Ok v /\ zset z (v ++ [g]) (entries b C (l ++ [(g, done)])) = entries b C (l ++ [(g, done ++ [i])])).
  { unfold entries. rewrite S, !map_app. cbn [map fst snd]. rewrite NZ. eexists. split; [apply zget_mid; exact X|]. rewrite zset_mid by exact X.
    assert (Y : forall k : list (nat * cell), ~ In i (map fst k) -> map (fun ic => (c_number (snd ic), fst ic :: hits (fst ic) (l ++ [(g, done)]))) k = map (fun ic => (c_number (snd ic), fst ic :: hits (fst ic) (l ++ [(g, done ++ [i])]))) k).
    { intros k K. apply map_ext_in. intros [j d] J. cbn [fst snd]. rewrite hits_more. destruct (Nat.eq_dec i j) as [<-|]; [elim K; apply in_map_iff; exists (i, d); auto|]. now rewrite app_nil_r. }
    rewrite (Y x N1), (Y y N2), hits_more. destruct (Nat.eq_dec i i) as [_|D]; [|now elim D]. reflexivity. }
  destruct W as (v & W1 & W2). rewrite W1. cbn [bind]. rewrite W2, IH, <- app_assoc. reflexivity.
Qed.
Lemma named_snoc G g : named_groups (G ++ [g]) = named_groups G ++ [(g_name g, (S (List.length G), numdim (flag_of (g_body g))))].
Proof. unfold named_groups. rewrite numbered_snoc, map_app. reflexivity. Qed.
Lemma named_fst G : map fst (named_groups G) = map g_name G.
Proof.
  unfold named_groups, numbered. rewrite map_map. cbn [fst]. generalize 0. induction G as [|g G IH]; intros a; cbn; auto. now rewrite IH.
Qed.
Lemma slot_snoc b G g : (forall g', In g' G -> g_body g' = g_body g -> g_slot g' = g_slot g) ->
  slot_list b (G ++ [g]) = if same_body (g_body g) b then [g_slot g] else slot_list b G.
Proof.
  intros H. unfold slot_list. rewrite filter_app. cbn [filter]. destruct (same_body (g_body g) b) eqn:Q; [|now rewrite app_nil_r].
  destruct (filter (fun g0 => same_body (g_body g0) b) G) as [|g' r] eqn:E; [reflexivity|]. cbn [app]. f_equal. apply same_bodyP in Q.
  assert (I : In g' (filter (fun g0 => same_body (g_body g0) b) G)) by (rewrite E; now left). apply filter_In in I as [I J]. apply same_bodyP in J. apply H; congruence.
Qed.
Lemma inv_group P C G s g ids : inv P C G s -> unique_numbers C -> NoDup (map g_name (G ++ [g])) ->
  (forall g', In g' G -> g_body g' = g_body g -> g_slot g' = g_slot g) ->
  Forall2 (number_of_cell C (g_body g)) ids (g_members g) ->
  exists s', add_group (flag_of (g_body g)) s (g_name g) (g_slot g) ids = Ok s' /\ inv P C (G ++ [g]) s'.
Proof.
  intros (A & B & D & E & F & H & M & SS) U N SL I. unfold add_group. rewrite M, F.
  assert (X : entries (g_body g) C (parts (g_body g) G) = entries (g_body g) C (parts (g_body g) G ++ [(S (List.length G), [])])).
  { unfold entries. apply map_ext. intros [i c]. cbn [fst snd]. now rewrite hits_empty. }
  rewrite X. rewrite (group_fold _ _ _ _ U _ _ _ I). cbn [bind app]. rewrite SS.
  assert (SN : (if existsb (streqb (g_slot g)) (slot_list (g_body g) G) then slot_list (g_body g) G else slot_list (g_body g) G ++ [g_slot g]) = [g_slot g]).
  { unfold slot_list. destruct (filter (fun g0 => same_body (g_body g0) (g_body g)) G) as [|g' r] eqn:Q; [reflexivity|].
    assert (J : In g' (filter (fun g0 => same_body (g_body g0) (g_body g)) G)) by (rewrite Q; now left). apply filter_In in J as [J K]. apply same_bodyP in K.
    rewrite (SL g' J K). cbn [existsb]. now rewrite streqb_refl. }
  rewrite SN. cbn [List.length Nat.leb guard bind]. eexists. split; [reflexivity|]. unfold inv. cbn [r_points r_ids r_cells r_cidx r_gidx r_field].
  split; [exact A|]. split; [exact B|]. split; [exact D|]. split; [exact E|]. split; [rewrite app_length; cbn; lia|]. split; [|split].
  - rewrite named_snoc, H, sset_new; [reflexivity|]. rewrite named_fst. rewrite map_app in N. cbn [map] in N. apply NoDup_remove_2 in N. now rewrite app_nil_r in N.
  - intros b. rewrite parts_snoc. destruct (same_body (g_body g) b) eqn:Q.
    + apply same_bodyP in Q as <-. destruct (g_body g); reflexivity.
    + rewrite app_nil_r, <- M. destruct (g_body g), b; try discriminate Q; reflexivity.
  - intros b. rewrite (slot_snoc _ _ _ SL). destruct (same_body (g_body g) b) eqn:Q.
    + apply same_bodyP in Q as <-. destruct (g_body g); reflexivity.
    + rewrite <- SS. destruct (g_body g), b; try discriminate Q; reflexivity.
Qed.
