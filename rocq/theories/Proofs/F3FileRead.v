(** Reading FLAC3D grids of other programs: lines and groups. *)
From Coq Require Import String Ascii Arith ZArith Bool Permutation Lia List.
From Verif Require Import Base.Str Base.Digits Base.Flt Model.Py Model.Numpy Model.Mesh Model.F3grid
  Spec.MeshCells Spec.F3grid Proofs.F3Build Proofs.F3Text Proofs.F3Finish Proofs.BlocksProof Proofs.UcdFileProof Spec.F3File Proofs.F3FileProof.
From Verif Require Proofs.NumpyProof Proofs.MaterialProof.
Import ListNotations.
Local Open Scope nat_scope.

(** ** Lines *)
Lemma reads_int ws xs : reads parse_int ws xs -> mapM to_int ws = Ok xs.
Proof. induction 1 as [|w x ws xs E F IH]; [reflexivity|]. cbn [mapM]. unfold to_int at 1. rewrite E. cbn [bind]. now rewrite IH. Qed.
Lemma reads_flt ws xs : reads parse_float ws xs -> mapM to_flt ws = Ok xs.
Proof. induction 1 as [|w x ws xs E F IH]; [reflexivity|]. cbn [mapM]. unfold to_flt at 1. rewrite E. cbn [bind]. now rewrite IH. Qed.
Lemma not_key w k z : parse_int w = Some z -> parse_int k = None -> streqb w k = false.
Proof. intros A B. destruct (streqb w k) eqn:E; auto. apply streqb_eq in E. subst w. rewrite A in B. discriminate B. Qed.
Lemma read_table_file table rows ls : Forall2 (fun l row => split_ws l <> [] /\ reads parse_int (split_ws l) row) table rows -> closes ls ->
  read_table (table ++ ls) = Ok (concat rows, ls).
Proof.
  intros F CL. induction F as [|l row table rows (NE & R) F IH].
  - cbn [app concat]. destruct ls as [|l ls]; [reflexivity|]. cbn [read_table]. rewrite words_split. cbn [closes] in CL. destruct (split_ws l) as [|w ws]; [reflexivity|].
    destruct CL as [-> | ->]; rewrite ?streqb_refl, ?orb_true_r; reflexivity.
  - cbn [app read_table]. rewrite words_split. unfold reads in R. destruct (split_ws l) as [|w ws]; [now elim NE|]. inversion R as [|? z ? zs W R']; subst.
    rewrite (not_key w $"*" z W eq_refl), (not_key w $"ZGROUP" z W eq_refl). cbn [orb].
    assert (X : mapM to_int (w :: ws) = Ok (z :: zs)) by (apply reads_int; constructor; auto). rewrite X. cbn [bind]. rewrite IH. reflexivity.
Qed.
Lemma in_f3_row b t ty vs us z : in_f3 b t ty vs us -> exists row,
  (if streqb t $"B7" then match rev us with v :: _ => Ok (us ++ [v]) | [] => Err IndexError end else Ok us) = Ok row /\ in_file (Cell b z ty vs) (ty, row).
Proof. destruct 1; (eexists; split; [reflexivity|]; split; [reflexivity|]; split; reflexivity). Qed.
Lemma slot_read kw ws slot : ws <> [] -> kw <> $"SLOT" -> has_slot ws slot -> (if existsb (streqb $"SLOT") (kw :: ws) then last ws [] else []) = slot.
Proof.
  intros NE K H. cbn [existsb]. destruct (streqb $"SLOT" kw) eqn:E; [apply streqb_eq in E; now elim K|]. cbn [orb].
  destruct (existsb (streqb $"SLOT") ws) eqn:X.
  - apply existsb_exists in X as (w & I & W). apply streqb_eq in W. subst w. destruct H as [(N & _)|(_ & front & ->)]; [now elim N|]. apply last_last.
  - destruct H as [(_ & ->)|(I & _)]; [reflexivity|]. exfalso. assert (Y : existsb (streqb $"SLOT") ws = true) by (apply existsb_exists; exists $"SLOT"; split; [auto|apply streqb_refl]). congruence.
Qed.
Lemma members_more C G c : members_ok C G -> members_ok (C ++ [c]) G.
Proof. intros M g i I J. destruct (M g i I J) as (d & E & B). exists d. split; auto. rewrite nth_error_app1; auto. apply nth_error_Some. congruence. Qed.
Lemma members_group C G g ids : members_ok C G -> Forall2 (number_of_cell C (g_body g)) ids (g_members g) -> members_ok C (G ++ [g]).
Proof.
  intros M F h i I J. apply in_app_or in I as [I|[<-|[]]]; [exact (M h i I J)|]. clear - F J. induction F as [|z k ids ms (c & E & B & _) F IH]; [destruct J|].
  destruct J as [<-|J]; eauto.
Qed.
Lemma not_keywords w : ~ In w keywords -> streqb w $"G" = false /\ streqb w $"Z" = false /\ streqb w $"F" = false /\ streqb w $"ZGROUP" = false /\ streqb w $"FGROUP" = false.
Proof.
  intros N. assert (X : forall k, In k keywords -> streqb w k = false).
  { intros k I. destruct (streqb w k) eqn:E; auto. apply streqb_eq in E. subst w. now elim N. }
  repeat split; apply X; cbn; tauto.
Qed.
Definition slots_ok (G : list group) : Prop := forall g g', In g G -> In g' G -> g_body g = g_body g' -> g_slot g = g_slot g'.
Lemma described_read P C es ls : described P C es ls -> forall G s fuel, inv P C G s -> members_ok C G ->
  NoDup (map fst (P ++ points_in es)) -> unique_numbers (C ++ cells_in es) -> NoDup (map g_name (G ++ groups_in es)) -> slots_ok (G ++ groups_in es) ->
  List.length ls < fuel -> exists s', text_loop fuel s ls = Ok s' /\ inv (P ++ points_in es) (C ++ cells_in es) (G ++ groups_in es) s' /\ members_ok (C ++ cells_in es) (G ++ groups_in es).
Proof.
  induction 1 as [P C ls O|P C es l ls w ws SW NK D IH|P C es l ls w ws z p SW WZ RP D IH|P C es l ls c t w ws us SW WZ U F D IH|P C es l table ls g w ws rows SW UQ HS T M CL D IH];
    intros G s fuel I MO NP NC NG SL L; (destruct fuel as [|n]; [lia|]).
  - exists s. cbn [points_in cells_in groups_in flat_map]. rewrite !app_nil_r. split; [|split; auto]. cbn [text_loop]. destruct ls as [|l ls]; [reflexivity|]. rewrite words_split. cbn [over] in O. now rewrite O.
  - cbn [text_loop]. rewrite words_split, SW. destruct (not_keywords w NK) as (-> & -> & -> & -> & ->). cbn [orb]. apply IH; auto. cbn [List.length] in L. lia.
  - cbn [text_loop]. rewrite words_split, SW, streqb_refl. unfold word, item. cbn [nth_error bind skipn]. unfold to_int at 1. rewrite WZ. cbn [bind]. rewrite (reads_flt _ _ RP). cbn [bind].
    assert (E : P ++ points_in (Gridpoint (z, p) :: es) = (P ++ [(z, p)]) ++ points_in es) by (cbn; now rewrite <- app_assoc). unfold gridpoint in *. rewrite E in *.
    apply IH; auto; [|cbn [List.length] in L; lia]. apply inv_point; auto. rewrite map_app in NP. eapply nodup_prefix; eauto.
  - assert (E : C ++ cells_in (Element c :: es) = (C ++ [c]) ++ cells_in es) by (cbn; now rewrite <- app_assoc). rewrite E in *.
    destruct (in_f3_row _ _ _ _ _ (c_number c) U) as (row & R & IF).
    assert (X : exists ids, mapM to_int ws = Ok ids /\ Forall2 (fun z v => exists p, nth_error P v = Some p /\ fst p = z) ids us).
    { clear - F. induction F as [|w v ws us (p & E & W) F (ids & A & B)]; [exists []; split; [reflexivity|constructor]|]. exists (fst p :: ids). cbn [mapM]. unfold to_int at 1. rewrite W. cbn [bind]. rewrite A. split; [reflexivity|]. constructor; eauto. }
    destruct X as (ids & X1 & X2).
    destruct (inv_cell P C G s c us (streqb t $"B7") ids row I) as (s' & AC & I'); auto.
    { rewrite map_app in NP. eapply nodup_prefix; eauto. }
    { unfold unique_numbers in *. rewrite map_app in NC. eapply nodup_prefix; eauto. }
    assert (STEP : text_loop (S n) s (l :: ls) = text_loop n s' ls).
    { cbn [text_loop]. rewrite words_split, SW.
      assert (Q : streqb (letter (c_body c)) $"G" = false /\ (streqb (letter (c_body c)) $"Z" || streqb (letter (c_body c)) $"F") = true /\ (if streqb (letter (c_body c)) $"Z" then Zone else Face) = flag_of (c_body c)) by (destruct (c_body c); repeat split).
      destruct Q as (-> & -> & ->). unfold word, item. cbn [nth_error bind skipn]. unfold to_int at 1. rewrite WZ. cbn [bind]. rewrite X1. cbn [bind]. rewrite AC. reflexivity. }
    rewrite STEP. apply IH; auto; [now apply members_more|cbn [List.length] in L; lia].
  - assert (E : G ++ groups_in (Members g :: es) = (G ++ [g]) ++ groups_in es) by (cbn; now rewrite <- app_assoc). rewrite E in *.
    destruct (inv_group P C G s g (concat rows) I) as (s' & AG & I'); auto.
    { unfold unique_numbers in *. rewrite map_app in NC. eapply nodup_prefix; eauto. }
    { rewrite map_app in NG. eapply nodup_prefix; eauto. }
    { intros g' J B. apply SL; auto; rewrite <- app_assoc; apply in_or_app; [left; auto|right; now left]. }
    assert (STEP : text_loop (S n) s (l :: table ++ ls) = text_loop n s' ls).
    { cbn [text_loop]. rewrite words_split, SW. set (kw := letter (g_body g) ++ $"GROUP") in *.
      assert (Q : streqb kw $"G" = false /\ (streqb kw $"Z" || streqb kw $"F") = false /\ (streqb kw $"ZGROUP" || streqb kw $"FGROUP") = true /\ (if streqb kw $"ZGROUP" then Zone else Face) = flag_of (g_body g) /\ kw <> $"SLOT")
        by (unfold kw; destruct (g_body g); repeat split; discriminate).
      destruct Q as (-> & -> & -> & -> & Q). unfold word, item. cbn [nth_error bind].
      rewrite (slot_read kw (w :: ws) _ ltac:(discriminate) Q HS). rewrite (read_table_file _ _ _ T CL). cbn [bind fst snd].
      unfold unquoted_is in UQ. unfold unquoted. rewrite <- UQ, AG. reflexivity. }
    rewrite STEP. apply IH; auto; [eapply members_group; eauto|]. cbn [List.length] in L. rewrite app_length in L. lia.
Qed.

(** ** The arrays *)
Lemma assign_pairs (f : nat -> nat) (l : list (Z * list nat)) : Forall (fun e => exists i, snd e = [i; f i]) l -> forall data, exists data', assign data l = Ok data' /\
  List.length data' = List.length data /\ forall j, j < List.length data -> nth_error data' j = if existsb (fun e => match snd e with i :: _ => Nat.eqb i j | [] => false end) l then Some (f j) else nth_error data j.
Proof.
  induction 1 as [|[k e] l (i & E) F IH]; intros data; [exists data; cbn; auto|]. cbn [snd] in E. subst e. unfold assign. cbn [foldM snd bind].
  destruct (IH (set_nth i (f i) data)) as (data' & A & L & N). unfold assign in A. rewrite A. exists data'. rewrite NumpyProof.set_nth_length in L, N. split; auto. split; auto.
  intros j J. rewrite (N j J). cbn [existsb snd]. destruct (Nat.eqb_spec i j) as [->|D]; cbn [orb].
  - destruct (existsb _ l); auto. now apply NumpyProof.nth_set_same.
  - destruct (existsb _ l); auto. now apply NumpyProof.nth_set_other.
Qed.
Lemma in_elements b C i c : In (i, c) (elements b C) <-> nth_error C i = Some c /\ c_body c = b.
Proof. unfold elements. rewrite filter_In, in_numbered. cbn [snd]. now rewrite same_bodyP. Qed.
Lemma parts_members b G : flat_map snd (parts b G) = flat_map g_members (filter (fun g => same_body (g_body g) b) G).
Proof.
  unfold parts, numbered. generalize 0. induction G as [|g G IH]; intros a; [reflexivity|]. cbn [List.length seq combine flat_map filter fst snd]. rewrite flat_map_app. 
  destruct (same_body (g_body g) b); cbn [flat_map app snd]; rewrite IH; [now rewrite app_nil_r|reflexivity].
Qed.
Lemma hits_one i l : NoDup (flat_map snd l) -> In i (flat_map snd l) -> exists n ms, In (n, ms) l /\ In i ms /\ hits i l = [n].
Proof.
  induction l as [|[n ms] l IH]; intros N I; [destruct I|]. cbn [flat_map snd] in N, I. cbn [hits flat_map fst snd]. apply in_app_or in I as [I|I].
  - exists n, ms. split; [now left|]. split; auto.
    assert (NI : ~ In i (flat_map snd l)). { intros J. revert N J. clear - I. induction ms as [|m ms IH]; [destruct I|]. cbn [app]. intros N J. inversion_clear N as [|? ? A N']. destruct I as [->|I]; [apply A, in_or_app; now right|now apply IH]. }
    rewrite (proj1 (NoDup_count_occ' Nat.eq_dec ms) (nodup_prefix _ _ N) i I). cbn [repeat app]. f_equal. apply hits_none. intros [n' ms'] J K. apply NI, in_flat_map. exists (n', ms'). auto.
  - assert (NI : ~ In i ms). { intros J. revert N J. clear - I. induction ms as [|m ms IH]; [tauto|]. cbn [app]. intros N J. inversion_clear N as [|? ? A N']. destruct J as [->|J]; [apply A, in_or_app; now right|now apply IH]. }
    assert (N2 : NoDup (flat_map snd l)). { clear - N. induction ms as [|m ms IH]; auto. cbn [app] in N. inversion_clear N. auto. }
    destruct (IH N2 I) as (n' & ms' & A & B & D). exists n', ms'. split; [now right|]. split; auto. rewrite (proj1 (count_occ_not_In Nat.eq_dec ms i) NI). cbn [repeat app]. exact D.
Qed.
Lemma in_places b C i : In i (places_of b C) <-> exists c, nth_error C i = Some c /\ c_body c = b.
Proof.
  unfold places_of. rewrite filter_In, in_seq. split.
  - intros (_ & H). destruct (nth_error C i) as [c|]; [|discriminate H]. exists c. split; auto. now apply same_bodyP.
  - intros (c & E & B). rewrite E. split; [|now apply same_bodyP]. assert (i < List.length C) by (apply nth_error_Some; congruence). lia.
Qed.
Lemma no_groups_slots b G : (forall g, In g G -> g_body g <> b) <-> slot_list b G = [].
Proof.
  unfold slot_list. split.
  - intros H. destruct (filter (fun g => same_body (g_body g) b) G) as [|g r] eqn:E; auto. exfalso. assert (I : In g (filter (fun g => same_body (g_body g) b) G)) by (rewrite E; now left).
    apply filter_In in I as [I J]. apply same_bodyP in J. exact (H g I J).
  - intros H g I B. assert (J : In g (filter (fun g => same_body (g_body g) b) G)) by (apply filter_In; split; auto; now apply same_bodyP).
    destruct (filter (fun g => same_body (g_body g) b) G); [destruct J|discriminate H].
Qed.
(** the number of the group of element [i], among groups of a body *)
Definition part_number (b : body) (G : list group) (i : nat) : nat := hd 0 (hits i (parts b G)).
Lemma assign_body b C G : (forall g, In g G -> g_body g <> b) \/ Permutation (flat_map g_members (filter (fun g => same_body (g_body g) b) G)) (places_of b C) ->
  forall data, List.length data = List.length C -> exists data', (if List.length (slot_list b G) =? 0 then Ok data else assign data (entries b C (parts b G))) = Ok data' /\ List.length data' = List.length C /\
  forall i c, nth_error C i = Some c ->
    (c_body c <> b -> nth_error data' i = nth_error data i) /\
    (c_body c = b -> (forall g, In g G -> g_body g <> b) /\ nth_error data' i = nth_error data i \/
       exists k g, nth_error G k = Some g /\ g_body g = b /\ In i (g_members g) /\ nth_error data' i = Some (S k)).
Proof.
  intros H data L. destruct (slot_list b G) as [|sl r] eqn:SL.
  - assert (NG : forall g, In g G -> g_body g <> b) by now apply no_groups_slots. cbn [List.length Nat.eqb]. exists data. split; auto.
  - destruct H as [H|H]; [apply no_groups_slots in H; congruence|]. cbn [List.length Nat.eqb].
    assert (ND : NoDup (flat_map snd (parts b G))).
    { rewrite parts_members. apply (Permutation_NoDup (Permutation_sym H)). apply NoDup_filter, seq_NoDup. }
    assert (HI : forall i c, nth_error C i = Some c -> c_body c = b -> exists k g, nth_error G k = Some g /\ g_body g = b /\ In i (g_members g) /\ hits i (parts b G) = [S k]).
    { intros i c E B. assert (I : In i (flat_map snd (parts b G))) by (rewrite parts_members; apply (Permutation_in _ (Permutation_sym H)), in_places; eauto).
      destruct (hits_one i _ ND I) as (n & ms & A & D & Q). apply in_parts in A as (k & g & A1 & A2 & -> & ->). exists k, g. auto. }
    destruct (assign_pairs (part_number b G) (entries b C (parts b G))) with (data := data) as (data' & A & LD & N).
    { apply Forall_forall. intros e I. unfold entries in I. apply in_map_iff in I as ([i c] & <- & I). apply in_elements in I as (E & B). cbn [fst snd]. destruct (HI i c E B) as (k & g & _ & _ & _ & Q).
      exists i. unfold part_number. now rewrite Q. }
    exists data'. split; auto. split; [congruence|]. intros i c E. assert (LI : i < List.length data) by (rewrite L; apply nth_error_Some; congruence). specialize (N i LI). split; intros B.
    + rewrite N. match goal with |- (if ?x then _ else _) = _ => destruct x eqn:X end; auto. exfalso. apply existsb_exists in X as (e & I & X). unfold entries in I. apply in_map_iff in I as ([j d] & <- & I).
      apply in_elements in I as (F & D). cbn [fst snd] in X. apply Nat.eqb_eq in X. subst j. congruence.
    + right. destruct (HI i c E B) as (k & g & Q1 & Q2 & Q3 & Q4). exists k, g. split; auto. split; auto. split; auto. rewrite N.
      match goal with |- (if ?x then _ else _) = _ => assert (X : x = true) end.
      { apply existsb_exists. eexists. split; [unfold entries; apply in_map_iff; exists (i, c); split; [reflexivity|now apply in_elements]|]. cbn [snd fst]. apply Nat.eqb_refl. }
      rewrite X. unfold part_number. now rewrite Q4.
Qed.
Lemma finish_file P C G s l : P = points_in l -> C = cells_in l -> G = groups_in l -> inv P C G s -> grouped Solid l -> grouped Surface l -> (G <> [] -> C <> []) ->
  exists m, finish s = Ok m /\ c_points m = map snd P /\ flat (c_cells m) = map (fun c => (c_type c, c_nodes c)) C /\ merged (c_cells m) /\ c_field m = fields_of l /\
    (G = [] -> c_groups m = None) /\
    (G <> [] -> exists gs, c_groups m = Some gs /\ map (@List.length nat) gs = map (fun b => List.length (snd b)) (c_cells m) /\
      forall i c, nth_error C i = Some c -> exists n, nth_error (concat gs) i = Some n /\ number_of_group l i c n).
Proof.
  intros EP EC EG (A & B & (rows & D & D') & E & F & H & M & SS) GZ GF NE. unfold finish.
  destruct (push_all rows []) as [PF PM]. rewrite <- D' in PF, PM. specialize (PM I). cbn [flat flat_map app] in PF. set (cells := r_cells s) in *.
  assert (LR : List.length rows = List.length C) by (symmetry; exact (MaterialProof.Forall2_length _ _ _ D)).
  assert (LN : n_cells cells = List.length C) by (rewrite <- flat_count, PF; exact LR).
  destruct (finish_cells cells) as (cells' & FC & F2 & L & T).
  { rewrite PF. clear - D. induction D as [|c row C rows (X & _ & Y) D IH]; constructor; auto. exists (c_nodes c). rewrite X. exact Y. }
  assert (FL : flat cells' = map (fun c => (c_type c, c_nodes c)) C).
  { rewrite PF in F2. clear - D F2. revert F2. generalize (flat cells'). induction D as [|c row C rows (X & _ & Y) D IH]; intros k F2; inversion F2 as [|? b ? k' (Z1 & Z2) F2']; subst; [reflexivity|].
    cbn [map]. f_equal; [|now apply IH]. destruct b as [b1 b2]. cbn [fst snd] in *. rewrite X in Z2. subst b1. f_equal; congruence. }
  match goal with |- context [mapM ?f cells] => assert (FC' : mapM f cells = Ok cells') by exact FC end.
  assert (FD : r_field s = fields_of l).
  { rewrite H. unfold named_groups, fields_of, numbered. rewrite <- EG. clear. generalize 0. induction G as [|g G IH]; intros a; [reflexivity|]. cbn [List.length seq combine map fst snd].
    f_equal; [now destruct (g_body g)|apply IH]. }
  destruct G as [|g0 G0] eqn:GE.
  - assert (FE : r_field s = []) by exact H. rewrite FE. cbn [bind]. rewrite FC'. cbn [bind]. eexists. split; [reflexivity|]. cbn [c_points c_cells c_field c_groups].
    split; auto. split; auto. split; [now apply (merged_same cells)|]. split; [rewrite <- FD; now rewrite FE|]. split; auto. intros X. now elim X.
  - rewrite <- GE in *. assert (GN : G <> []) by (rewrite GE; discriminate). clear GE.
    assert (CN : cells <> []). { intros X. rewrite X in LN. cbn in LN. apply (NE GN). destruct C; [reflexivity|discriminate LN]. }
    assert (FNE : r_field s <> []). { rewrite H. unfold named_groups, numbered. destruct G; [now elim GN|discriminate]. }
    destruct (r_field s) as [|f0 fr] eqn:RF; [now elim FNE|]. rewrite <- RF in *. clear f0 fr RF.
    destruct (Nat.eqb_spec (List.length cells) 0) as [X|_]; [destruct cells; [now elim CN|discriminate X]|]. cbn [negb guard bind].
    destruct (assign_body Solid C G ltac:(rewrite EG, EC; exact GZ) (repeat 0 (n_cells cells)) ltac:(now rewrite repeat_length)) as (d1 & A1 & L1 & N1).
    destruct (assign_body Surface C G ltac:(rewrite EG, EC; exact GF) d1 L1) as (d2 & A2 & L2 & N2).
    pose proof (SS Solid) as S1. pose proof (SS Surface) as S2. pose proof (M Solid) as M1. pose proof (M Surface) as M2. cbn [flag_of slots mapper] in S1, S2, M1, M2.
    rewrite S1, S2, M1, M2. rewrite A1. cbn [bind]. rewrite A2. cbn [bind]. rewrite FC'. cbn [bind]. eexists. split; [reflexivity|]. cbn [c_points c_cells c_field c_groups].
    split; auto. split; auto. split; [now apply (merged_same cells)|]. split; auto. split; [intros X; now elim GN|]. intros _.
    assert (LL : List.length d2 = n_cells cells) by congruence.
    destruct (split_ok cells d2 CN LL) as (ps & P1 & P2 & P3). unfold split in P1. rewrite LL, Nat.eqb_refl in P1. cbn [guard bind] in P1.
    assert (P1' : np_split d2 (removelast (cumsum 0 (map (fun c => List.length (snd c)) cells))) = ps) by congruence. rewrite P1'.
    exists ps. split; auto. split; [unfold sizes in P3; rewrite P3; symmetry; exact L|]. rewrite P2. intros i c Q.
    destruct (N1 i c Q) as (X1 & X2). destruct (N2 i c Q) as (Y1 & Y2). assert (LI : i < n_cells cells) by (rewrite LN; apply nth_error_Some; congruence).
    assert (Z : nth_error (repeat 0 (n_cells cells)) i = Some 0) by (rewrite nth_error_nth' with (d := 0) by (rewrite repeat_length; lia); now rewrite nth_repeat).
    unfold number_of_group. rewrite <- EG. destruct (c_body c) eqn:CB.
    + rewrite (Y1 ltac:(discriminate)). destruct (X2 eq_refl) as [(NG & ->)|(k & g & K1 & K2 & K3 & ->)]; [exists 0; split; auto|]. exists (S k). split; auto. right. exists k, g. auto.
    + destruct (Y2 eq_refl) as [(NG & ->)|(k & g & K1 & K2 & K3 & ->)]; [exists 0; split; [rewrite X1 by discriminate; exact Z|auto]|]. exists (S k). split; auto. right. exists k, g. auto.
Qed.
Theorem text_grid_read l file : text_grid l file -> distinct l -> grouped Solid l -> grouped Surface l -> (groups_in l <> [] -> cells_in l <> []) ->
  exists m, read file = Ok m /\ c_points m = map snd (points_in l) /\ flat (c_cells m) = map (fun c => (c_type c, c_nodes c)) (cells_in l) /\ merged (c_cells m) /\ c_field m = fields_of l /\
    (groups_in l = [] -> c_groups m = None) /\
    (groups_in l <> [] -> exists gs, c_groups m = Some gs /\ map (@List.length nat) gs = map (fun b => List.length (snd b)) (c_cells m) /\
      forall i c, nth_error (cells_in l) i = Some c -> exists n, nth_error (concat gs) i = Some n /\ number_of_group l i c n).
Proof.
  intros (NB & D) (NP & NC & NG & SL) GZ GF NE.
  destruct (described_read _ _ _ _ D [] start (S (List.length (lines file))) start_inv) as (s & R & I & MO); auto.
  { intros g i X. destruct X. }
  cbn [app] in *. unfold read.
  assert (B : existsb (Ascii.eqb (ascii_of_nat 0)) (firstn 8 file) = false).
  { destruct (existsb _ _) eqn:X; auto. apply existsb_exists in X as (c & J & X). apply Ascii.eqb_eq in X. subst c. now elim NB. }
  rewrite B. unfold read_text. rewrite R. cbn [bind]. now apply (finish_file (points_in l) (cells_in l) (groups_in l)).
Qed.
