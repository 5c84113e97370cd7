(** GENER written a second time. *)
From Coq Require Import String Ascii ZArith Bool Lia List.
From Verif Require Import Base.Str Base.Digits Base.Flt Base.FltText Base.FltInt.
From Verif Require Import Model.Py Model.Records Model.Write Model.Read.
From Verif Require Import Spec.Fields Spec.Values Spec.Types Spec.Layouts Spec.Rocks Spec.Flac Spec.Simple Spec.Param
  Spec.Indom Spec.Outpu Spec.Labels Spec.Mesh Spec.Incon Spec.Gener Spec.File Spec.Again.
From Verif Require Import Proofs.RecordLemmas Proofs.DictLemmas Proofs.BlockTools Proofs.Stability Proofs.RocksProof Proofs.FlacProof Proofs.SimpleProof Proofs.TwoLines
  Proofs.LabelProof Proofs.MeshProof Proofs.GenerProof
  Proofs.FileProof Proofs.FileKeys Proofs.AgainCols Proofs.AgainPrep Proofs.AgainRocks Proofs.AgainBlocks Proofs.AgainSimple Proofs.AgainMesh.
Import ListNotations.
Local Open Scope Z_scope.

Definition like_back (s s' : dict) : Prop := forall k, In k gener_fields -> val k s' = val k (source_back s).

Lemma facts_source n s : source_facts n s -> source_ok n s = true.
Proof.
  intros [H1 H2 H3 H4 H5 H6 H7]. unfold source_ok.
  replace (gener_ints n) with (gi1 n, gi2 n, gi3 n) by (unfold gi1, gi2, gi3; now destruct (gener_ints n) as [[? ?] ?]).
  rewrite H1, H2, H3, H4, H5, H6. cbn [andb]. destruct (tabular s).
  - destruct H7 as (A & B & C & D & E). apply Nat.ltb_lt in A. apply Z.ltb_lt in B. rewrite A, B, C, D. cbn [andb].
    destruct E as [-> | ->]; [reflexivity|apply orb_true_r].
  - destruct H7 as (-> & -> & ->). reflexivity.
Qed.
Lemma same_text w v : col_ok (CText w) v = true -> same (CText w) v (col_val (CText w) v).
Proof.
  intros H. split.
  - cbn [col_val]. destruct (absent v); auto.
  - unfold col_text. now rewrite col_stable_str.
Qed.
Lemma table_seq v : is_seq (table_back v) = is_seq v.
Proof. destruct v; cbn [table_back is_seq]; auto; unfold sci; cbn [col_val]; destruct (num_of _); reflexivity. Qed.
Lemma table_scalar v : is_seq v = false -> table_back v = sci 3 v.
Proof. destruct v; try discriminate; reflexivity. Qed.
Lemma table_same m v : table_of m v = true -> calm v = true ->
  table_of m (table_back v) = true /\ multi_lines colsT (items (table_back v)) = multi_lines colsT (items v) /\ List.length (items (table_back v)) = m.
Proof.
  intros T C. destruct (table_spec _ _ T) as (q & l & -> & L & F). cbn [table_back items].
  destruct (nums_same 14 7 4 l) as [N1 N2]; auto; try lia.
  split; [|split; [exact N2|now rewrite map_length]].
  unfold table_of. cbn [is_seq items andb]. rewrite map_length, L, Nat.eqb_refl. cbn [andb]. apply forallb_forall. rewrite Forall_forall in N1. exact N1.
Qed.

Lemma source_again n x s s' : (5 <= n <= 9)%nat -> label_ok x = true -> (List.length x <= n)%nat -> source_facts n s -> (forall k, calm (val k s) = true) -> like_back s s' ->
  source_facts n s' /\ with_enthalpy s' = with_enthalpy s /\ gener_lines n (PStr x) s' = gener_lines n (PStr x) s.
Proof.
  intros W L Lx H C V. pose proof (gener_rec_ok n x s L Lx H) as RO. destruct H as [H1 H2 H3 H4 H5 H6 H7].
  assert (E1 : val #"name" s' = col_val (CText 5) (val #"name" s)) by (rewrite V by field; reflexivity).
  assert (E2 : val #"nseq" s' = col_val (CInt 0) (val #"nseq" s)) by (rewrite V by field; reflexivity).
  assert (E3 : val #"nadd" s' = col_val (CInt 0) (val #"nadd" s)) by (rewrite V by field; reflexivity).
  assert (E4 : val #"nads" s' = col_val (CInt 0) (val #"nads" s)) by (rewrite V by field; reflexivity).
  assert (E5 : val #"type" s' = col_val (CText 4) (val #"type" s)) by (rewrite V by field; reflexivity).
  assert (E6 : val #"layer_thickness" s' = sci 3 (val #"layer_thickness" s)) by (rewrite V by field; reflexivity).
  assert (E7 : val #"times" s' = table_back (val #"times" s)) by (rewrite V by field; reflexivity).
  assert (E8 : val #"rates" s' = table_back (val #"rates" s)) by (rewrite V by field; reflexivity).
  assert (E9 : val #"specific_enthalpy" s' = if with_enthalpy s then table_back (val #"specific_enthalpy" s) else PNone).
  { rewrite V by field. unfold source_back. destruct (with_enthalpy s); reflexivity. }
  assert (TB : tabular s' = tabular s) by (unfold tabular; now rewrite E7, table_seq).
  assert (SS : steps_of s' = steps_of s).
  { unfold steps_of. rewrite E7. unfold tabular in H7. destruct (val #"times" s) as [| | | | | |q l|] eqn:ET; cbn [is_seq table_back items] in *; try (now rewrite map_length);
     try (destruct H7 as (H7 & _); discriminate). reflexivity. }
  assert (Q1 := same_text _ _ H1). assert (Q5 := same_text _ _ H5). assert (Q2 := same_int0 _ 0 _ H2). assert (Q3 := same_int0 _ 0 _ H3). assert (Q4 := same_int0 _ 0 _ H4).
  unfold fits in *. assert (Q6 : same (CSci 10 3) (val #"layer_thickness" s) (sci 3 (val #"layer_thickness" s))) by (apply same_sci; auto; lia).
  assert (ES : is_seq (val #"specific_enthalpy" s') = is_seq (val #"specific_enthalpy" s)).
  { rewrite E9. destruct (with_enthalpy s) eqn:WE; [apply table_seq|]. unfold with_enthalpy in WE. apply negb_false_iff, andb_true_iff in WE as [_ WE].
    apply is_none_eq in WE. now rewrite WE. }
  assert (SH : forall a b, same (CSci 10 3) (if tabular s then PNone else val #"rates" s) a -> same (CSci 10 3) (if tabular s then PNone else val #"specific_enthalpy" s) b ->
      (if tabular s then PNone else val #"rates" s') = a -> (if tabular s then PNone else val #"specific_enthalpy" s') = b ->
      gener_head n (PStr x) s' = gener_head n (PStr x) s).
  { intros a b Sa Sb Ea Eb. unfold gener_head. apply same_line; [|exact RO|].
    - unfold rec_width, cols_gener, gi1, gi2, gi3. do 10 (destruct n as [|n]; [cbn; lia|]). lia.
    - unfold cols_gener, gener_vals. cbn [repeat app]. rewrite ES, TB, SS, Ea, Eb, E1, E2, E3, E4, E5, E6.
      repeat apply same_rec_cons; auto; try apply same_rec_nil; try (now apply same_none).
      + apply same_refl. now apply label_ok_col.
      + destruct (tabular s); [|now apply same_none]. apply same_refl. apply steps_fit. tauto.
      + apply same_refl. clear. destruct (is_seq (val #"specific_enthalpy" s)); reflexivity. }
  destruct (tabular s) eqn:T.
  - destruct H7 as (A & B & T1 & T2 & T3).
    destruct (table_same _ _ T1 (C _)) as (X1 & Y1 & _). destruct (table_same _ _ T2 (C _)) as (X2 & Y2 & _).
    assert (WE : with_enthalpy s' = with_enthalpy s /\ (val #"specific_enthalpy" s' = PNone \/ table_of (steps_of s) (val #"specific_enthalpy" s') = true) /\
       (if with_enthalpy s then multi_lines colsT (items (val #"specific_enthalpy" s')) else []) = (if with_enthalpy s then multi_lines colsT (items (val #"specific_enthalpy" s)) else [])).
    { unfold with_enthalpy at 1. rewrite TB, E9. destruct T3 as [T3|T3].
      - unfold with_enthalpy. rewrite T, T3. cbn [is_none andb negb]. auto.
      - destruct (table_same _ _ T3 (C _)) as (X3 & Y3 & _). unfold with_enthalpy. rewrite T.
        destruct (table_spec _ _ T3) as (q & l & E & _). rewrite E in *. cbn [is_none andb negb table_back]. auto. }
    destruct WE as (WE1 & WE2 & WE3). split; [|split; [exact WE1|]].
    + split; [now rewrite E1; apply Q1|now rewrite E2; apply Q2|now rewrite E3; apply Q3|now rewrite E4; apply Q4|now rewrite E5; apply Q5|unfold fits; now rewrite E6; apply Q6|].
      rewrite TB, SS, E7, E8. auto 10.
    + unfold gener_lines. f_equal; [apply (SH PNone PNone); auto; now apply same_none|].
      unfold gener_tables. rewrite TB, T, WE1, E7, E8, Y1, Y2, WE3. reflexivity.
  - destruct H7 as (T0 & T2 & T3). pose proof (fits_scalar 3 _ T2) as S2. pose proof (fits_scalar 3 _ T3) as S3.
    assert (WE : with_enthalpy s = true) by (unfold with_enthalpy; now rewrite T).
    rewrite table_scalar in E8 by auto. rewrite WE, table_scalar in E9 by auto.
    assert (Q8 : same (CSci 10 3) (val #"rates" s) (sci 3 (val #"rates" s))) by (apply same_sci; auto; lia).
    assert (Q9 : same (CSci 10 3) (val #"specific_enthalpy" s) (sci 3 (val #"specific_enthalpy" s))) by (apply same_sci; auto; lia).
    split; [|split].
    + split; [now rewrite E1; apply Q1|now rewrite E2; apply Q2|now rewrite E3; apply Q3|now rewrite E4; apply Q4|now rewrite E5; apply Q5|unfold fits; now rewrite E6; apply Q6|].
      rewrite TB, E7, T0, E8, E9. unfold fits. rewrite (proj1 Q8), (proj1 Q9). auto.
    + unfold with_enthalpy. rewrite TB, T. reflexivity.
    + unfold gener_lines. f_equal; [|unfold gener_tables; now rewrite TB, T].
      eapply SH; [exact Q8|exact Q9|exact E8|exact E9].
Qed.

(** ** The sources of the entry read back *)
Lemma several_items m vs i : List.length vs = m -> (1 < m)%nat -> nth i (items (several vs)) PNone = nth i vs PNone.
Proof.
  intros L M. destruct vs as [|a [|b r]]; cbn [List.length] in L; try lia. cbn [several].
  destruct (forallb is_none (a :: b :: r)) eqn:F; [|reflexivity]. cbn [items].
  replace (nth i [] PNone) with PNone by (destruct i; reflexivity).
  destruct (nth_in_or_default i (a :: b :: r) PNone) as [I|E]; [|auto]. rewrite forallb_forall in F. symmetry. apply is_none_eq, F, I.
Qed.
Lemma Forall2_seq {X Y} (R : X -> Y -> Prop) (F : nat -> Y) d l :
  (forall i, (i < List.length l)%nat -> R (nth i l d) (F i)) -> Forall2 R l (map F (seq 0 (List.length l))).
Proof.
  revert F. induction l as [|x l IH]; intros F H; cbn [List.length seq map]; constructor.
  - apply (H 0%nat). cbn [List.length]. lia.
  - rewrite <- seq_shift, map_map. apply IH. intros i Li. apply (H (S i)). cbn [List.length]. lia.
Qed.

Section One.
Variable n : nat.
Variable g : dict.
Hypothesis G : generator_ok n g.
Hypothesis T : type_steady g = true.
Hypothesis C : calm (PDict g) = true.
Definition vs (k : key) : list pyval := map (fun s => val k (source_back s)) (sources g).

Lemma sources_some : sources g <> [].
Proof.
  destruct G as (_ & _ & TY & _). unfold sources. destruct (val #"type" g); try contradiction; try discriminate.
  destruct TY as [NE _]. destruct l; [congruence|discriminate].
Qed.
Lemma source_keys s : dkeys (source_back s) = [#"name"; #"nseq"; #"nadd"; #"nads"; #"type"; #"layer_thickness"; #"times"; #"rates"] ++ (if with_enthalpy s then [#"specific_enthalpy"] else []).
Proof. unfold source_back. destruct (with_enthalpy s); reflexivity. Qed.
Lemma source_keys_in s k : In k gener_fields -> In k (dkeys (source_back s)) \/ (k = #"specific_enthalpy" /\ with_enthalpy s = false).
Proof.
  rewrite source_keys. unfold gener_fields. cbn [In app]. destruct (with_enthalpy s); cbn [In]; intuition auto 15.
Qed.
Lemma keys_nodup s : NoDup (dkeys (source_back s)).
Proof. rewrite source_keys. destruct (with_enthalpy s); cbn [app]; match goal with |- NoDup ?l => change (keys_unique (map (fun k => (k, PNone)) l)) end; apply no_dup_keys_ok; reflexivity. Qed.
Lemma gb_unique : keys_unique (generator_back g).
Proof. apply known_unique. unfold keys_unique, dkeys. rewrite map_map. cbn [fst]. rewrite map_id. apply keys_nodup. Qed.
Lemma several_none m : several (map (fun _ : dict => PNone) m) = PNone.
Proof.
  assert (X : forallb is_none (map (fun _ : dict => PNone) m) = true) by (induction m; auto).
  unfold several. rewrite X. destruct m as [|a [|b r]]; reflexivity.
Qed.
Lemma gb_val k : In k gener_fields -> val k (generator_back g) = several (vs k).
Proof.
  intros I. unfold generator_back. rewrite val_known.
  2:{ unfold keys_unique, dkeys. rewrite map_map. cbn [fst]. rewrite map_id. apply keys_nodup. }
  destruct (source_keys_in (hd [] (sources g)) k I) as [J|[-> W]].
  - now rewrite (fields_val (fun k => several (map (fun s => val k (source_back s)) (sources g)))).
  - unfold val at 1. replace (dget _ _) with (@None pyval).
    2:{ symmetry. rewrite source_keys, W. reflexivity. }
    symmetry. unfold vs. erewrite map_ext_in; [apply several_none|]. intros s J. cbv beta.
    assert (WS : with_enthalpy s = false).
    { rewrite <- W. apply (generator_uniform n g); auto. pose proof sources_some. destruct (sources g); [congruence|now left]. }
    unfold source_back. rewrite WS. reflexivity.
Qed.
Lemma source_types : map (fun s => val #"type" s) (sources g) = times_list (val #"type" g).
Proof.
  pose proof G as (_ & _ & TY & _). unfold sources. destruct (val #"type" g) as [| | | | |t|q l|] eqn:ET; try contradiction.
  - cbn [times_list map]. rewrite fields_val by field. now rewrite ET.
  - cbn [times_list]. rewrite map_map. erewrite map_ext.
    2:{ intros i. rewrite (fields_val (fun k => nth i (items (val k g)) PNone)) by field. rewrite ET. cbn [items]. reflexivity. }
    clear. apply nth_ext with (d := PNone) (d' := PNone); [now rewrite map_length, seq_length|].
    intros i Li. rewrite map_length, seq_length in Li. rewrite (nth_indep _ PNone (nth 0 l PNone)) by now rewrite map_length, seq_length.
    change (nth 0 l PNone) with ((fun i => nth i l PNone) 0%nat). rewrite map_nth. now rewrite seq_nth.
Qed.
Lemma source_type s : val #"type" (source_back s) = col_val (CText 4) (val #"type" s). Proof. reflexivity. Qed.
Lemma some_type : exists v, In v (vs #"type") /\ is_none v = false.
Proof.
  unfold type_steady in T. rewrite <- source_types in T. apply existsb_exists in T as (v & I & P). apply in_map_iff in I as (s & <- & I).
  exists (val #"type" (source_back s)). split; [apply (in_map (fun s => val #"type" (source_back s))); exact I|].
  rewrite source_type. cbn [col_val]. unfold present in P. apply negb_true_iff in P. rewrite P. destruct (val #"type" s); auto.
Qed.
Lemma type_several : (1 < List.length (sources g))%nat -> val #"type" (generator_back g) = PSeq SList (vs #"type").
Proof.
  intros L. rewrite gb_val by field. destruct some_type as (v & I & N).
  assert (F : forallb is_none (vs #"type") = false).
  { destruct (forallb is_none (vs #"type")) eqn:F; auto. rewrite forallb_forall in F. rewrite (F _ I) in N. discriminate. }
  unfold several. rewrite F. unfold vs. destruct (sources g) as [|a [|b r]]; cbn [List.length] in L; try lia. reflexivity.
Qed.
Lemma source_type_ok s : In s (sources g) -> col_ok (CText 4) (val #"type" s) = true.
Proof. intros I. destruct G as (_ & _ & _ & SO & _). rewrite forallb_forall in SO. exact (sf_type _ _ (source_spec _ _ (SO _ I))). Qed.
Lemma gb_sources : Forall2 like_back (sources g) (sources (generator_back g)).
Proof.
  assert (VS : forall k, List.length (vs k) = List.length (sources g)) by (intros; apply map_length).
  destruct (le_lt_dec (List.length (sources g)) 1) as [L|L].
  - destruct (sources g) as [|s [|s2 r]] eqn:ES; [now apply sources_some in ES| |cbn [List.length] in L; lia].
    assert (VV : forall k, In k gener_fields -> val k (generator_back g) = val k (source_back s)) by (intros k I; rewrite gb_val by auto; unfold vs; now rewrite ES).
    destruct some_type as (v & I & N). unfold vs in I. rewrite ES in I. cbn [map In] in I. destruct I as [<-|[]].
    assert (X : exists t, val #"type" (generator_back g) = PStr t).
    { rewrite VV by field. rewrite source_type in *. cbn [col_val] in *. pose proof (source_type_ok s ltac:(rewrite ES; now left)) as TO.
      destruct (val #"type" s); try discriminate; cbn [absent] in *; eauto. destruct s0; [discriminate|]. cbn in *. eauto. }
    destruct X as (t & ET). unfold sources. rewrite ET. constructor; [|constructor].
    intros k I. rewrite fields_val by auto. now apply VV.
  - unfold sources at 2. rewrite type_several by auto. rewrite VS. apply (Forall2_seq _ _ []). intros i Li k I.
    rewrite (fields_val (fun k => nth i (items (val k (generator_back g))) PNone)) by auto. rewrite gb_val by auto.
    rewrite (several_items (List.length (sources g))) by auto. unfold vs.
    rewrite (nth_indep _ PNone (val k (source_back []))) by now rewrite map_length. now rewrite (map_nth (fun s => val k (source_back s))).
Qed.
Lemma source_calm s k : In s (sources g) -> calm (val k s) = true.
Proof.
  intros I. apply calm_val. unfold sources in I. destruct (val #"type" g) as [| | | | |t|q l|]; cbn [In] in I;
    try (destruct I as [<-|[]]; cbn [calm]; apply forallb_forall; intros kv J; apply in_map_iff in J as (k' & <- & _); cbn [snd]; now apply calm_val).
  apply in_map_iff in I as (i & <- & _). cbn [calm]; apply forallb_forall; intros kv J; apply in_map_iff in J as (k' & <- & _); cbn [snd].
  apply calm_nth, calm_items. now apply calm_val.
Qed.
Lemma Forall2_lines (f : dict -> list str) l l' : (forall s s', In s l -> like_back s s' -> f s' = f s) -> Forall2 like_back l l' -> map f l' = map f l.
Proof.
  intros H F. induction F as [|s s' l l' R F IH]; auto. cbn [map]. rewrite (H s s') by (auto; now left). rewrite IH; auto. intros; apply H; auto; now right.
Qed.
Lemma Forall2_all (P Q : dict -> bool) l l' : (forall s s', In s l -> like_back s s' -> P s = true -> Q s' = true) -> Forall2 like_back l l' -> forallb P l = true -> forallb Q l' = true.
Proof.
  intros H F. induction F as [|s s' l l' R F IH]; auto. cbn [forallb]. rewrite !andb_true_iff. intros [P1 P2]. split.
  - apply (H s); auto. now left.
  - apply IH; auto. intros; eapply H; eauto. now right.
Qed.
Lemma generator_again x : (5 <= n <= 9)%nat -> label_ok x = true -> (List.length x <= n)%nat ->
  generator_ok n (generator_back g) /\ map (gener_lines n (PStr x)) (sources (generator_back g)) = map (gener_lines n (PStr x)) (sources g).
Proof.
  intros W L Lx. pose proof gb_sources as F2. pose proof G as (U & TW & TY & SO & EN).
  assert (SA : forall s s', In s (sources g) -> like_back s s' ->
     source_facts n s' /\ with_enthalpy s' = with_enthalpy s /\ gener_lines n (PStr x) s' = gener_lines n (PStr x) s).
  { intros s s' I R. apply source_again; auto; [|intros; now apply source_calm]. rewrite forallb_forall in SO. now apply source_spec, SO. }
  split.
  - split; [apply gb_unique|].
    assert (KD : forall k kd, In (k, kd) kinds_GENER -> is_none (val k (generator_back g)) || of_kind kd (val k (generator_back g)) = true).
    { intros k kd I. assert (J : In k gener_fields) by (cbn in I; unfold gener_fields; cbn [In]; intuition (match goal with H : (_, _) = (k, kd) |- _ => apply pair_equal_spec in H as [<- _] end; auto 12)).
      rewrite gb_val by auto. destruct (le_lt_dec (List.length (sources g)) 1) as [LS|LS].
      - unfold vs. destruct (sources g) as [|s [|s2 r]] eqn:ES; [now apply sources_some in ES| |cbn [List.length] in LS; lia].
        cbn [map several]. clear J. assert (SF : source_facts n s) by (cbn [forallb] in SO; rewrite andb_true_r in SO; now apply source_spec).
        assert (TX : forall w v, col_ok (CText w) v = true -> is_none (col_val (CText w) v) || (is_str (col_val (CText w) v) || is_seq (col_val (CText w) v)) = true).
        { intros w v H. cbn [col_val col_ok] in *. destruct v; try discriminate; try reflexivity. cbn [absent]. destruct s0; reflexivity. }
        assert (IX : forall w v, is_none (col_val (CInt w) v) || (number (col_val (CInt w) v) || is_seq (col_val (CInt w) v)) = true) by (intros w v; cbn [col_val]; destruct (int_of v); reflexivity).
        assert (SX : forall k v, is_none (sci k v) || (number (sci k v) || is_seq (sci k v)) = true) by (intros j v; unfold sci; cbn [col_val]; destruct (num_of v); reflexivity).
        assert (TBX : forall v, is_none (table_back v) || (number (table_back v) || is_seq (table_back v)) = true) by (intros v; destruct v; try reflexivity; apply (SX 3%nat)).
        cbn [kinds_GENER same_kind map app In] in I.
        repeat (destruct I as [I|I]; [apply pair_equal_spec in I as [<- <-]|]); try contradiction; cbn [of_kind].
        + apply (TX 5%nat). exact (sf_name _ _ SF).
        + apply (TX 4%nat). exact (sf_type _ _ SF).
        + apply (IX 0%nat (val #"nseq" s)).
        + apply (IX 0%nat (val #"nadd" s)).
        + apply (IX 0%nat (val #"nads" s)).
        + apply (TBX (val #"times" s)).
        + apply (TBX (val #"rates" s)).
        + assert (X : val #"specific_enthalpy" (source_back s) = if with_enthalpy s then table_back (val #"specific_enthalpy" s) else PNone) by (unfold source_back; destruct (with_enthalpy s); reflexivity).
          change (KS (lit "specific_enthalpy")) with #"specific_enthalpy". rewrite X. destruct (with_enthalpy s); [apply TBX|reflexivity].
        + apply (SX 3%nat (val #"layer_thickness" s)).
      - assert (X : is_none (several (vs k)) || is_seq (several (vs k)) = true).
        { unfold several. destruct (vs k) as [|a [|b r]] eqn:EV; [reflexivity| |].
          - apply (f_equal (@List.length _)) in EV. unfold vs in EV. rewrite map_length in EV. cbn [List.length] in EV. lia.
          - destruct (forallb is_none (a :: b :: r)); reflexivity. }
        apply orb_true_iff in X. apply orb_true_iff. destruct X as [X|X]; auto. right.
        cbn [kinds_GENER same_kind map app In] in I.
        repeat (destruct I as [I|I]; [apply pair_equal_spec in I as [_ <-]|]); try contradiction; cbn [of_kind]; rewrite X; apply orb_true_r. }
    split; [apply typed_val; [apply gb_unique|exact KD]|].
    split; [|split].
    + destruct (le_lt_dec (List.length (sources g)) 1) as [LS|LS].
      * rewrite gb_val by field. unfold vs. destruct some_type as (v & I & N). unfold vs in I.
        destruct (sources g) as [|s [|s2 r]] eqn:ES; [now apply sources_some in ES| |cbn [List.length] in LS; lia].
        cbn [map several In] in *. destruct I as [<-|[]]. rewrite source_type in *. cbn [col_val] in *.
        pose proof (source_type_ok s ltac:(rewrite ES; now left)) as TO.
        destruct (val #"type" s) as [| | | | |[|c t]| |]; try discriminate; exact I.
      * rewrite type_several by auto. split; [intros E; apply (f_equal (@List.length _)) in E; unfold vs in E; rewrite map_length in E; cbn [List.length] in E; lia|].
        apply forallb_forall. intros k I. rewrite gb_val by now apply other_in. unfold several.
        assert (LL : forall k, List.length (vs k) = List.length (sources g)) by (intros; apply map_length).
        destruct (vs k) as [|a [|b r]] eqn:EV; [reflexivity|apply (f_equal (@List.length _)) in EV; rewrite LL in EV; cbn [List.length] in EV; lia|].
        destruct (forallb is_none (a :: b :: r)); [reflexivity|]. rewrite <- EV. cbn [is_none orb is_seq andb items]. rewrite !LL. apply Nat.eqb_refl.
    + eapply Forall2_all; [|exact F2|exact SO]. intros s s' I R _. now apply facts_source, (SA s s').
    + destruct EN as [EN|EN]; [left|right].
      * eapply Forall2_all; [|exact F2|exact EN]. intros s s' I R H. destruct (SA s s' I R) as (_ & -> & _). exact H.
      * eapply (Forall2_all (fun s => negb (with_enthalpy s))); [|exact F2|exact EN]. intros s s' I R H. destruct (SA s s' I R) as (_ & -> & _). exact H.
  - apply Forall2_lines with (2 := F2). intros s s' I R. now apply (SA s s').
Qed.
End One.

Section Top.
Variables p p' : dict.
Hypothesis A : again p p'.
Hypothesis C : calm (PDict p) = true.
Lemma GENER_again :
  (filled (val #"generators" p) = true -> GENER_ok p /\ forallb (fun kv => type_steady (entries (snd kv))) (generators_of p) = true) ->
  filled (val #"generators" p') = filled (val #"generators" p) /\
  (filled (val #"generators" p) = true -> GENER_ok p' /\ write_gener p' = write_gener p).
Proof.
  intros H. destruct (filled (val #"generators" p)) eqn:F.
  - destruct (H eq_refl) as [O ST]. pose proof O as (G0 & NE & U & W & FA).
    assert (GE : dget #"generators" p' = Some (PDict (generators_back p))).
    { apply (top_some p p' A); [reflexivity|]. change (FILE_entry p #"generators") with (if filled (val #"generators" p) then dget #"generators" (GENER_back p) else None). rewrite F. reflexivity. }
    assert (ED : generators_of p' = generators_back p) by (unfold generators_of at 1; now rewrite (val_some _ _ _ GE)).
    assert (KE : dkeys (generators_back p) = dkeys (generators_of p)) by (unfold generators_back, dkeys; now rewrite map_map).
    assert (BW : label_width (generators_back p) = label_width (generators_of p)) by (unfold label_width; now rewrite KE).
    assert (NB : generators_back p <> []) by (intros E; rewrite E in BW; cbn in BW; lia).
    split; [rewrite (val_some _ _ _ GE); unfold filled; destruct (generators_back p); [congruence|reflexivity]|]. intros _.
    assert (CE : calm (PDict (generators_of p)) = true) by exact (calm_entry _ _ _ C G0).
    assert (X : forall kv, In kv (generators_of p) -> exists s g, kv = (KS s, PDict g) /\ label_ok s = true /\ generator_ok (label_width (generators_of p)) (generator_back g) /\
       map (gener_lines (label_width (generators_of p)) (PStr s)) (sources (generator_back g)) = map (gener_lines (label_width (generators_of p)) (PStr s)) (sources g)).
    { intros kv I. rewrite Forall_forall in FA. destruct (FA _ I) as (s & g & -> & L & G). exists s, g.
      rewrite forallb_forall in ST. pose proof (ST _ I) as T. cbn [snd entries] in T.
      destruct (generator_again _ g G T (calm_entry _ _ _ CE (in_dget _ _ _ U I)) s W L) as [Q1 Q2]; auto.
      apply label_width_le. eapply in_keys; eauto. }
    assert (OK : GENER_ok p').
    { unfold GENER_ok. rewrite ED. split; [exact GE|]. split; [exact NB|]. split; [unfold keys_unique; now rewrite KE|]. split; [now rewrite BW|].
      rewrite BW. apply Forall_forall. intros kv I. unfold generators_back in I. apply in_map_iff in I as (kv0 & <- & I).
      destruct (X _ I) as (s & g & -> & L & Q & _). exists s, (generator_back g). auto. }
    split; [exact OK|]. rewrite (GENER_write p O), (GENER_write p' OK). do 2 f_equal. unfold GENER_body, gener_width. rewrite ED, BW. f_equal.
    unfold all_sources, generators_back. rewrite !concat_map, !map_map. revert X. generalize (label_width (generators_of p)). intros n X. clear - X.
    induction (generators_of p) as [|kv d IH]; auto. cbn [map concat]. rewrite !concat_app. rewrite IH by (intros; apply X; now right). f_equal.
    cbn [fst snd entries]. destruct (X kv (or_introl eq_refl)) as (s & g & -> & _ & _ & Q). cbn [fst snd entries].
    rewrite !map_map. exact (f_equal (@concat _) Q).
  - split; [|discriminate].
    assert (G : dget #"generators" p' = Some (PDict [])).
    { rewrite (top_get p p' A) by reflexivity. change (FILE_entry p #"generators") with (if filled (val #"generators" p) then dget #"generators" (GENER_back p) else None). rewrite F. reflexivity. }
    now rewrite (val_some _ _ _ G).
Qed.
End Top.
