(** ELEME, COORD, CONNE and INCON written a second time. *)
From Coq Require Import String Ascii ZArith Bool Lia FinFun List.
From Verif Require Import Base.Str Base.Digits Base.Flt Base.FltText Base.FltInt.
From Verif Require Import Model.Py Model.Records Model.Write Model.Read.
From Verif Require Import Spec.Fields Spec.Values Spec.Types Spec.Layouts Spec.Rocks Spec.Flac Spec.Simple Spec.Param
  Spec.Indom Spec.Outpu Spec.Labels Spec.Mesh Spec.Incon Spec.Gener Spec.File Spec.Again.
From Verif Require Import Proofs.RecordLemmas Proofs.DictLemmas Proofs.BlockTools Proofs.Stability Proofs.RocksProof Proofs.FlacProof Proofs.SimpleProof Proofs.TwoLines Proofs.IndomProof
  Proofs.LabelProof Proofs.MeshProof Proofs.InconProof
  Proofs.FileProof Proofs.FileKeys Proofs.AgainCols Proofs.AgainPrep Proofs.AgainRocks Proofs.AgainBlocks Proofs.AgainSimple.
Import ListNotations.
Local Open Scope Z_scope.

Lemma typed_val t d : keys_unique d -> (forall k kd, In (k, kd) t -> is_none (val k d) || of_kind kd (val k d) = true) -> well_typed t d = true.
Proof. intros U H. apply typed_by; auto. intros k kd v I G. specialize (H k kd I). now rewrite (val_some _ _ _ G) in H. Qed.
Lemma int_kind w v : is_none (col_val (CInt w) v) || of_kind Integer (col_val (CInt w) v) = true.
Proof. cbn [col_val]. destruct (int_of v); reflexivity. Qed.

(** ** Labelled dictionaries *)
Section Labels.
Variable d : dict.
Variable o : pyval.
Variable f : pyval -> dict.
Hypothesis N : all_names (dkeys d).
Hypothesis U : keys_unique d.
Hypothesis O : subset_ok o d.
Hypothesis S : order_steady o d = true.
Definition named_back : dict := map (fun x => (name_key x, PDict (f x))) (order_list o d).
Lemma back_keys : dkeys named_back = map name_key (order_list o d).
Proof. unfold named_back, dkeys. now rewrite map_map. Qed.
Lemma back_width : label_width named_back = label_width d.
Proof.
  unfold order_steady in S. apply Nat.eqb_eq in S. rewrite <- S. unfold label_width. rewrite back_keys. unfold dkeys. now rewrite !map_map.
Qed.
Lemma back_unique : keys_unique named_back.
Proof. unfold keys_unique. rewrite back_keys. now apply order_list_nodup. Qed.
Lemma back_get x : In x (order_list o d) -> dget (name_key x) named_back = Some (PDict (f x)).
Proof. intros I. apply in_dget; [apply back_unique|]. unfold named_back. now apply (in_map (fun x => (name_key x, PDict (f x)))). Qed.
Lemma back_named x : In x (order_list o d) -> rock_named named_back x = f x.
Proof.
  intros I. destruct (order_list_in _ _ _ N O I) as (s & -> & _). unfold rock_named. change (KS s) with (name_key (PStr s)).
  now rewrite (val_some _ _ _ (back_get _ I)).
Qed.
Lemma back_subset : subset_ok (PSeq SList (order_list o d)) named_back.
Proof.
  cbn [subset_ok]. split.
  - eapply NoDup_map_inv. now apply order_list_nodup.
  - apply Forall_forall. intros x I. destruct (order_list_in _ _ _ N O I) as (s & -> & _). exists s. split; auto.
    rewrite back_keys. change (KS s) with (name_key (PStr s)). now apply in_map.
Qed.
Lemma back_forall (G : str -> dict -> Prop) : (forall s, In (PStr s) (order_list o d) -> G s (f (PStr s))) ->
  Forall (fun kv => exists s e, kv = (KS s, PDict e) /\ G s e) named_back.
Proof.
  intros H. apply Forall_forall. intros kv I. unfold named_back in I. apply in_map_iff in I as (x & <- & I).
  destruct (order_list_in _ _ _ N O I) as (s & -> & _). exists s, (f (PStr s)). split; auto.
Qed.
Lemma back_some : (0 < label_width d)%nat -> named_back <> [].
Proof. intros L E. pose proof back_width as W. rewrite E in W. cbn in W. lia. Qed.
End Labels.

(** ** One element *)
Definition center_like (c c' : pyval) : Prop :=
  exists a b d a' b' d', three c = [a; b; d] /\ c' = PSeq SList [a'; b'; d'] /\
    same (CSci 10 3) a a' /\ same (CSci 10 3) b b' /\ same (CSci 10 3) d d'.
Lemma elem_vals_val e k : k <> #"center" -> forall c, keys_unique (element_back e) -> val k (dset #"center" c (element_back e)) = val k (element_back e).
Proof. intros K c _. unfold val. now rewrite dget_dset_other. Qed.
Definition elem_list (e : dict) : dict :=
  [(#"nseq", col_val (CInt 0) (val #"nseq" e)); (#"nadd", col_val (CInt 0) (val #"nadd" e));
         (#"material", val #"material" e); (#"volume", sci 4 (val #"volume" e));
         (#"heat_exchange_area", sci 4 (val #"heat_exchange_area" e));
         (#"permeability_modifier", sci 4 (val #"permeability_modifier" e));
         (#"center", PSeq SList (map (sci 3) (three (val #"center" e))))].
Lemma elem_list_unique e : keys_unique (elem_list e).
Proof. apply no_dup_keys_ok. reflexivity. Qed.
Lemma element_again n s e e' : (5 <= n <= 9)%nat -> label_ok s = true -> (List.length s <= n)%nat -> element_ok n e -> calm (PDict e) = true ->
  keys_unique e' -> (forall k, k <> #"center" -> val k e' = val k (element_back e)) -> center_like (val #"center" e) (val #"center" e') ->
  element_ok n e' /\ elem_line n (PStr s) e' = elem_line n (PStr s) e.
Proof.
  intros W L Ls H C U' V CL. pose proof (elem_rec_ok n s e L Ls H) as RO. destruct H as (U & T & S1 & S2 & M & F & CT).
  assert (VV : forall k, k <> #"center" -> val k e' = val k (elem_list e)).
  { intros k K. rewrite V by auto. unfold element_back. fold (elem_list e). apply val_known, elem_list_unique. }
  assert (E1 : val #"nseq" e' = col_val (CInt 0) (val #"nseq" e)) by (rewrite VV by discriminate; reflexivity).
  assert (E2 : val #"nadd" e' = col_val (CInt 0) (val #"nadd" e)) by (rewrite VV by discriminate; reflexivity).
  assert (E3 : val #"material" e' = val #"material" e) by (rewrite VV by discriminate; reflexivity).
  assert (E4 : val #"volume" e' = sci 4 (val #"volume" e)) by (rewrite VV by discriminate; reflexivity).
  assert (E5 : val #"heat_exchange_area" e' = sci 4 (val #"heat_exchange_area" e)) by (rewrite VV by discriminate; reflexivity).
  assert (E6 : val #"permeability_modifier" e' = sci 4 (val #"permeability_modifier" e)) by (rewrite VV by discriminate; reflexivity).
  destruct CL as (a & b & c & a' & b' & c' & T3 & E7 & Sa & Sb & Sc).
  cbn [forallb] in F. unfold fits in F. rewrite !andb_true_iff in F. destruct F as (F1 & F2 & F3 & _).
  assert (Q1 : same (CInt (fst (eleme_ints n))) (val #"nseq" e) (val #"nseq" e')) by (rewrite E1; now apply same_int0).
  assert (Q2 : same (CInt (snd (eleme_ints n))) (val #"nadd" e) (val #"nadd" e')) by (rewrite E2; now apply same_int0).
  assert (Q4 : same (CSci 10 4) (val #"volume" e) (val #"volume" e')) by (rewrite E4; apply same_sci; auto; [lia|now apply calm_val]).
  assert (Q5 : same (CSci 10 4) (val #"heat_exchange_area" e) (val #"heat_exchange_area" e')) by (rewrite E5; apply same_sci; auto; [lia|now apply calm_val]).
  assert (Q6 : same (CSci 10 4) (val #"permeability_modifier" e) (val #"permeability_modifier" e')) by (rewrite E6; apply same_sci; auto; [lia|now apply calm_val]).
  assert (OK : element_ok n e').
  { split; [exact U'|]. split.
    - apply typed_val; auto. intros k kd I. cbn [kinds_ELEME same_kind map app In] in I.
      repeat (destruct I as [I|I]; [apply pair_equal_spec in I as [<- <-]|]); try contradiction;
        repeat match goal with |- context [val (KS (lit ?x)) e'] => change (KS (lit x)) with #x end.
      + rewrite E1. apply int_kind.
      + rewrite E2. apply int_kind.
      + rewrite E3. exact (typed_at _ _ #"material" TextOrInteger T eq_refl).
      + rewrite E4. apply sci_kind.
      + rewrite E5. apply sci_kind.
      + rewrite E6. apply sci_kind.
      + rewrite E7. reflexivity.
    - split; [apply Q1|]. split; [apply Q2|]. split; [now rewrite E3|]. split.
      + cbn [forallb]. unfold fits. now rewrite (proj1 Q4), (proj1 Q5), (proj1 Q6).
      + rewrite E7. unfold center_ok, three. cbn [items firstn List.length Nat.leb forallb andb]. unfold fits. now rewrite (proj1 Sa), (proj1 Sb), (proj1 Sc). }
  split; [exact OK|]. unfold elem_line. apply same_line.
  - unfold rec_width, cols_elem. do 10 (destruct n as [|n]; [cbn; lia|]). lia.
  - exact RO.
  - unfold cols_elem, elem_vals. rewrite T3, E7. unfold three. cbn [items firstn repeat app]. rewrite E3.
    repeat apply same_rec_cons; auto; try apply same_rec_nil.
    + apply same_refl. now apply label_ok_col.
    + apply same_refl. now apply material_spec.
Qed.

Lemma center_plain e : center_ok (val #"center" e) = true -> calm (PDict e) = true -> center_like (val #"center" e) (val #"center" (element_back e)).
Proof.
  intros CT C. destruct (center_spec _ CT) as (k & a & b & c & r & E & E3 & Fa & Fb & Fc).
  assert (X : val #"center" (element_back e) = PSeq SList [sci 3 a; sci 3 b; sci 3 c]).
  { unfold element_back. fold (elem_list e). rewrite val_known by apply elem_list_unique. change (val #"center" (elem_list e)) with (PSeq SList (map (sci 3) (three (val #"center" e)))). now rewrite E3. }
  assert (CC : calm (val #"center" e) = true) by now apply calm_val. rewrite E in CC. cbn [calm forallb] in CC. rewrite !andb_true_iff in CC. destruct CC as (Ca & Cb & Cc & _).
  exists a, b, c, (sci 3 a), (sci 3 b), (sci 3 c). rewrite X. repeat split; auto; apply (same_sci 10 3); auto; lia.
Qed.
Lemma same_rounded v : fits 3 v = true -> calm v = true -> rounds_once v = true -> same (CSci 10 3) v (sci 13 v).
Proof.
  intros F C R. unfold fits in F. unfold rounds_once in R. unfold sci. cbn [col_val]. destruct (num_of v) as [x|] eqn:E.
  - apply streqb_eq in R. assert (CX : calm_num x = true) by exact (calm_of _ _ C E).
    assert (K : col_ok (CSci 10 3) (PFloat (rnd_e 13 x)) = true).
    { cbn [col_ok absent orb]. unfold sci_fits. rewrite R.
      assert (F' : sci_fits 10 3 x = true).
      { cbn [col_ok] in F. destruct (absent v) eqn:A; [destruct (num_of_absent v A); congruence|]. cbn [orb] in F. unfold num_of in E.
        destruct v; try discriminate; cbn [int_of] in *; injection E as <-; auto; now apply andb_true_iff in F. }
      unfold sci_fits in F'. rewrite andb_true_iff in *. destruct F' as [F1 F2]. split; [|exact F2].
      unfold calm_num in CX. apply orb_true_iff in CX as [CX|CX]; [apply rnd_e_f64; auto; lia|]. rewrite rnd_e_nonfinite; auto. now apply negb_true_iff. }
    split; [exact K|]. unfold col_text. rewrite (to_str_sci_num 10 3 v x E F), (to_str_sci_num 10 3 (PFloat (rnd_e 13 x)) (rnd_e 13 x) eq_refl K). now rewrite R.
  - split; [reflexivity|]. unfold col_text. cbn [col_ok] in F. destruct v as [| | | | |[|]| |]; try discriminate; reflexivity.
Qed.
Lemma center_coord e : center_ok (val #"center" e) = true -> calm (PDict e) = true -> center_steady e = true ->
  center_like (val #"center" e) (coord_back (val #"center" e)).
Proof.
  intros CT C ST. destruct (center_spec _ CT) as (k & a & b & c & r & E & E3 & Fa & Fb & Fc).
  assert (CC : calm (val #"center" e) = true) by now apply calm_val. rewrite E in CC. cbn [calm forallb] in CC. rewrite !andb_true_iff in CC. destruct CC as (Ca & Cb & Cc & _).
  unfold center_steady in ST. rewrite E3 in ST. cbn [forallb] in ST. rewrite !andb_true_iff in ST. destruct ST as (Ra & Rb & Rc & _).
  exists a, b, c, (sci 13 a), (sci 13 b), (sci 13 c). split; [exact E3|]. split.
  - unfold coord_back. rewrite E3. reflexivity.
  - auto using same_rounded.
Qed.

Section Top.
Variables p p' : dict.
Hypothesis A : again p p'.
Hypothesis C : calm (PDict p) = true.

Definition elem_read (x : pyval) : dict :=
  let e := rock_named (elements_of p) x in
  if filled (val #"coordinates" p) then dset #"center" (coord_back (val #"center" e)) (element_back e) else element_back e.

Lemma ELEME_again :
  (filled (val #"elements" p) = true -> ELEME_ok p /\ order_steady (val #"elements_order" p) (elements_of p) = true) ->
  (filled (val #"coordinates" p) = true -> filled (val #"elements" p) = true /\ COORD_ok p /\
     forallb (fun kv => center_steady (entries (snd kv))) (elements_of p) = true) ->
  filled (val #"elements" p') = filled (val #"elements" p) /\ filled (val #"coordinates" p') = filled (val #"coordinates" p) /\
  (filled (val #"elements" p) = true -> ELEME_ok p' /\ write_eleme p' = write_eleme p) /\
  (filled (val #"coordinates" p) = true -> COORD_ok p' /\ write_coord p' = write_coord p).
Proof.
  intros H HC. destruct (filled (val #"elements" p)) eqn:F.
  - destruct (H eq_refl) as [O OS]. pose proof O as (G0 & M0 & NE & U & SO & W & FA).
    assert (NA : all_names (dkeys (elements_of p))) by exact (labelled_names _ (fun s e => label_ok s = true /\ element_ok (label_width (elements_of p)) e) FA).
    set (d' := named_back (elements_of p) (val #"elements_order" p) elem_read).
    assert (GE : dget #"elements" p' = Some (PDict d')).
    { apply (top_some p p' A); [reflexivity|]. change (FILE_entry p #"elements") with (when_some (filled (val #"elements" p))
         (PDict (if filled (val #"coordinates" p) then with_centers p (elements_back p) else elements_back p))). rewrite F. unfold when_some. do 2 f_equal.
      unfold d', named_back, elem_read, elements_back, with_centers, elements_order_of. destruct (filled (val #"coordinates" p)); [|reflexivity].
      rewrite map_map. apply map_ext_in. intros x I. cbn [fst snd entries]. destruct (order_list_in _ _ _ NA SO I) as (s & -> & _). reflexivity. }
    assert (GO : dget #"elements_order" p' = Some (PSeq SList (elements_order_of p))).
    { apply (top_some p p' A); [reflexivity|]. change (FILE_entry p #"elements_order") with (when_some (filled (val #"elements" p)) (PSeq SList (elements_order_of p))). now rewrite F. }
    assert (GC : dget #"coordinates" p' = Some (PBool (filled (val #"coordinates" p)))).
    { apply (top_some p p' A); [reflexivity|]. change (FILE_entry p #"coordinates") with (when_some (filled (val #"elements" p)) (PBool (filled (val #"coordinates" p)))). now rewrite F. }
    assert (ED : elements_of p' = d') by (unfold elements_of at 1; now rewrite (val_some _ _ _ GE)).
    assert (EO : elements_order_of p' = elements_order_of p) by (unfold elements_order_of at 1; now rewrite (val_some _ _ _ GO)).
    assert (BW : label_width d' = label_width (elements_of p)) by now apply back_width.
    assert (CE : calm (PDict (elements_of p)) = true) by exact (calm_entry _ _ _ C G0).
    assert (X : forall x, In x (elements_order_of p) -> exists s e, x = PStr s /\ rock_named (elements_of p) x = e /\ rock_named d' x = elem_read x /\
       (List.length s <= label_width (elements_of p))%nat /\ label_ok s = true /\
       element_ok (label_width (elements_of p)) (elem_read x) /\
       elem_line (label_width (elements_of p)) x (elem_read x) = elem_line (label_width (elements_of p)) x e /\
       (filled (val #"coordinates" p) = true -> val #"center" (elem_read x) = coord_back (val #"center" e))).
    { intros x I. destruct (ELEME_item p x O I) as (s & e & -> & G & E & Ls & L & EK). exists s, e.
      assert (CX : calm (PDict e) = true) by exact (calm_entry _ _ _ CE G). pose proof EK as (_ & _ & _ & _ & _ & _ & CT).
      assert (CL : center_like (val #"center" e) (val #"center" (elem_read (PStr s))) /\
                   (filled (val #"coordinates" p) = true -> val #"center" (elem_read (PStr s)) = coord_back (val #"center" e))).
      { unfold elem_read. rewrite E. cbv zeta. destruct (filled (val #"coordinates" p)).
        - destruct (HC eq_refl) as (_ & _ & CS). assert (VS : val #"center" (dset #"center" (coord_back (val #"center" e)) (element_back e)) = coord_back (val #"center" e)) by (unfold val at 1; now rewrite dget_dset_same).
          rewrite VS. split; [|reflexivity].
          apply center_coord; auto. rewrite forallb_forall in CS. apply dget_in in G. exact (CS _ G).
        - split; [now apply center_plain|discriminate]. }
      destruct CL as [CL1 CL2].
      destruct (element_again (label_width (elements_of p)) s e (elem_read (PStr s))) as [Q1 Q2]; auto.
      { unfold elem_read. rewrite E. cbv zeta. assert (KU : keys_unique (element_back e)) by (apply known_unique, elem_list_unique).
        destruct (filled (val #"coordinates" p)); [now apply dset_unique|exact KU]. }
      { intros k K. unfold elem_read. rewrite E. cbv zeta. destruct (filled (val #"coordinates" p)); [|reflexivity]. unfold val. now rewrite dget_dset_other. }
      split; [reflexivity|]. split; [exact E|]. split; [now apply back_named|]. auto. }
    assert (FW : filled (PDict d') = true).
    { assert (ND : d' <> []) by (apply back_some; auto; lia). unfold filled. destruct d'; [congruence|reflexivity]. }
    split; [rewrite (val_some _ _ _ GE); exact FW|]. split; [now rewrite (val_some _ _ _ GC)|]. split.
    + intros _. assert (OK : ELEME_ok p').
      { unfold ELEME_ok. rewrite ED. split; [exact GE|]. split; [unfold dmem; now rewrite GO|]. split; [apply back_some; auto; lia|].
        split; [now apply back_unique|]. split; [rewrite (val_some _ _ _ GO); now apply back_subset|]. split; [now rewrite BW|].
        apply (back_forall (elements_of p) (val #"elements_order" p) elem_read NA SO (fun s e => label_ok s = true /\ element_ok (label_width d') e)).
        intros s I. rewrite BW. destruct (X (PStr s) I) as (s' & e & Es & _ & _ & _ & L & EK & _). injection Es as <-. auto. }
      split; [exact OK|]. rewrite (ELEME_write p O), (ELEME_write p' OK). do 2 f_equal. unfold ELEME_body. rewrite EO, ED, BW. f_equal.
      apply map_ext_in. intros x I. destruct (X x I) as (s & e & -> & E & N' & _ & _ & _ & LN & _). rewrite N', E. exact LN.
    + intros FC. destruct (HC FC) as (_ & OC & CS).
      assert (Y : forall x, In x (elements_order_of p) -> coord_ok (val #"center" (elem_read x)) = true /\
         rec_line cols_COORD (items (val #"center" (elem_read x))) = rec_line cols_COORD (items (val #"center" (rock_named (elements_of p) x)))).
      { intros x I. destruct (X x I) as (s & e & -> & E & _ & _ & _ & EK & _ & CB). rewrite (CB FC), E. destruct (COORD_item p _ OC I) as (s' & e' & Es & G & E' & _ & CK).
        rewrite E in E'. subst e'. destruct (coord_spec _ CK) as (k & l & V & RL & _ & _).
        assert (CC : calm (val #"center" e) = true) by (apply calm_val; injection Es as <-; exact (calm_entry _ _ _ CE G)).
        unfold coord_ok in CK. rewrite !andb_true_iff in CK. destruct CK as ((_ & FK) & PK). rewrite V in *. unfold coord_ok, coord_back, three in *. cbn [items is_seq] in *.
        assert (SN : forall i, (i < 3)%nat -> same (CSci 20 13) (nth i l PNone) (nth i (map (sci 13) (firstn 3 (firstn 3 l ++ [PNone; PNone; PNone]))) PNone)).
        { intros i L3. rewrite nth_map_sci, nth_firstn_lt by auto. assert (ZN : nth i (firstn 3 l ++ [PNone; PNone; PNone]) PNone = nth i l PNone).
          { destruct (Nat.lt_ge_cases i (List.length l)) as [LL|LL].
            - rewrite app_nth1 by (rewrite firstn_length; lia). now apply nth_firstn_lt.
            - rewrite (nth_overflow l) by auto. rewrite app_nth2 by (rewrite firstn_length; lia). destruct (i - List.length (firstn 3 l))%nat as [|[|[|[]]]]; reflexivity. }
          rewrite ZN. apply same_sci; [lia| |apply calm_nth; exact CC]. rewrite <- (nth_firstn_lt PNone 3) by auto. now apply ok_nth. }
        assert (L3 : List.length (firstn 3 (firstn 3 l ++ [PNone; PNone; PNone])) = 3%nat) by (rewrite firstn_length, app_length; cbn [List.length]; lia).
        split.
        - apply andb_true_iff. split; [apply andb_true_iff; split; [reflexivity|]|].
          + apply forallb_forall. intros v J. destruct (In_nth _ _ PNone J) as (i & Li & <-).
            rewrite firstn_length, map_length, L3 in Li. rewrite nth_firstn_lt by lia. apply SN. lia.
          + apply (existsb_nth present) in PK as (i & PI); [|reflexivity]. apply (existsb_nth present); [reflexivity|]. exists i.
            destruct (Nat.lt_ge_cases i 3) as [LI|LI]; [|rewrite nth_overflow in PI by (rewrite firstn_length; lia); discriminate].
            rewrite nth_firstn_lt in PI |- * by auto. rewrite nth_map_sci, nth_firstn_lt by auto.
            assert (ZN : nth i (firstn 3 l ++ [PNone; PNone; PNone]) PNone = nth i l PNone).
            { destruct (Nat.lt_ge_cases i (List.length l)) as [LL|LL].
              - rewrite app_nth1 by (rewrite firstn_length; lia). now apply nth_firstn_lt.
              - rewrite (nth_overflow l) in PI by auto. discriminate. }
            rewrite ZN, (sci_shown 20); [exact PI|]. rewrite <- (nth_firstn_lt PNone 3) by auto. now apply ok_nth.
        - apply same_line; [cbv; lia|exact RL|]. unfold cols_COORD. apply same_at. exact SN. }
      assert (OK : COORD_ok p').
      { unfold COORD_ok. rewrite ED. split; [exact GE|]. split; [unfold dmem; now rewrite GO|]. split; [now apply back_unique|].
        split; [rewrite (val_some _ _ _ GO); now apply back_subset|].
        apply (back_forall (elements_of p) (val #"elements_order" p) elem_read NA SO (fun s e => coord_ok (val #"center" e) = true)).
        intros s I. now apply Y. }
      split; [exact OK|]. rewrite (COORD_write p OC), (COORD_write p' OK). do 2 f_equal. unfold COORD_body. rewrite EO. f_equal.
      apply map_ext_in. intros x I. unfold coord_line, coord_of. rewrite ED. destruct (X x I) as (s & e & -> & E & N' & _). rewrite N'. now apply Y.
  - assert (FC : filled (val #"coordinates" p) = false).
    { destruct (filled (val #"coordinates" p)) eqn:FC; [|reflexivity]. now destruct (HC eq_refl). }
    assert (GE : dget #"elements" p' = Some (PDict [])).
    { rewrite (top_get p p' A) by reflexivity. change (FILE_entry p #"elements") with (when_some (filled (val #"elements" p))
         (PDict (if filled (val #"coordinates" p) then with_centers p (elements_back p) else elements_back p))). rewrite F. reflexivity. }
    assert (GC : dget #"coordinates" p' = Some (PBool false)).
    { rewrite (top_get p p' A) by reflexivity. change (FILE_entry p #"coordinates") with (when_some (filled (val #"elements" p)) (PBool (filled (val #"coordinates" p)))). now rewrite F. }
    rewrite (val_some _ _ _ GE), (val_some _ _ _ GC), FC. repeat split; discriminate.
Qed.

(** ** CONNE *)
Definition conn_list (e : dict) : dict :=
  [(#"nseq", col_val (CInt 0) (val #"nseq" e));
         (#"nadd", PSeq SList (map (col_val (CInt 0)) (two (val #"nadd" e))));
         (#"permeability_direction", col_val (CInt 0) (val #"permeability_direction" e));
         (#"nodal_distances", PSeq SList (map (sci 4) (two (val #"nodal_distances" e))));
         (#"interface_area", sci 4 (val #"interface_area" e));
         (#"gravity_cosine_angle", sci 3 (val #"gravity_cosine_angle" e));
         (#"radiant_emittance_factor", sci 3 (val #"radiant_emittance_factor" e))].
Lemma conn_list_unique e : keys_unique (conn_list e).
Proof. apply no_dup_keys_ok. reflexivity. Qed.
Lemma calm_two v : calm v = true -> forall x, In x (two v) -> calm x = true.
Proof.
  intros H x I. unfold two in I. assert (J : In x (items v ++ [PNone; PNone])) by (rewrite <- (firstn_skipn 2 (items v ++ [PNone; PNone])); apply in_or_app; now left).
  apply in_app_or in J as [J|J]; [|cbn [In] in J; destruct J as [<-|[<-|[]]]; reflexivity].
  apply calm_items in H. rewrite forallb_forall in H. auto.
Qed.
Lemma connection_again n s e : (5 <= n <= 9)%nat -> pair_ok n s = true -> connection_ok n e -> calm (PDict e) = true ->
  connection_ok n (connection_back e) /\ conn_line n (PStr s) (connection_back e) = conn_line n (PStr s) e.
Proof.
  intros W L H CE. pose proof (conn_rec_ok n s e L H) as RO. destruct H as (U & T & S1 & S2 & SN & SD & ND & F1 & F2 & F3).
  assert (VV : forall k, val k (connection_back e) = val k (conn_list e)) by (intros k; unfold connection_back; fold (conn_list e); apply val_known, conn_list_unique).
  assert (E1 : val #"nseq" (connection_back e) = col_val (CInt 0) (val #"nseq" e)) by (rewrite VV; reflexivity).
  assert (E2 : val #"nadd" (connection_back e) = PSeq SList (map (col_val (CInt 0)) (two (val #"nadd" e)))) by (rewrite VV; reflexivity).
  assert (E3 : val #"permeability_direction" (connection_back e) = col_val (CInt 0) (val #"permeability_direction" e)) by (rewrite VV; reflexivity).
  assert (E4 : val #"nodal_distances" (connection_back e) = PSeq SList (map (sci 4) (two (val #"nodal_distances" e)))) by (rewrite VV; reflexivity).
  assert (E5 : val #"interface_area" (connection_back e) = sci 4 (val #"interface_area" e)) by (rewrite VV; reflexivity).
  assert (E6 : val #"gravity_cosine_angle" (connection_back e) = sci 3 (val #"gravity_cosine_angle" e)) by (rewrite VV; reflexivity).
  assert (E7 : val #"radiant_emittance_factor" (connection_back e) = sci 3 (val #"radiant_emittance_factor" e)) by (rewrite VV; reflexivity).
  destruct (two_spec (val #"nadd" e)) as (a & b & TA). destruct (two_spec (val #"nodal_distances" e)) as (a' & b' & TD).
  assert (CA : calm a' = true /\ calm b' = true).
  { pose proof (calm_two _ (calm_val _ #"nodal_distances" CE)) as Q. rewrite TD in Q. split; apply Q; cbn; tauto. }
  rewrite TA in E2, S2. rewrite TD in E4, F1. cbn [map] in E2, E4.
  cbn [forallb] in S2, F1, F3. unfold fits in F1, F2, F3. rewrite !andb_true_iff in S2, F1, F3. destruct S2 as (X1 & X2 & _), F1 as (X3 & X4 & _), F3 as (X5 & X6 & _).
  assert (Q1 : same (CInt (fst (conne_ints n))) (val #"nseq" e) (col_val (CInt 0) (val #"nseq" e))) by now apply same_int0.
  assert (Qa : same (CInt (snd (conne_ints n))) a (col_val (CInt 0) a)) by now apply same_int0.
  assert (Qb : same (CInt (snd (conne_ints n))) b (col_val (CInt 0) b)) by now apply same_int0.
  assert (Q3 : same (CInt 5) (val #"permeability_direction" e) (col_val (CInt 0) (val #"permeability_direction" e))) by now apply same_int0.
  assert (Qa' : same (CSci 10 4) a' (sci 4 a')) by (apply same_sci; auto; [lia|tauto]).
  assert (Qb' : same (CSci 10 4) b' (sci 4 b')) by (apply same_sci; auto; [lia|tauto]).
  assert (Q5 : same (CSci 10 4) (val #"interface_area" e) (sci 4 (val #"interface_area" e))) by (apply same_sci; auto; [lia|now apply calm_val]).
  assert (Q6 : same (CSci 10 3) (val #"gravity_cosine_angle" e) (sci 3 (val #"gravity_cosine_angle" e))) by (apply same_sci; auto; [lia|now apply calm_val]).
  assert (Q7 : same (CSci 10 3) (val #"radiant_emittance_factor" e) (sci 3 (val #"radiant_emittance_factor" e))) by (apply same_sci; auto; [lia|now apply calm_val]).
  assert (KU : keys_unique (connection_back e)) by (apply known_unique, conn_list_unique).
  split.
  - split; [exact KU|]. split.
    + apply typed_val; auto. intros k kd I. cbn [kinds_CONNE same_kind map app In] in I.
      repeat (destruct I as [I|I]; [apply pair_equal_spec in I as [<- <-]|]); try contradiction;
        repeat match goal with |- context [val (KS (lit ?x)) (connection_back e)] => change (KS (lit x)) with #x end.
      * rewrite E1. apply int_kind.
      * rewrite E3. apply int_kind.
      * rewrite E2. reflexivity.
      * rewrite E4. reflexivity.
      * rewrite E5. apply sci_kind.
      * rewrite E6. apply sci_kind.
      * rewrite E7. apply sci_kind.
    + rewrite E1, E2, E3, E4, E5. unfold two. cbn [items app firstn List.length forallb]. unfold fits. rewrite E6, E7.
      rewrite (proj1 Q1), (proj1 Qa), (proj1 Qb), (proj1 Q3), (proj1 Qa'), (proj1 Qb'), (proj1 Q5), (proj1 Q6), (proj1 Q7).
      repeat split; auto.
  - unfold conn_line. apply same_line.
    + unfold rec_width, cols_conn. do 10 (destruct n as [|n]; [cbn; lia|]). lia.
    + exact RO.
    + unfold cols_conn, conn_vals. rewrite TA, TD, E1, E2, E3, E4, E5, E6, E7. unfold two. cbn [items firstn repeat app].
      repeat apply same_rec_cons; auto; try apply same_rec_nil.
      apply same_refl. unfold pair_ok in L. rewrite !andb_true_iff, Nat.leb_le in L. apply label_ok_col; tauto.
Qed.
Lemma CONNE_again :
  (filled (val #"connections" p) = true -> CONNE_ok p /\ order_steady (val #"connections_order" p) (connections_of p) = true) ->
  filled (val #"connections" p') = filled (val #"connections" p) /\
  (filled (val #"connections" p) = true -> CONNE_ok p' /\ write_conne p' = write_conne p).
Proof.
  intros H. destruct (filled (val #"connections" p)) eqn:F.
  - destruct (H eq_refl) as [O OS]. pose proof O as (G0 & M0 & NE & U & SO & W & FA).
    assert (NA : all_names (dkeys (connections_of p))) by exact (labelled_names _ (conn_good p) FA).
    set (f := fun x => connection_back (rock_named (connections_of p) x)).
    set (d' := named_back (connections_of p) (val #"connections_order" p) f).
    assert (GE : dget #"connections" p' = Some (PDict d')).
    { apply (top_some p p' A); [reflexivity|]. change (FILE_entry p #"connections") with (if filled (val #"connections" p) then dget #"connections" (CONNE_back p) else None). rewrite F. reflexivity. }
    assert (GO : dget #"connections_order" p' = Some (PSeq SList (connections_order_of p))).
    { apply (top_some p p' A); [reflexivity|]. change (FILE_entry p #"connections_order") with (if filled (val #"connections" p) then dget #"connections_order" (CONNE_back p) else None). rewrite F. reflexivity. }
    assert (ED : connections_of p' = d') by (unfold connections_of at 1; now rewrite (val_some _ _ _ GE)).
    assert (EO : connections_order_of p' = connections_order_of p) by (unfold connections_order_of at 1; now rewrite (val_some _ _ _ GO)).
    assert (BW : half_width d' = half_width (connections_of p)) by (unfold half_width; f_equal; now apply back_width).
    assert (LW : (0 < label_width (connections_of p))%nat).
    { unfold half_width in W. destruct (label_width (connections_of p)); [cbn in W; lia|lia]. }
    assert (CE : calm (PDict (connections_of p)) = true) by exact (calm_entry _ _ _ C G0).
    assert (X : forall x, In x (connections_order_of p) -> exists s, x = PStr s /\ rock_named d' x = f x /\ pair_ok (half_width (connections_of p)) s = true /\
       connection_ok (half_width (connections_of p)) (f x) /\
       conn_line (half_width (connections_of p)) x (f x) = conn_line (half_width (connections_of p)) x (rock_named (connections_of p) x)).
    { intros x I. destruct (CONNE_item p x O I) as (s & e & -> & G & E & L & EK). exists s.
      destruct (connection_again (half_width (connections_of p)) s e W L EK (calm_entry _ _ _ CE G)) as [Q1 Q2].
      split; [reflexivity|]. split; [now apply back_named|]. unfold f. rewrite E. auto. }
    assert (FW : filled (PDict d') = true).
    { assert (ND : d' <> []) by now apply back_some. unfold filled. destruct d'; [congruence|reflexivity]. }
    split; [rewrite (val_some _ _ _ GE); exact FW|]. intros _.
    assert (OK : CONNE_ok p').
    { unfold CONNE_ok. rewrite ED. split; [exact GE|]. split; [unfold dmem; now rewrite GO|]. split; [now apply back_some|].
      split; [now apply back_unique|]. split; [rewrite (val_some _ _ _ GO); now apply back_subset|]. split; [now rewrite BW|].
      apply (back_forall (connections_of p) (val #"connections_order" p) f NA SO (fun s e => pair_ok (half_width d') s = true /\ connection_ok (half_width d') e)).
      intros s I. rewrite BW. destruct (X (PStr s) I) as (s' & Es & _ & L & EK & _). injection Es as <-. auto. }
    split; [exact OK|]. rewrite (CONNE_write p O), (CONNE_write p' OK). do 2 f_equal. unfold CONNE_body. rewrite EO, ED, BW. f_equal.
    apply map_ext_in. intros x I. destruct (X x I) as (s & _ & N' & _ & _ & LN). rewrite N'. exact LN.
  - split; [|discriminate].
    assert (G : dget #"connections" p' = Some (PDict [])).
    { rewrite (top_get p p' A) by reflexivity. change (FILE_entry p #"connections") with (if filled (val #"connections" p) then dget #"connections" (CONNE_back p) else None). rewrite F. reflexivity. }
    now rewrite (val_some _ _ _ G).
Qed.

(** ** INCON *)
Definition incon_dict (e : dict) : dict :=
  [(#"porosity", sci 9 (val #"porosity" e));
         (#"userx", match trim (map (sci 3) (userx_of e)) with [] => PNone | l => PSeq SList l end);
         (#"values", sci_list 13 (values_of e))].
Lemma incon_list_unique e : keys_unique (incon_dict e).
Proof. apply no_dup_keys_ok. reflexivity. Qed.
Lemma same_rec_app cs ds vs ws vs' ws' : List.length vs = List.length cs -> List.length vs' = List.length cs ->
  same_rec cs vs vs' -> same_rec ds ws ws' -> same_rec (cs ++ ds) (vs ++ ws) (vs' ++ ws').
Proof.
  intros L L' S1 S2 i c E. destruct (Nat.lt_ge_cases i (List.length cs)) as [LI|LI].
  - rewrite nth_error_app1 in E by auto. rewrite !app_nth1 by lia. now apply S1.
  - rewrite nth_error_app2 in E by auto. rewrite !app_nth2 by lia. rewrite L, L'. now apply S2.
Qed.
Lemma incon_again n s e : (5 <= n <= 9)%nat -> label_ok s = true -> (List.length s <= n)%nat -> incon_ok e -> calm (PDict e) = true ->
  incon_ok (incon_back e) /\ long (values_of (incon_back e)) = long (values_of e) /\
  incon_head n (PStr s) (incon_back e) = incon_head n (PStr s) e /\ value_lines (values_w (incon_back e)) = value_lines (values_w e).
Proof.
  intros W L Ls H CE. pose proof (incon_rec_ok n s e L Ls H) as RO. destruct H as (U & T & PO & AU & FU & AV & VO).
  assert (UB : keys_unique (incon_back e)) by (apply known_unique, incon_list_unique).
  assert (VV : forall k, val k (incon_back e) = val k (incon_dict e)) by (intros k; unfold incon_back; apply (val_known (incon_dict e)), incon_list_unique).
  assert (DG : forall k, dget k (incon_back e) = match dget k (incon_dict e) with Some v => if is_none v then None else Some v | None => None end)
    by (intros k; apply (dget_known (incon_dict e)), incon_list_unique).
  assert (E1 : val #"porosity" (incon_back e) = sci 9 (val #"porosity" e)) by (rewrite VV; reflexivity).
  assert (Q1 : same (CSci 15 9) (val #"porosity" e) (sci 9 (val #"porosity" e))) by (apply same_sci; [lia|exact PO|now apply calm_val]).
  (* values *)
  assert (GV : dget #"values" (incon_back e) = Some (PSeq SList (trim (map (sci 13) (values_of e))))) by (rewrite DG; reflexivity).
  assert (V1 : values_of (incon_back e) = trim (map (sci 13) (values_w e))) by (unfold values_of at 1; rewrite (val_some _ _ _ GV); cbn [items]; now rewrite values_w_back).
  assert (V2 : values_w (incon_back e) = trim (map (sci 13) (values_w e))) by (unfold values_w at 1, val_or; rewrite GV; cbn [items]; now rewrite values_w_back).
  assert (CV : forallb calm (values_w e) = true).
  { unfold values_w, val_or. destruct (dget #"values" e) eqn:GVE; [apply calm_items; exact (calm_entry _ _ _ CE GVE)|reflexivity]. }
  destruct (values_same (values_w e) (values_w_ok e VO) CV) as (V3 & V4 & V5). cbv zeta in V3, V4, V5.
  (* userx *)
  set (t := trim (map (sci 3) (userx_of e))).
  assert (UW : firstn 5 (userx_w e) = userx_of e \/ (userx_of e = [] /\ userx_w e = repeat PNone 5)).
  { unfold userx_w, userx_of, val_or, val. destruct (dget #"userx" e); [left; reflexivity|right; split; reflexivity]. }
  assert (GU : dget #"userx" (incon_back e) = match t with [] => None | _ => Some (PSeq SList t) end).
  { rewrite DG. change (dget #"userx" (incon_dict e)) with (Some (match t with [] => PNone | a :: r => PSeq SList (a :: r) end)). destruct t; reflexivity. }
  assert (UB' : userx_w (incon_back e) = match t with [] => repeat PNone 5 | _ => t end).
  { unfold userx_w, val_or. rewrite GU. destruct t; reflexivity. }
  assert (LT : (List.length t <= 5)%nat).
  { unfold t. pose proof (trim_length (map (sci 3) (userx_of e))) as Q. rewrite map_length in Q. unfold userx_of in *. rewrite firstn_length in Q. lia. }
  assert (UO : userx_of (incon_back e) = t).
  { unfold userx_of at 1, val. rewrite GU. destruct t as [|a r] eqn:ET; [reflexivity|]. cbn [items]. rewrite <- ET in *. now apply firstn_all2. }
  assert (CU : forallb calm (userx_of e) = true) by (unfold userx_of; apply forallb_firstn', calm_items, calm_val; exact CE).
  assert (SU : forall i, same (CSci 10 3) (nth i (userx_of e) PNone) (nth i t PNone)).
  { intros i. unfold t. rewrite nth_trim, nth_map_sci. apply same_sci; [lia|now apply ok_nth|now apply calm_nth]. }
  assert (SW : forall i, (i < 5)%nat -> same (CSci 10 3) (nth i (userx_w e) PNone) (nth i (userx_w (incon_back e)) PNone)).
  { intros i L5. assert (N1 : nth i (userx_w e) PNone = nth i (userx_of e) PNone).
    { destruct UW as [UW|[UW1 UW2]]; [rewrite <- UW; symmetry; now apply nth_firstn_lt|]. rewrite UW1, UW2. do 5 (destruct i as [|i]; [reflexivity|]). lia. }
    assert (N2 : nth i (userx_w (incon_back e)) PNone = nth i t PNone).
    { rewrite UB'. destruct t; [|reflexivity]. do 5 (destruct i as [|i]; [reflexivity|]). lia. }
    rewrite N1, N2. apply SU. }
  split; [|split; [rewrite V1, V4; apply values_w_long|split; [|now rewrite V2]]].
  - split; [exact UB|]. split.
    + apply typed_val; auto. intros k kd I. cbn [kinds_INCON same_kind map app In] in I.
      repeat (destruct I as [I|I]; [apply pair_equal_spec in I as [<- <-]|]); try contradiction;
        repeat match goal with |- context [val (KS (lit ?x)) (incon_back e)] => change (KS (lit x)) with #x end.
      * rewrite E1. apply sci_kind.
      * unfold val. rewrite GU. destruct t; reflexivity.
      * now rewrite (val_some _ _ _ GV).
    + split; [rewrite E1; apply Q1|]. split; [unfold absent_or_seq; rewrite GU; destruct t; exact I|]. split.
      * rewrite UO. apply forallb_forall. intros v J. destruct (In_nth _ _ PNone J) as (i & _ & <-). apply SU.
      * split; [unfold absent_or_seq; rewrite GV; exact I|]. now rewrite V1.
  - unfold incon_head. apply same_line.
    + unfold rec_width, cols_incon. do 10 (destruct n as [|n]; [cbn; lia|]). lia.
    + exact RO.
    + unfold cols_incon, incon_vals. apply same_rec_app; try reflexivity.
      * repeat apply same_rec_cons; auto; try apply same_rec_nil; try now apply same_none.
        all: try (rewrite E1; exact Q1). all: try (apply same_refl; now apply label_ok_col).
      * apply same_at. exact SW.
Qed.
Lemma INCON_again :
  (filled (val #"initial_conditions" p) = true -> INCON_ok p /\ order_steady (val #"initial_conditions_order" p) (incons_of p) = true) ->
  filled (val #"initial_conditions" p') = filled (val #"initial_conditions" p) /\
  (filled (val #"initial_conditions" p) = true -> INCON_ok p' /\ write_incon p' = write_incon p).
Proof.
  intros H. destruct (filled (val #"initial_conditions" p)) eqn:F.
  - destruct (H eq_refl) as [O OS]. pose proof O as (G0 & M0 & NE & U & SO & W & FA & LF).
    assert (NA : all_names (dkeys (incons_of p))) by exact (INCON_names p O).
    set (f := fun x => incon_back (rock_named (incons_of p) x)).
    set (d' := named_back (incons_of p) (val #"initial_conditions_order" p) f).
    assert (GE : dget #"initial_conditions" p' = Some (PDict d')).
    { apply (top_some p p' A); [reflexivity|]. change (FILE_entry p #"initial_conditions") with (if filled (val #"initial_conditions" p) then dget #"initial_conditions" (INCON_back p) else None). rewrite F. reflexivity. }
    assert (GO : dget #"initial_conditions_order" p' = Some (PSeq SList (incons_order_of p))).
    { apply (top_some p p' A); [reflexivity|]. change (FILE_entry p #"initial_conditions_order") with (if filled (val #"initial_conditions" p) then dget #"initial_conditions_order" (INCON_back p) else None). rewrite F. reflexivity. }
    assert (ED : incons_of p' = d') by (unfold incons_of at 1; now rewrite (val_some _ _ _ GE)).
    assert (EO : incons_order_of p' = incons_order_of p) by (unfold incons_order_of at 1; now rewrite (val_some _ _ _ GO)).
    assert (BW : label_width d' = label_width (incons_of p)) by now apply back_width.
    assert (CE : calm (PDict (incons_of p)) = true) by exact (calm_entry _ _ _ C G0).
    assert (X : forall x, In x (incons_order_of p) -> exists s e, x = PStr s /\ rock_named (incons_of p) x = e /\ rock_named d' x = incon_back e /\ label_ok s = true /\ word s = true /\
       incon_ok (incon_back e) /\ long (values_of (incon_back e)) = long (values_of e) /\
       incon_head (label_width (incons_of p)) x (incon_back e) = incon_head (label_width (incons_of p)) x e /\ value_lines (values_w (incon_back e)) = value_lines (values_w e)).
    { intros x I. destruct (INCON_item p x O I) as (s & e & -> & G & E & Ls & L & Wd & EK). exists s, e.
      destruct (incon_again (label_width (incons_of p)) s e W L Ls EK (calm_entry _ _ _ CE G)) as (Q1 & Q2 & Q3 & Q4).
      split; [reflexivity|]. split; [exact E|]. split; [unfold d'; rewrite back_named by auto; unfold f; now rewrite E|]. auto 10. }
    assert (FW : filled (PDict d') = true).
    { assert (ND : d' <> []) by (apply back_some; auto; lia). unfold filled. destruct d'; [congruence|reflexivity]. }
    split; [rewrite (val_some _ _ _ GE); exact FW|]. intros _.
    assert (OK : INCON_ok p').
    { unfold INCON_ok. rewrite ED, EO. split; [exact GE|]. split; [unfold dmem; now rewrite GO|]. split; [apply back_some; auto; lia|].
      split; [now apply back_unique|]. split; [rewrite (val_some _ _ _ GO); now apply back_subset|]. split; [now rewrite BW|]. split.
      - apply (back_forall (incons_of p) (val #"initial_conditions_order" p) f NA SO (fun s e => label_ok s = true /\ word s = true /\ incon_ok e)).
        intros s I. unfold f. destruct (X (PStr s) I) as (s' & e & Es & -> & _ & L & Wd & EK & _). injection Es as <-. auto.
      - erewrite map_ext_in; [exact LF|]. intros x I. cbv beta. destruct (X x I) as (s & e & _ & -> & -> & _ & _ & _ & LL & _). exact LL. }
    split; [exact OK|]. rewrite (INCON_write p O), (INCON_write p' OK). do 2 f_equal. unfold INCON_body. rewrite EO. f_equal. f_equal.
    apply map_ext_in. intros x I. unfold incon_lines, entry_lines, incon_headline, incon_values, incon_width. rewrite ED, BW.
    destruct (X x I) as (s & e & -> & -> & -> & _ & _ & _ & _ & HL & VL). now rewrite HL, VL.
  - split; [|discriminate].
    assert (G : dget #"initial_conditions" p' = Some (PDict [])).
    { rewrite (top_get p p' A) by reflexivity. change (FILE_entry p #"initial_conditions") with (if filled (val #"initial_conditions" p) then dget #"initial_conditions" (INCON_back p) else None). rewrite F. reflexivity. }
    now rewrite (val_some _ _ _ G).
Qed.
End Top.
