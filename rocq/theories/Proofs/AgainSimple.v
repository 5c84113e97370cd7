(** The short blocks of a file written a second time. *)
From Coq Require Import String Ascii ZArith Bool Lia FinFun List.
From Verif Require Import Base.Str Base.Digits Base.Flt Base.FltText Base.FltInt.
From Verif Require Import Model.Py Model.Records Model.Write Model.Read.
From Verif Require Import Spec.Fields Spec.Values Spec.Types Spec.Layouts Spec.Rocks Spec.Flac Spec.Simple Spec.Param
  Spec.Indom Spec.Outpu Spec.Labels Spec.Mesh Spec.Incon Spec.Gener Spec.File Spec.Again.
From Verif Require Import Proofs.RecordLemmas Proofs.DictLemmas Proofs.BlockTools Proofs.Stability Proofs.RocksProof Proofs.FlacProof Proofs.SimpleProof Proofs.ParamProof Proofs.TwoLines Proofs.IndomProof
  Proofs.FileProof Proofs.FileKeys Proofs.AgainCols Proofs.AgainPrep Proofs.AgainRocks Proofs.AgainBlocks.
Import ListNotations.
Local Open Scope Z_scope.

Lemma same_int0 w w' v : col_ok (CInt w) v = true -> same (CInt w) v (col_val (CInt w') v).
Proof.
  intros H. split.
  - cbn [col_ok col_val] in *. destruct (int_of v) as [z|] eqn:E; [|reflexivity]. cbn [absent int_of orb].
    destruct (absent v) eqn:A; auto. destruct v as [| | | | |[]| |]; discriminate.
  - unfold col_text. change (col_val (CInt w') v) with (col_val (CInt w) v). now rewrite col_stable_str.
Qed.
Lemma chunks_map {A B} (f : A -> B) n l : (0 < n)%nat -> chunks n (map f l) = map (map f) (chunks n l).
Proof.
  intros N. revert l. apply (chunks_ind n (fun l cl => chunks n (map f l) = map (map f) cl)); auto.
  intros l NE IH. rewrite chunks_step; auto; [|now destruct l]. cbn [map]. rewrite firstn_map, skipn_map. now rewrite IH.
Qed.
Lemma num_fits_ok w k v : num_fits w k v = true -> col_ok (CSci w k) v = true.
Proof. unfold num_fits. now intros H%andb_true_iff. Qed.
Lemma num_fits_back w k v : (k <= 13)%nat -> num_fits w k v = true -> calm v = true -> num_fits w k (sci k v) = true.
Proof.
  intros K F C. unfold num_fits. destruct (same_sci w k v K (num_fits_ok _ _ _ F) C) as [-> _].
  destruct (num_fits_sci _ _ _ F) as (x & _ & ->). reflexivity.
Qed.
Lemma nums_same w k n l : (0 < n)%nat -> (k <= 13)%nat -> (n * w <= 80)%nat -> Forall (fun v => num_fits w k v = true) l -> forallb calm l = true ->
  Forall (fun v => num_fits w k v = true) (map (sci k) l) /\ multi_lines (repeat (CSci w k) n) (map (sci k) l) = multi_lines (repeat (CSci w k) n) l.
Proof.
  intros N K W F C. rewrite forallb_forall in C. split.
  - apply Forall_forall. intros x I. apply in_map_iff in I as (v & <- & I). rewrite Forall_forall in F. apply num_fits_back; auto.
  - unfold multi_lines. rewrite repeat_length, chunks_map, map_map by auto. apply map_ext_in. intros c I.
    assert (FC : Forall (fun v => num_fits w k v = true /\ calm v = true) c).
    { apply (chunks_forall n _ l N) with (2 := I). apply Forall_forall. rewrite Forall_forall in F. auto. }
    apply same_line.
    + clear - W. assert (E : rec_width (repeat (CSci w k) n) = (n * w)%nat); [|lia]. clear W. induction n as [|n IH]; auto. unfold rec_width in *. cbn [repeat map fold_right col_width]. rewrite IH. lia.
    + apply nums_rec_ok. eapply Forall_impl; [|exact FC]. now intros a [].
    + apply same_at. intros i _. rewrite nth_map_sci. rewrite Forall_forall in FC.
      destruct (nth_in_or_default i c PNone) as [J| ->]; [|apply same_sci; auto].
      destruct (FC _ J). apply same_sci; auto. now apply num_fits_ok.
Qed.

Section Top.
Variables p p' : dict.
Hypothesis A : again p p'.
Hypothesis C : calm (PDict p) = true.
Definition plain_key (k : key) : bool := negb (existsb (key_eqb k) [#"title"; #"default"; #"rocks"]).
Lemma top_get k : plain_key k = true -> dget k p' = pick (FILE_entry p k) (dget k top_defaults).
Proof.
  intros H. apply (ag_top p p' A). intros I. unfold plain_key in H. apply negb_true_iff in H.
  assert (existsb (key_eqb k) [#"title"; #"default"; #"rocks"] = true); [|congruence]. apply existsb_exists. exists k. split; auto. now apply key_eqb_eq.
Qed.
Lemma top_some k v : plain_key k = true -> FILE_entry p k = Some v -> dget k p' = Some v.
Proof. intros H E. rewrite top_get, E by auto. reflexivity. Qed.
Lemma top_none k : plain_key k = true -> FILE_entry p k = None -> dget k p' = dget k top_defaults.
Proof. intros H E. rewrite top_get, E by auto. reflexivity. Qed.

(** ** SOLVR *)
Lemma SOLVR_again : (filled (val #"solver" p) = true -> SOLVR_ok p) ->
  filled (val #"solver" p') = filled (val #"solver" p) /\
  (filled (val #"solver" p) = true -> SOLVR_ok p' /\ write_solvr p' = write_solvr p).
Proof.
  intros H. destruct (filled (val #"solver" p)) eqn:F.
  - specialize (H eq_refl).
    assert (G : dget #"solver" p' = dget #"solver" (SOLVR_back p)).
    { rewrite top_get by reflexivity. change (FILE_entry p #"solver") with (if filled (val #"solver" p) then dget #"solver" (SOLVR_back p) else None). rewrite F. reflexivity. }
    unfold SOLVR_back in G. cbn [dget] in G. change (key_eqb #"solver" #"solver") with true in G. cbv iota zeta in G.
    split; [rewrite (val_some _ _ _ G); reflexivity|]. intros _.
    pose proof H as (G0 & U & T & M & C1 & C2 & C3 & C4 & C5).
    set (s := solver_of p) in *. assert (S' : solver_of p' = [(#"method", col_val (CInt 1) (val #"method" s));
                      (#"z_precond", col_val (CText 2) (solver_z s)); (#"o_precond", col_val (CText 2) (solver_o s));
                      (#"rel_iter_max", sci 4 (solver_rel s)); (#"eps", sci 4 (solver_eps s))]) by (unfold solver_of at 1; now rewrite (val_some _ _ _ G)).
    assert (CS : calm (PDict s) = true) by exact (calm_entry _ _ _ C G0).
    assert (CO : forall d k, calm d = true -> calm (val_or d k s) = true).
    { intros d k X. unfold val_or. destruct (dget k s) eqn:E; auto. exact (calm_entry _ _ _ CS E). }
    assert (S1 : same (CInt 1) (val #"method" s) (col_val (CInt 1) (val #"method" s))) by now apply same_int0.
    assert (S2 : same (CText 2) (solver_z s) (col_val (CText 2) (solver_z s))) by (apply same_back; auto; now apply CO).
    assert (S3 : same (CText 2) (solver_o s) (col_val (CText 2) (solver_o s))) by (apply same_back; auto; now apply CO).
    assert (S4 : same (CSci 10 4) (solver_rel s) (sci 4 (solver_rel s))) by (apply same_sci; auto; [lia|apply CO; vm_compute; reflexivity]).
    assert (S5 : same (CSci 10 4) (solver_eps s) (sci 4 (solver_eps s))) by (apply same_sci; auto; [lia|apply CO; vm_compute; reflexivity]).
    assert (OK : SOLVR_ok p').
    { assert (TX : forall v, col_ok (CText 2) v = true -> is_none (col_val (CText 2) v) || of_kind Text (col_val (CText 2) v) = true)
        by (intros [| | | | |[|]| |]; try discriminate; reflexivity).
      unfold SOLVR_ok. rewrite S'. split; [exact G|]. split; [apply no_dup_keys_ok; reflexivity|]. split.
      - unfold well_typed. cbn [forallb]. rewrite !andb_true_iff. repeat split.
        + unfold entry_typed. cbn [fst snd]. change (kind_of #"method" kinds_SOLVR) with (Some Integer). cbv iota. cbn [col_val]. destruct (int_of (val #"method" s)); reflexivity.
        + exact (TX _ C2).
        + exact (TX _ C3).
        + exact (sci_kind 4 _).
        + exact (sci_kind 4 _).
      - split; [reflexivity|]. split; [apply S1|]. split; [apply S2|]. split; [apply S3|]. split; [apply S4|apply S5]. }
    split; [exact OK|].
    destruct (SOLVR_block p H) as [-> _]. destruct (SOLVR_block p' OK) as [-> _]. do 3 f_equal. rewrite S'. fold s.
    assert (R : rec_ok cols_SOLVR (solvr_vals s) = true).
    { unfold cols_SOLVR, solvr_vals. rewrite !rec_ok_cons. rewrite C1, C2, C3. unfold fits in *. now rewrite C4, C5. }
    apply same_line; [cbv; lia|exact R|]. unfold cols_SOLVR, solvr_vals.
    repeat apply same_rec_cons; auto; try apply same_rec_nil; now apply same_none.
  - split; [|discriminate].
    assert (G : dget #"solver" p' = Some (PDict [])).
    { rewrite top_get by reflexivity. change (FILE_entry p #"solver") with (if filled (val #"solver" p) then dget #"solver" (SOLVR_back p) else None). rewrite F. reflexivity. }
    now rewrite (val_some _ _ _ G).
Qed.

(** ** Options *)
Lemma in_options_back n d k v : In (k, v) (options_back n d) -> exists i, k = KI i /\ (1 <= i <= Z.of_nat n) /\ v = col_val (CInt 1) (val (KI i) d) /\ is_none v = false.
Proof.
  unfold options_back. intros I. assert (J : forall l, In (k, v) (known l) -> In (k, v) l /\ is_none v = false).
  { induction l as [|[a b] l IH]; [intros []|]. cbn [known]. destruct (is_none b) eqn:E.
    - intros X. destruct (IH X). split; [now right|auto].
    - intros [X|X]; [injection X as -> ->; split; [now left|auto]|]. destruct (IH X). split; [now right|auto]. }
  apply J in I as [I N]. apply in_map_iff in I as (i & E & I). apply pair_equal_spec in E as [<- <-]. exists i. repeat split; auto; apply in_option_nums in I; lia.
Qed.
Lemma options_keys n d : keys_unique (map (fun i => (KI i, col_val (CInt 1) (val (KI i) d))) (option_nums n)).
Proof.
  unfold keys_unique, dkeys. rewrite map_map. cbn [fst]. apply FinFun.Injective_map_NoDup; [intros a b E; congruence|].
  unfold option_nums. apply FinFun.Injective_map_NoDup; [intros a b E; lia|apply seq_NoDup].
Qed.
Lemma options_val n d i : (1 <= i <= Z.of_nat n) -> val (KI i) (options_back n d) = col_val (CInt 1) (val (KI i) d).
Proof.
  intros L. unfold options_back. rewrite val_known by apply options_keys.
  apply val_some. apply in_dget; [apply options_keys|]. apply in_map_iff. exists i. split; auto. now apply in_option_nums.
Qed.
Lemma options_again n d : options_ok n d -> options_ok n (options_back n d) /\
  map opt_text (option_vals n (options_back n d)) = map opt_text (option_vals n d).
Proof.
  intros H. pose proof (option_vals_digit n d H) as D. rewrite forallb_forall in D.
  assert (DI : forall i, 1 <= i <= Z.of_nat n -> digit_option (val (KI i) d) = true).
  { intros i L. apply D. unfold option_vals. apply in_map_iff. exists i. split; auto. now apply in_option_nums. }
  split.
  - split; [apply known_unique, options_keys|]. apply Forall_forall. intros [k v] I. destruct (in_options_back _ _ _ _ I) as (i & -> & L & -> & _). cbn [fst snd].
    split; [eauto|]. specialize (DI i L). cbn [col_val]. destruct (val (KI i) d); try discriminate; exact DI || reflexivity.
  - unfold option_vals. rewrite !map_map. apply map_ext_in. intros i I. apply in_option_nums in I. rewrite options_val by auto.
    specialize (DI i I). cbn [col_val]. destruct (val (KI i) d); try discriminate; reflexivity.
Qed.
Lemma MOMOP_again : (filled (val #"more_options" p) = true -> MOMOP_ok p /\ options_back 40 (momop_of p) <> []) ->
  filled (val #"more_options" p') = filled (val #"more_options" p) /\
  (filled (val #"more_options" p) = true -> MOMOP_ok p' /\ write_momop p' = write_momop p).
Proof.
  intros H. destruct (filled (val #"more_options" p)) eqn:F.
  - destruct (H eq_refl) as [O N].
    assert (G : dget #"more_options" p' = Some (PDict (options_back 40 (momop_of p)))).
    { rewrite top_get by reflexivity. change (FILE_entry p #"more_options") with (if filled (val #"more_options" p) then dget #"more_options" (MOMOP_back p) else None). rewrite F. reflexivity. }
    assert (E : momop_of p' = options_back 40 (momop_of p)) by (unfold momop_of at 1; now rewrite (val_some _ _ _ G)).
    destruct (options_again 40 (momop_of p) (proj2 O)) as [O1 O2].
    assert (OK : MOMOP_ok p') by (split; rewrite E; auto).
    split; [rewrite (val_some _ _ _ G); unfold filled; destruct (options_back 40 (momop_of p)); [now elim N|reflexivity]|]. intros _. split; [exact OK|].
    destruct (MOMOP_block p O) as [-> _]. destruct (MOMOP_block p' OK) as [-> _]. unfold momop_vals. now rewrite E, O2.
  - split; [|discriminate].
    assert (G : dget #"more_options" p' = Some (PDict [])).
    { rewrite top_get by reflexivity. change (FILE_entry p #"more_options") with (if filled (val #"more_options" p) then dget #"more_options" (MOMOP_back p) else None). rewrite F. reflexivity. }
    now rewrite (val_some _ _ _ G).
Qed.

(** ** TIMES, FOFT, COFT, GOFT *)
Lemma one_or_list_times l : (forall x, In x l -> is_seq x = false) -> times_list (one_or_list l) = l.
Proof. intros H. destruct l as [|x [|y l]]; try reflexivity. cbn [one_or_list]. specialize (H x (or_introl eq_refl)). destruct x; try discriminate; reflexivity. Qed.
Lemma calm_times v : calm v = true -> forallb calm (times_list v) = true.
Proof. destruct v; cbn [times_list forallb calm]; intros H; rewrite ?H; auto. Qed.
Lemma nums_not_seq w k l : Forall (fun v => num_fits w k v = true) l -> forall x, In x (map (sci k) l) -> is_seq x = false /\ is_none x = false.
Proof. intros F x I. apply in_map_iff in I as (v & <- & I). rewrite Forall_forall in F. destruct (num_fits_sci _ _ _ (F v I)) as (y & _ & ->). auto. Qed.
Lemma TIMES_again : (given #"times" p = true -> TIMES_ok p) -> given #"times" p' = given #"times" p /\
  (given #"times" p = true -> TIMES_ok p' /\ write_times p' = write_times p).
Proof.
  intros H. unfold given in *. destruct (not_none (val #"times" p)) eqn:F.
  - pose proof (H eq_refl) as O. pose proof O as (M & N & L).
    assert (G : dget #"times" p' = Some (one_or_list (map (sci 4) (times_of p)))).
    { rewrite top_get by reflexivity. change (FILE_entry p #"times") with (if not_none (val #"times" p) then dget #"times" (TIMES_back p) else None). rewrite F. reflexivity. }
    pose proof (nums_not_seq 10 4 _ N) as NS.
    assert (E : times_of p' = map (sci 4) (times_of p)).
    { unfold times_of at 1. rewrite (val_some _ _ _ G). apply one_or_list_times. intros x I. now apply NS. }
    destruct (nums_same 10 4 8 (times_of p)) as [F1 F2]; auto; try lia; [apply calm_times, calm_val; exact C|].
    assert (OK : TIMES_ok p').
    { split; [unfold dmem; now rewrite G|]. rewrite E, map_length. auto. }
    split; [|split; [exact OK|]].
    + rewrite (val_some _ _ _ G). destruct (map (sci 4) (times_of p)) as [|x [|y l]]; try reflexivity. cbn [one_or_list]. unfold not_none.
      destruct (NS x (or_introl eq_refl)) as [_ ->]. reflexivity.
    + destruct (TIMES_block p O) as [-> _]. destruct (TIMES_block p' OK) as [-> _]. unfold times_lines. now rewrite E, map_length, F2.
  - split; [|discriminate].
    assert (G : dget #"times" p' = Some PNone).
    { rewrite top_get by reflexivity. change (FILE_entry p #"times") with (if not_none (val #"times" p) then dget #"times" (TIMES_back p) else None). rewrite F. reflexivity. }
    now rewrite (val_some _ _ _ G).
Qed.
Lemma OFT_again w kw k fmt : In k [#"element_history"; #"connection_history"; #"generator_history"] -> fmt = toks [CText w] -> (w <= 80)%nat ->
  (given k p = true -> OFT_ok w k p) -> given k p' = given k p /\ (given k p = true -> OFT_ok w k p' /\ write_oft kw k fmt p' = write_oft kw k fmt p).
Proof.
  intros K E W H. assert (FE : FILE_entry p k = if given k p then dget k (OFT_back k p) else None) by (cbn [In] in K; destruct K as [<-|[<-|[<-|[]]]]; reflexivity).
  assert (PK : plain_key k = true) by (cbn [In] in K; destruct K as [<-|[<-|[<-|[]]]]; reflexivity).
  destruct (given k p) eqn:F.
  - pose proof (H eq_refl) as O. pose proof O as (sk & l & G0 & FA).
    assert (G : dget k p' = Some (PSeq SList l)).
    { apply top_some; auto. rewrite FE. unfold OFT_back. rewrite (val_some _ _ _ G0). cbn [dget items]. now rewrite (proj2 (key_eqb_eq k k) eq_refl). }
    assert (OK : OFT_ok w k p') by (exists SList, l; auto).
    split; [unfold given; now rewrite (val_some _ _ _ G)|]. intros _. split; [exact OK|].
    destruct (write_oft_ok w kw k fmt p E W O) as [-> _]. destruct (write_oft_ok w kw k fmt p' E W OK) as [-> _]. unfold oft_lines.
    now rewrite (val_some _ _ _ G), (val_some _ _ _ G0).
  - split; [|discriminate].
    assert (G : dget k p' = Some PNone) by (rewrite top_none by auto; cbn [In] in K; destruct K as [<-|[<-|[<-|[]]]]; reflexivity).
    unfold given. now rewrite (val_some _ _ _ G).
Qed.

(** ** Rows: DIFFU and SELEC *)
Lemma row_again v : row_ok 3 v -> calm v = true -> row_ok 3 (row_back v) /\ row_line (row_back v) = row_line v /\
  existsb present (items (row_back v)) = existsb present (items v).
Proof.
  intros R CV. pose proof (row_rec_ok v R) as RO. destruct R as (sk & l & -> & L & F). unfold row_back, sci_list. cbn [items] in *.
  assert (S : forall i, same (CSci 10 3) (nth i l PNone) (nth i (trim (map (sci 3) l)) PNone)).
  { intros i. rewrite nth_trim, nth_map_sci. apply same_sci; [lia|now apply ok_nth|]. apply calm_nth. exact CV. }
  repeat split.
  - eexists _, _. split; [reflexivity|]. split; [pose proof (trim_length (map (sci 3) l)) as T; rewrite map_length in T; lia|].
    apply trim_forallb. apply forallb_forall. intros x I. apply in_map_iff in I as (v & <- & I).
    destruct (In_nth _ _ PNone I) as (i & _ & <-). specialize (S i). rewrite nth_trim, nth_map_sci in S. apply S.
  - unfold row_line. cbn [items]. apply same_line; [cbv; lia|exact RO|]. unfold cols_DIFFU. apply same_at. auto.
  - apply existsb_same; [reflexivity|]. intros i. rewrite nth_trim, nth_map_sci. apply (sci_shown 10). now apply ok_nth.
Qed.
Lemma DIFFU_again : (given #"diffusion" p = true -> DIFFU_ok p) -> given #"diffusion" p' = given #"diffusion" p /\
  (given #"diffusion" p = true -> DIFFU_ok p' /\ write_diffu p' = write_diffu p).
Proof.
  intros H. unfold given in *. destruct (not_none (val #"diffusion" p)) eqn:F.
  - pose proof (H eq_refl) as O. pose proof O as (sk & rows & G0 & FA).
    assert (G : dget #"diffusion" p' = Some (PSeq SList (map row_back rows))).
    { rewrite top_get by reflexivity. change (FILE_entry p #"diffusion") with (if not_none (val #"diffusion" p) then dget #"diffusion" (DIFFU_back p) else None). rewrite F.
      unfold DIFFU_back. rewrite (val_some _ _ _ G0). reflexivity. }
    pose proof (calm_entry _ _ _ C G0) as CR. rewrite Forall_forall in FA.
    assert (OK : DIFFU_ok p').
    { exists SList, (map row_back rows). split; [exact G|]. apply Forall_forall. intros x I. apply in_map_iff in I as (v & <- & I).
      destruct (FA v I) as [R P]. destruct (row_again v R (calm_seq _ _ CR v I)) as (R1 & _ & R3). split; [exact R1|]. fold present. change (existsb present (items (row_back v)) = true). now rewrite R3. }
    split; [now rewrite (val_some _ _ _ G)|]. intros _. split; [exact OK|].
    destruct (DIFFU_block p O) as [-> _]. destruct (DIFFU_block p' OK) as [-> _]. unfold diffu_lines. rewrite (val_some _ _ _ G), (val_some _ _ _ G0). cbn [items]. do 2 f_equal.
    rewrite map_map. apply map_ext_in. intros v I. destruct (FA v I) as [R P]. apply (row_again v R (calm_seq _ _ CR v I)).
  - split; [|discriminate].
    assert (G : dget #"diffusion" p' = Some PNone).
    { rewrite top_get by reflexivity. change (FILE_entry p #"diffusion") with (if not_none (val #"diffusion" p) then dget #"diffusion" (DIFFU_back p) else None). rewrite F. reflexivity. }
    now rewrite (val_some _ _ _ G).
Qed.
End Top.
