(** The blocks of a file written a second time: ROCKS, RPCAP and INDOM. *)
From Coq Require Import String Ascii ZArith Bool Lia FinFun List.
From Verif Require Import Base.Str Base.Digits Base.Flt Base.FltText Base.FltInt.
From Verif Require Import Model.Py Model.Records Model.Write Model.Read.
From Verif Require Import Spec.Fields Spec.Values Spec.Types Spec.Layouts Spec.Rocks Spec.Flac Spec.Simple Spec.Param
  Spec.Indom Spec.Outpu Spec.Labels Spec.Mesh Spec.Incon Spec.Gener Spec.File Spec.Again.
From Verif Require Import Proofs.RecordLemmas Proofs.DictLemmas Proofs.BlockTools Proofs.Stability Proofs.RocksProof Proofs.FlacProof Proofs.TwoLines Proofs.IndomProof
  Proofs.FileProof Proofs.FileKeys Proofs.AgainCols Proofs.AgainPrep Proofs.AgainRocks.
Import ListNotations.
Local Open Scope Z_scope.

Lemma full_order_all o (d : dict) : Forall (fun x => exists s, x = PStr s) o -> dkeys d = map name_key o -> full_order (PSeq SList o) d = o.
Proof.
  intros F K. unfold full_order. transitivity (o ++ []); [f_equal|apply app_nil_r]. rewrite K.
  assert (E : map key_val (map name_key o) = o).
  { rewrite map_map. clear K. induction F as [|x o (s & ->) F IH]; auto. cbn [map name_key key_val]. now rewrite IH. }
  rewrite E. clear E K. assert (X : forall l, (forall x, In x l -> In x o) -> filter (fun x => negb (existsb (simple_eqb x) o)) l = []).
  { induction l as [|x l IH]; intros I; auto. cbn [filter].
    assert (Y : existsb (simple_eqb x) o = true).
    { apply existsb_exists. exists x. split; [apply I; now left|]. rewrite Forall_forall in F. destruct (F x) as (s & ->); [apply I; now left|].
      cbn [simple_eqb]. now apply streqb_eq. }
    rewrite Y. cbn [negb]. apply IH. intros y J. apply I. now right. }
  now apply X.
Qed.

Section Rocks.
Variables p p' : dict.
Hypothesis R : ROCKS_ok p.
Hypothesis C : calm (PDict p) = true.
Hypothesis A : again p p'.
Notation o := (rocks_order_of p).

Lemma order_texts : Forall (fun x => exists s, x = PStr s) o.
Proof. apply Forall_forall. intros x I. destruct (ROCKS_item p x R I) as (s & r & -> & _). eauto. Qed.
Lemma order_again : dget #"rocks_order" p' = Some (PSeq SList o).
Proof. rewrite (ag_top p p' A) by (cbn; intros [X|[X|[X|[]]]]; discriminate). reflexivity. Qed.
Lemma rocks_again_keys : dget #"rocks" p' = Some (PDict (rocks_of p')) /\ dkeys (rocks_of p') = map name_key o.
Proof. destruct (ag_rocks p p' A) as (rs & E & K & _). unfold rocks_of. rewrite (val_some _ _ _ E). auto. Qed.
Lemma order_again_of : rocks_order_of p' = o.
Proof. unfold rocks_order_of at 1. rewrite (val_some _ _ _ order_again). apply full_order_all; [apply order_texts|apply rocks_again_keys]. Qed.
Lemma rock_again_of x : In x o -> exists s r r', x = PStr s /\ name_ok 5 s = true /\ rock_named (rocks_of p) x = r /\ rock_ok r = true /\
  calm (PDict r) = true /\ In (KS s, PDict r) (rocks_of p) /\
  dget (KS s) (rocks_of p') = Some (PDict r') /\ rock_named (rocks_of p') x = r' /\ second p r r'.
Proof.
  intros I. destruct (ROCKS_item p x R I) as (s & r & -> & G & N & NO & RO).
  destruct (ag_rocks p p' A) as (rs & E & K & F). destruct (F _ I) as (r' & G' & U' & L).
  assert (EQ : rocks_of p' = rs) by (unfold rocks_of; now rewrite (val_some _ _ _ E)).
  exists s, r, r'. rewrite EQ. split; [reflexivity|]. split; [exact NO|]. split; [exact N|]. split; [exact RO|]. split.
  { destruct R as (_ & RR & _). pose proof (calm_entry _ _ _ C RR) as CR. exact (calm_entry _ _ _ CR G). }
  split; [now apply dget_in|]. split; [exact G'|]. split.
  - unfold rock_named. cbn [name_key] in G'. now rewrite (val_some _ _ _ G').
  - rewrite <- N. now apply rock_second.
Qed.
Lemma rock_pair kv : In kv (rocks_of p') -> exists x, In x o /\ fst kv = name_key x /\ dget (name_key x) (rocks_of p') = Some (snd kv).
Proof.
  destruct rocks_again_keys as [_ K]. intros I. assert (J : In (fst kv) (dkeys (rocks_of p'))) by (unfold dkeys; now apply in_map).
  rewrite K in J. apply in_map_iff in J as (x & E & J). exists x. repeat split; auto. rewrite E. apply in_dget; [|now destruct kv].
  unfold keys_unique. rewrite K. apply name_keys_nodup; [now apply ROCKS_names|apply R|apply R].
Qed.
Lemma default_again : exists def, dget #"default" p' = Some (PDict def) /\ keys_unique def /\ well_typed kinds_ROCKS def = true /\
  (forall k, In k model_keys -> exists m, dget k def = Some (PDict m)) /\
  forall k, dget k def = pick (dget k (default_read p)) (dget k rock_defaults).
Proof.
  destruct (ag_default p p' A) as (def & E & U & L). exists def.
  assert (MO : forall k, In k model_keys -> exists m, dget k def = Some (PDict m)).
  { intros k I. rewrite L. unfold default_read. rewrite dget_dupdate by (unfold conditions_back; destruct (trim _); apply no_dup_keys_ok; reflexivity).
    assert (E1 : dget k (conditions_back p) = None).
    { unfold conditions_back. destruct (trim _); [reflexivity|]. cbn [model_keys In] in I. destruct I as [<-|[<-|[]]]; reflexivity. }
    rewrite E1. assert (E2 : exists m, dget k rock_defaults = Some (PDict m)) by (cbn [model_keys In] in I; destruct I as [<-|[<-|[]]]; eexists; reflexivity).
    destruct (rpcap_given p); [|exact E2]. destruct (dget k (models_back (default_of p))) as [v|] eqn:V; [|exact E2]. cbn [pick].
    apply dget_in in V. unfold models_back in V. apply in_flat_map in V as (k' & _ & V). destruct (dget k' (default_of p)) as [[]|]; try contradiction.
    destruct (is_none _); [contradiction|]. destruct V as [V|[]]. unfold model_back in V. apply (f_equal snd) in V. cbn [snd] in V. subst v. eauto. }
  repeat split; auto. apply typed_by; auto. intros k kd v I G.
  destruct (existsb (key_eqb k) rock_own) eqn:O.
  - apply existsb_exists in O as (k' & O & Q). apply key_eqb_eq in Q. subst k'. cbn [rock_own In] in O. destruct O as [<-|O].
    + rewrite L in G. unfold default_read in G. rewrite dget_dupdate in G by (unfold conditions_back; destruct (trim _); apply no_dup_keys_ok; reflexivity).
      assert (X : is_seq v = true).
      { unfold conditions_back in G. destruct (trim _) as [|a l].
        - cbn [dget] in G. assert (N : dget #"initial_condition" (if rpcap_given p then models_back (default_of p) else []) = None).
          { destruct (rpcap_given p); [|reflexivity]. apply models_back_none. intros [J|[J|[]]]; discriminate. }
          rewrite N in G. vm_compute in G. injection G as <-. reflexivity.
        - change (dget #"initial_condition" [(#"initial_condition", PSeq SList (a :: l))]) with (Some (PSeq SList (a :: l))) in G. cbn [pick] in G. injection G as <-. reflexivity. }
      cbn [kinds_ROCKS same_kind map app In] in I. repeat (destruct I as [I|I]; [apply pair_equal_spec in I as [I <-]; try discriminate I; cbn [of_kind]; now rewrite X, ?orb_true_r|]). destruct I.
    + destruct (MO k O) as (m & M). rewrite M in G. assert (v = PDict m) by congruence. subst v.
      destruct O as [<-|[<-|[]]]; cbn [kinds_ROCKS same_kind map app In] in I; repeat (destruct I as [I|I]; [apply pair_equal_spec in I as [I <-]; try discriminate I; reflexivity|]); destruct I.
  - assert (D : dget k (default_read p) = None).
    { destruct (dget k (default_read p)) eqn:D; auto. assert (M : dmem k (default_read p) = true) by (unfold dmem; now rewrite D).
      apply default_read_own in M. congruence. }
    rewrite L, D in G. cbn [pick] in G.
    cbn [kinds_ROCKS same_kind map app In] in I. repeat (destruct I as [I|I]; [apply pair_equal_spec in I as [<- <-]; try discriminate O; vm_compute in G; injection G as <-; reflexivity|]). destruct I.
Qed.

Hypothesis ST : Forall (fun kv => rock_steady (entries (snd kv)) = true) (rocks_of p).
Lemma ROCKS_again : ROCKS_ok p' /\ ROCKS_body p' = ROCKS_body p.
Proof.
  destruct rocks_again_keys as [G K]. rewrite Forall_forall in ST.
  assert (E : forall x, In x o -> exists s r r', x = PStr s /\ name_ok 5 s = true /\ rock_named (rocks_of p) x = r /\ rock_named (rocks_of p') x = r' /\
      dget (KS s) (rocks_of p') = Some (PDict r') /\ rock_ok r' = true /\ rock_recs s r' = rock_recs s r).
  { intros x I. destruct (rock_again_of x I) as (s & r & r' & -> & N & R1 & RO & CR & IN & G' & R2 & S).
    destruct (rock_again p r r' RO CR (ST _ IN) S) as [O1 O2]. exists s, r, r'. repeat split; auto. }
  split.
  - repeat split; auto.
    + destruct default_again as (def & D & _ & T & _). eauto.
    + unfold dmem. now rewrite order_again.
    + rewrite (val_some _ _ _ order_again). cbn [order_ok]. repeat split; auto.
      * destruct R as (_ & _ & _ & O & U & _). apply (full_order_nodup _ _ (ROCKS_names p R) U O).
      * apply Forall_forall. intros x I. destruct (ROCKS_item p x R I) as (s & r & -> & _). exists s. split; auto.
        rewrite K. change (KS s) with (name_key (PStr s)). now apply in_map.
    + unfold keys_unique. rewrite K. apply name_keys_nodup; [now apply ROCKS_names|apply R|apply R].
    + apply Forall_forall. intros kv I. destruct (rock_pair kv I) as (x & J & F & V).
      destruct (E x J) as (s & r & r' & -> & N & _ & _ & G' & RO & _). exists s, r'. repeat split; auto.
      cbn [name_key] in F, V. destruct kv as [k v]. cbn [fst snd] in *. subst k. f_equal. congruence.
  - unfold ROCKS_body. rewrite order_again_of. do 2 f_equal. apply map_ext_in. intros x I.
    destruct (E x I) as (s & r & r' & -> & N & R1 & R2 & _ & _ & Q). rewrite R1, R2. exact Q.
Qed.
End Rocks.

(** ** Values on one or two records *)
Lemma same_at c n a b : (forall i, (i < n)%nat -> same c (nth i a PNone) (nth i b PNone)) -> same_rec (repeat c n) a b.
Proof.
  intros H i c' E. assert (L : (i < n)%nat) by (rewrite <- (repeat_length c n); apply nth_error_Some; congruence).
  apply nth_error_In, repeat_spec in E. subst c'. auto.
Qed.
Lemma nth_skipn {A} (d : A) n : forall l i, nth i (skipn n l) d = nth (n + i) l d.
Proof. induction n as [|n IH]; intros [|x l] i; auto; [now destruct i|]. cbn. apply IH. Qed.
Lemma trim_length l : (List.length (trim l) <= List.length l)%nat.
Proof. induction l as [|x l IH]; auto. cbn [trim]. destruct (trim l); cbn [List.length] in *; destruct (is_none x); cbn [List.length]; lia. Qed.
Lemma trim_forallb f l : forallb f l = true -> forallb f (trim l) = true.
Proof.
  induction l as [|x l IH]; auto. cbn [forallb trim]. intros H. apply andb_true_iff in H as [H1 H2]. specialize (IH H2).
  destruct (trim l); [destruct (is_none x); cbn; now rewrite ?H1|]. cbn [forallb] in *. now rewrite H1.
Qed.
Lemma existsb_nth (f : pyval -> bool) l : f PNone = false -> (existsb f l = true <-> exists i, f (nth i l PNone) = true).
Proof.
  intros N. rewrite existsb_exists. split.
  - intros (x & I & F). destruct (In_nth _ _ PNone I) as (i & _ & E). exists i. now rewrite E.
  - intros (i & F). destruct (nth_in_or_default i l PNone) as [I|E]; [eauto|congruence].
Qed.
Lemma existsb_same (f : pyval -> bool) a b : f PNone = false -> (forall i, f (nth i a PNone) = f (nth i b PNone)) -> existsb f a = existsb f b.
Proof. intros N H. apply eq_true_iff_eq. rewrite !existsb_nth by auto. split; intros (i & E); exists i; congruence. Qed.
Lemma sci_shown w k v : col_ok (CSci w k) v = true -> present (sci k v) = present v.
Proof.
  unfold present, sci. cbn [col_ok col_val]. destruct v as [|b|z|z|x|s| |]; try discriminate; try reflexivity. now destruct s.
Qed.
Lemma sci_no_text w k v : col_ok (CSci w k) v = true -> is_str v = false -> not_none (sci k v) = not_none v.
Proof. unfold sci. cbn [col_ok col_val]. destruct v as [|b|z|z|x|s| |]; try discriminate; reflexivity. Qed.
Lemma long_nth l : (exists i, (4 <= i)%nat /\ nth i l PNone <> PNone) -> long l = true.
Proof.
  intros (i & L & N). unfold long. apply Nat.ltb_lt. destruct (Nat.lt_ge_cases i (List.length l)); [lia|].
  exfalso. apply N. now apply nth_overflow.
Qed.
Lemma values_same l : values_ok l = true -> forallb calm l = true ->
  let l' := trim (map (sci 13) l) in values_ok l' = true /\ long l' = long l /\ value_lines l' = value_lines l.
Proof.
  intros V C l'. apply values_spec in V as (L & F & P).
  assert (N : forall i, nth i l' PNone = sci 13 (nth i l PNone)) by (intros i; unfold l'; now rewrite nth_trim, nth_map_sci).
  assert (S : forall i, same (CSci 20 13) (nth i l PNone) (nth i l' PNone)).
  { intros i. rewrite N. apply same_sci; [lia|now apply ok_nth|now apply calm_nth]. }
  assert (PR : existsb present (skipn 4 l') = existsb present (skipn 4 l)).
  { apply existsb_same; [reflexivity|]. intros i. rewrite !nth_skipn, N. apply (sci_shown 20). now apply ok_nth. }
  assert (LL : long l' = long l).
  { destruct (long l) eqn:E.
    - apply long_nth. specialize (P eq_refl). rewrite <- PR in P. apply existsb_nth in P as (i & Q); [|reflexivity].
      rewrite nth_skipn in Q. exists (4 + i)%nat. split; [lia|]. intros Z. rewrite Z in Q. discriminate.
    - unfold long in *. apply Nat.ltb_ge in E. apply Nat.ltb_ge. unfold l'. pose proof (trim_length (map (sci 13) l)) as T. rewrite map_length in T. lia. }
  repeat split; auto.
  - unfold values_ok. rewrite LL, PR, !andb_true_iff, Nat.leb_le. repeat split.
    + unfold l'. pose proof (trim_length (map (sci 13) l)) as T. rewrite map_length in T. lia.
    + apply trim_forallb. apply forallb_forall. intros x I. apply in_map_iff in I as (v & <- & I).
      destruct (In_nth _ _ PNone I) as (i & _ & <-). rewrite <- N. apply S.
    + destruct (long l); auto; try (now rewrite P).
  - unfold value_lines. rewrite LL. f_equal.
    + apply same_line; [cbv; lia|now apply cols4_ok, forallb_firstn|]. apply same_at. intros i I. rewrite !nth_firstn_lt by auto. apply S.
    + destruct (long l); auto. f_equal. apply same_line; [cbv; lia|now apply cols4_ok, forallb_skipn|]. apply same_at. intros i I. rewrite !nth_skipn. apply S.
Qed.

Section Models.
Variables p p' : dict.
Hypothesis R : ROCKS_ok p.
Hypothesis C : calm (PDict p) = true.
Hypothesis A : again p p'.
Hypothesis M : RPCAP_ok p.
Hypothesis D : rpcap_given p = true -> default_steady (default_of p) = true.

Lemma id_known m : model_ok 5 3 (PDict m) = true -> is_none (model_id m) = negb (not_none (val #"id" m)).
Proof.
  unfold model_ok, model_id. rewrite !andb_true_iff. intros (((((T & _) & _) & _) & _) & _).
  pose proof (typed_at kinds_MODEL m #"id" Integer T eq_refl) as X. cbn [col_val]. destruct (val #"id" m); try discriminate; reflexivity.
Qed.
Lemma RPCAP_again : RPCAP_ok p' /\ rpcap_given p' = rpcap_given p /\ (rpcap_given p = true -> write_rpcap p' = write_rpcap p).
Proof.
  destruct M as (def & G & U & F). destruct (default_again p p' A) as (def' & G' & U' & T' & MO & L). rewrite forallb_forall in F.
  assert (DO : default_of p = def) by (unfold default_of; now rewrite (val_some _ _ _ G)).
  assert (DO' : default_of p' = def') by (unfold default_of; now rewrite (val_some _ _ _ G')).
  assert (CD : calm (PDict def) = true) by exact (calm_entry _ _ _ C G).
  assert (X : forall k, In k model_keys -> exists m m', dget k def = Some (PDict m) /\ dget k def' = Some (PDict m') /\ model_ok 5 3 (PDict m) = true /\
     model_ok 5 3 (PDict m') = true /\ (rpcap_given p = true -> model_given def' k = model_given def k /\ model_line def' k = model_line def k) /\
     (rpcap_given p = false -> model_given def' k = false)).
  { intros k I. specialize (F k I). destruct (dget k def) as [m|] eqn:Gm; [|discriminate]. destruct m as [| | | | | | |m]; try discriminate.
    exists m. assert (E1 : dget k def' = pick (if rpcap_given p then (if is_none (model_id m) then None else Some (model_back m)) else None) (Some (bare_model PNone))).
    { rewrite L. unfold default_read. rewrite dget_dupdate by (unfold conditions_back; destruct (trim _); apply no_dup_keys_ok; reflexivity).
      assert (E1 : dget k (conditions_back p) = None).
      { unfold conditions_back. destruct (trim _); [reflexivity|]. cbn [model_keys In] in I. destruct I as [<-|[<-|[]]]; reflexivity. }
      rewrite E1. assert (E2 : dget k rock_defaults = Some (bare_model PNone)) by (cbn [model_keys In] in I; destruct I as [<-|[<-|[]]]; reflexivity).
      rewrite E2. f_equal. destruct (rpcap_given p); [|reflexivity]. rewrite DO. clear - I Gm F.
      rewrite models_back_eq, dget_app. unfold model_back1. cbn [model_keys In] in I. destruct I as [<-|[<-|[]]]; rewrite Gm.
      - destruct (is_none (model_id m)); [|reflexivity]. destruct (dget #"capillarity" def) as [[| | | | | | |m']|]; try destruct (is_none (model_id m')); reflexivity.
      - destruct (dget #"relative_permeability" def) as [[| | | | | | |m']|]; try destruct (is_none (model_id m')); destruct (is_none (model_id m)); reflexivity. }
    destruct (rpcap_given p) eqn:RG.
    - destruct (is_none (model_id m)) eqn:N.
      + exists [(#"id", PNone); (#"parameters", PSeq SList [])]. repeat split; auto.
        * unfold model_given. rewrite (val_some _ _ _ E1), (val_some _ _ _ Gm). rewrite id_known in N by auto. apply negb_true_iff in N. cbn [entries]. rewrite N. reflexivity.
        * unfold model_line. rewrite E1, Gm. pose proof (model_rec_ok (PDict m) m eq_refl F) as RO.
          apply same_line; [cbv; lia|exact RO|]. rewrite id_known in N by auto. apply negb_true_iff in N.
          unfold model_vals, cols_RPCAP in *. rewrite !rec_ok_cons in RO. apply andb_true_iff in RO as [_ RO]. apply andb_true_iff in RO as [_ RO].
          specialize (D eq_refl). unfold default_steady in D. rewrite forallb_forall in D. specialize (D k I). rewrite DO, Gm in D. unfold has_id in D. cbn [entries] in D. rewrite N in D. cbn [orb] in D.
          assert (IDN : val #"id" m = PNone) by (destruct (val #"id" m); discriminate || reflexivity). rewrite IDN.
          apply same_rec_cons; [now apply same_none|]. apply same_rec_cons; [now apply same_none|].
          apply same_at. intros i Li. rewrite rec_ok_repeat in RO.
          assert (AB : absent (nth i (items (val #"parameters" m)) PNone) = true).
          { rewrite <- (nth_firstn_lt PNone 7) by auto. destruct (nth_in_or_default i (firstn 7 (items (val #"parameters" m))) PNone) as [J| ->]; [|reflexivity].
            rewrite forallb_forall in D. auto. }
          replace (nth i (items (val #"parameters" [(#"id", PNone); (#"parameters", PSeq SList [])])) PNone) with PNone by (destruct i; reflexivity).
          destruct (nth i (items (val #"parameters" m)) PNone) as [| | | | |[|]| |]; try discriminate AB; split; reflexivity.
        * discriminate.
      + unfold model_back in E1. eexists. split; [reflexivity|]. split; [exact E1|]. destruct (model_back_same m F (calm_entry _ _ _ CD Gm) _ eq_refl) as [B1 B2].
        split; [exact F|]. split; [exact B1|]. split; [|discriminate]. intros _. split.
        * unfold model_given. rewrite (val_some _ _ _ E1), (val_some _ _ _ Gm). cbn [entries].
          rewrite id_known in N by auto. apply negb_false_iff in N. rewrite N. unfold val, dget. change (key_eqb #"id" #"id") with true. cbv iota.
          destruct (model_id m) eqn:Z; try reflexivity. pose proof (id_known m F) as Y. rewrite Z, N in Y. discriminate.
        * unfold model_line. rewrite E1, Gm. exact B2.
    - exists [(#"id", PNone); (#"parameters", PSeq SList [])]. repeat split; auto; try discriminate.
      intros _. unfold model_given. rewrite (val_some _ _ _ E1). reflexivity. }
  assert (OK : RPCAP_ok p').
  { exists def'. repeat split; auto. apply forallb_forall. intros k I. destruct (X k I) as (m & m' & _ & -> & _ & Q & _). exact Q. }
  split; [exact OK|]. split.
  - destruct (rpcap_given p) eqn:RG.
    + rewrite <- RG. unfold rpcap_given. rewrite DO, DO'. apply existsb_ext_in. intros k I. destruct (X k I) as (m & m' & _ & _ & _ & _ & Q & _). now apply Q.
    + unfold rpcap_given. rewrite DO'. apply not_true_is_false. intros E. apply existsb_exists in E as (k & I & E). destruct (X k I) as (m & m' & _ & _ & _ & _ & _ & Q). now rewrite Q in E.
  - intros RG. destruct (RPCAP_block p def G M) as [-> _]. destruct (RPCAP_block p' def' G' OK) as [-> _]. do 2 f_equal.
    unfold model_lines. apply map_ext_in. intros k I. destruct (X k I) as (m & m' & _ & _ & _ & _ & Q & _). now apply Q.
Qed.
End Models.

Section Indom.
Variables p p' : dict.
Hypothesis R : ROCKS_ok p.
Hypothesis C : calm (PDict p) = true.
Hypothesis A : again p p'.
Hypothesis IC : Forall (fun kv => match dget #"initial_condition" (entries (snd kv)) with None | Some (PSeq _ _) => True | _ => False end) (rocks_of p).
Hypothesis I : indom_given p = true -> INDOM_ok p.
Hypothesis T : indom_given p = true -> Forall (fun kv => no_texts (condition_of (entries (snd kv))) = true) (rocks_of p).

Lemma condition_again x : In x (rocks_order_of p) -> rock_cond p' x =
  if indom_given p && has_condition (rock_named (rocks_of p) x) then trim (map (sci 13) (rock_cond p x)) else [].
Proof.
  intros J. destruct (rock_again_of p p' R C A x J) as (s & r & r' & -> & N & R1 & RO & CR & IN & G' & R2 & S).
  unfold rock_cond. rewrite R1, R2. unfold condition_of at 1, val. rewrite (se_cond p r r' S).
  destruct (indom_given p && has_condition r); reflexivity.
Qed.
Lemma condition_first l : forallb (col_ok (CSci 20 13)) l = true -> no_texts l = true ->
  existsb not_none (trim (map (sci 13) l)) = existsb not_none l /\ existsb not_none (firstn 4 (trim (map (sci 13) l))) = existsb not_none (firstn 4 l).
Proof.
  intros F N.
  assert (E : forall i, not_none (nth i (trim (map (sci 13) l)) PNone) = not_none (nth i l PNone)).
  { intros i. rewrite nth_trim, nth_map_sci. apply (sci_no_text 20); [now apply ok_nth|].
    destruct (nth_in_or_default i l PNone) as [J| ->]; [|reflexivity]. unfold no_texts in N. rewrite forallb_forall in N. now apply negb_true_iff, N. }
  split; apply existsb_same; try reflexivity; auto. intros i. destruct (Nat.lt_ge_cases i 4) as [L|L].
  - rewrite !nth_firstn_lt by auto. apply E.
  - rewrite !nth_overflow by (rewrite firstn_length; lia). reflexivity.
Qed.
Lemma rocks_cases (f : dict -> bool) q : (forall kv, In kv (rocks_of q) -> exists x, In x (rocks_order_of p) /\ entries (snd kv) = rock_named (rocks_of q) x) ->
  (forall x, In x (rocks_order_of p) -> exists kv, In kv (rocks_of q) /\ entries (snd kv) = rock_named (rocks_of q) x) ->
  existsb (fun kv => f (entries (snd kv))) (rocks_of q) = existsb (fun x => f (rock_named (rocks_of q) x)) (rocks_order_of p).
Proof.
  intros H1 H2. apply eq_true_iff_eq. rewrite !existsb_exists. split.
  - intros (kv & J & F). destruct (H1 kv J) as (x & X & E). exists x. now rewrite <- E.
  - intros (x & J & F). destruct (H2 x J) as (kv & X & E). exists kv. now rewrite E.
Qed.
Lemma INDOM_again : indom_given p' = indom_given p /\ (indom_given p = true -> INDOM_ok p' /\ INDOM_body p' = INDOM_body p) /\
  Forall (fun kv => match dget #"initial_condition" (entries (snd kv)) with None | Some (PSeq _ _) => True | _ => False end) (rocks_of p').
Proof.
  assert (KO : forall x, In x (rocks_order_of p) -> exists kv, In kv (rocks_of p') /\ entries (snd kv) = rock_named (rocks_of p') x).
  { intros x J. destruct (rock_again_of p p' R C A x J) as (s & r & r' & -> & N & R1 & RO & CR & IN & G' & R2 & S).
    exists (KS s, PDict r'). split; [now apply dget_in|now rewrite R2]. }
  assert (OK : forall kv, In kv (rocks_of p') -> exists x, In x (rocks_order_of p) /\ entries (snd kv) = rock_named (rocks_of p') x).
  { intros kv J. destruct (rock_pair p p' R A kv J) as (x & X & E & G). exists x. split; auto.
    destruct (ROCKS_item p x R X) as (s & r & -> & _). unfold rock_named. cbn [name_key] in G. now rewrite (val_some _ _ _ G). }
  assert (KO1 : forall x, In x (rocks_order_of p) -> exists kv, In kv (rocks_of p) /\ entries (snd kv) = rock_named (rocks_of p) x).
  { intros x J. destruct (rock_again_of p p' R C A x J) as (s & r & r' & -> & N & R1 & RO & CR & IN & G' & R2 & S).
    exists (KS s, PDict r). split; [exact IN|now rewrite R1]. }
  assert (OK1 : forall kv, In kv (rocks_of p) -> exists x, In x (rocks_order_of p) /\ entries (snd kv) = rock_named (rocks_of p) x).
  { intros [k v] J. pose proof R as (_ & _ & _ & O & U & F). rewrite Forall_forall in F. destruct (F _ J) as (s & r & E & _). injection E as -> ->.
    exists (PStr s). split.
    - unfold rocks_order_of, full_order. assert (IK : In (PStr s) (map key_val (dkeys (rocks_of p)))).
      { change (PStr s) with (key_val (KS s)). apply in_map. unfold dkeys. change (KS s) with (fst (KS s, PDict r)). now apply in_map. }
      destruct (val #"rocks_order" p) as [| | | | | |sk l|]; try exact IK. apply in_or_app.
      destruct (existsb (simple_eqb (PStr s)) l) eqn:X; [left|right; apply filter_In; now rewrite X].
      apply existsb_exists in X as (y & Y & Q). destruct y; try discriminate. cbn [simple_eqb] in Q. apply streqb_eq in Q. now subst.
    - unfold rock_named. pose proof (in_dget _ _ _ U J) as G. now rewrite (val_some _ _ _ G). }
  assert (IC' : Forall (fun kv => match dget #"initial_condition" (entries (snd kv)) with None | Some (PSeq _ _) => True | _ => False end) (rocks_of p')).
  { apply Forall_forall. intros kv J. destruct (OK kv J) as (x & X & ->).
    destruct (rock_again_of p p' R C A x X) as (s & r & r' & -> & N & R1 & RO & CR & IN & G' & R2 & S). rewrite R2, (se_cond p r r' S).
    destruct (indom_given p && has_condition r); exact Logic.I. }
  destruct (indom_given p) eqn:IG.
  - specialize (I eq_refl). specialize (T eq_refl). rewrite Forall_forall in T.
    assert (CO : forall x, In x (rocks_order_of p) -> has_condition (rock_named (rocks_of p') x) = has_condition (rock_named (rocks_of p) x) /\
        existsb not_none (firstn 4 (rock_cond p' x)) = existsb not_none (firstn 4 (rock_cond p x)) /\
        (has_condition (rock_named (rocks_of p) x) = true -> rock_cond p' x = trim (map (sci 13) (rock_cond p x)) /\ values_ok (rock_cond p x) = true /\ forallb calm (rock_cond p x) = true)).
    { intros x J. pose proof (condition_again x J) as E. rewrite IG in E. cbn [andb] in E.
      destruct (INDOM_item p x I J) as (s & r & -> & G & N & _ & V). rewrite N in *.
      assert (TX : no_texts (rock_cond p (PStr s)) = true).
      { unfold rock_cond. rewrite N. apply (T (KS s, PDict r)). now apply dget_in. }
      unfold rock_cond in *. rewrite N in *. destruct (has_condition r) eqn:H.
      - destruct (V eq_refl) as (_ & _ & VO). pose proof VO as VO'. apply values_spec in VO as (_ & F & _).
        destruct (condition_first (condition_of r) F TX) as [F1 F2]. rewrite E. repeat split; auto.
        + unfold has_condition at 1. rewrite E, F1. exact H.
        + destruct (rock_again_of p p' R C A (PStr s) J) as (s' & r0 & r' & Q & _ & R1 & _ & CR & _). rewrite N in R1. subst r0. apply calm_items. now apply calm_val.
      - rewrite E. repeat split; try discriminate.
        + unfold has_condition at 1. now rewrite E.
        + symmetry. apply not_true_is_false. intros Q. cbn [firstn existsb]. unfold has_condition in H. apply existsb_exists in Q as (v & W & Q).
          assert (existsb not_none (condition_of r) = true); [|congruence]. apply existsb_exists. exists v. split; auto. rewrite <- (firstn_skipn 4 (condition_of r)). apply in_or_app. now left. }
    assert (IR : indom_rocks p' = indom_rocks p).
    { unfold indom_rocks. rewrite (order_again_of p p' R A). apply filter_ext_in. intros x J. apply CO. exact J. }
    assert (VV : forall x, In x (indom_rocks p) -> values_ok (rock_cond p' x) = true /\ long (rock_cond p' x) = long (rock_cond p x) /\ value_lines (rock_cond p' x) = value_lines (rock_cond p x)).
    { intros x J. unfold indom_rocks in J. apply filter_In in J as [J H]. destruct (CO x J) as (_ & _ & Q). destruct (Q H) as (-> & VO & CA).
      now apply values_same. }
    split; [|split; [|exact IC']].
    + rewrite <- IG. unfold indom_given. rewrite (rocks_cases (fun r => existsb not_none (firstn 4 (condition_of r))) p' OK KO), (rocks_cases (fun r => existsb not_none (firstn 4 (condition_of r))) p OK1 KO1).
      apply existsb_ext_in. intros x J. apply (CO x J).
    + intros _. split.
      * destruct (rocks_again_keys p p' A) as [G K]. pose proof (order_again p p' A) as OA. repeat split; auto.
        -- unfold dmem. now rewrite OA.
        -- rewrite (val_some _ _ _ OA). cbn [order_ok]. repeat split; auto.
           ++ destruct R as (_ & _ & _ & O & U & _). apply (full_order_nodup _ _ (ROCKS_names p R) U O).
           ++ apply Forall_forall. intros x J. destruct (ROCKS_item p x R J) as (s & r & -> & _). exists s. split; auto.
              rewrite K. change (KS s) with (name_key (PStr s)). now apply in_map.
        -- rewrite (val_some _ _ _ OA). exact Logic.I.
        -- unfold keys_unique. rewrite K. apply name_keys_nodup; [now apply ROCKS_names|apply R|apply R].
        -- apply Forall_forall. intros kv J. rewrite Forall_forall in IC'. pose proof (IC' kv J) as Q. destruct (rock_pair p p' R A kv J) as (x & X & E & GX).
           destruct (rock_again_of p p' R C A x X) as (s & r & r' & -> & N & R1 & RO & CR & IN & G' & R2 & S).
           exists s, r'. destruct kv as [k v]. cbn [fst snd name_key] in *. assert (v = PDict r') by congruence. subst k v. split; [reflexivity|]. split; [exact Q|].
           intros H. destruct (INDOM_item p _ I X) as (s0 & r0 & E0 & _ & N0 & _ & V0). injection E0 as <-. rewrite R1 in N0. subst r0.
           assert (H0 : has_condition r = true) by (destruct (CO _ X) as (Q1 & _); rewrite R1, R2 in Q1; congruence).
           destruct (V0 H0) as (W1 & W2 & _). repeat split; auto.
           destruct (VV (PStr s)) as (W3 & _); [unfold indom_rocks; apply filter_In; rewrite R1; auto|]. unfold rock_cond in W3. now rewrite R2 in W3.
        -- rewrite IR. destruct I as (_ & _ & _ & _ & _ & _ & L). rewrite <- L. f_equal. apply map_ext_in. intros x J. apply (VV x J).
      * unfold INDOM_body. rewrite IR. do 2 f_equal. apply map_ext_in. intros x J. unfold indom_lines, entry_lines. f_equal. apply (VV x J).
  - split; [|split; [discriminate|exact IC']].
    unfold indom_given. rewrite (rocks_cases (fun r => existsb not_none (firstn 4 (condition_of r))) p' OK KO).
    apply not_true_is_false. intros E. apply existsb_exists in E as (x & J & E). pose proof (condition_again x J) as Q. rewrite IG in Q. cbn [andb] in Q. unfold rock_cond in Q.
    rewrite Q in E. discriminate.
Qed.
End Indom.
