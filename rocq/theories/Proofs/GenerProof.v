(** The GENER block. *)
From Coq Require Import String Ascii ZArith Bool Lia List.
From Verif Require Import Base.Str Base.Digits Base.Flt Base.FltText.
From Verif Require Import Model.Py Model.Records Model.Write Model.Read.
From Verif Require Import Spec.Fields Spec.Values Spec.Types Spec.Layouts Spec.Rocks Spec.Flac Spec.Simple Spec.Labels Spec.Gener.
From Verif Require Import Proofs.RecordLemmas Proofs.DictLemmas Proofs.Stability Proofs.Layouts Proofs.Types Proofs.BlockTools Proofs.RocksProof Proofs.SimpleProof Proofs.LabelProof Proofs.MeshProof.
Import ListNotations.
Local Open Scope Z_scope.

Definition gi1 (n : nat) := fst (fst (gener_ints n)).
Definition gi2 (n : nat) := snd (fst (gener_ints n)).
Definition gi3 (n : nat) := snd (gener_ints n).
Definition cols_gener (n : nat) : list col :=
  [CText n; CText 5; CInt (gi1 n); CInt (gi2 n); CInt (gi3 n); CInt 5; CText 5; CText 4; CInt 1] ++ repeat (CSci 10 3) 3.
Lemma toks_gener n : cols_GENER n = cols_gener n.
Proof. unfold cols_GENER, cols_gener, gi1, gi2, gi3. destruct (gener_ints n) as [[a b] c]. reflexivity. Qed.
Definition colsT : list col := repeat (CSci 14 7) 4.

Definition gener_vals (x : pyval) (s : dict) : list pyval :=
  [x; val #"name" s; val #"nseq" s; val #"nadd" s; val #"nads" s;
   (if tabular s then PInt (Z.of_nat (steps_of s)) else PNone); PNone; val #"type" s;
   (if is_seq (val #"specific_enthalpy" s) then PInt 1 else PNone);
   (if tabular s then PNone else val #"rates" s); (if tabular s then PNone else val #"specific_enthalpy" s);
   val #"layer_thickness" s].
Definition gener_head (n : nat) (x : pyval) (s : dict) : str := rec_line (cols_gener n) (gener_vals x s).
Definition gener_tables (s : dict) : list str :=
  if tabular s then multi_lines colsT (items (val #"times" s)) ++ multi_lines colsT (items (val #"rates" s))
                    ++ (if with_enthalpy s then multi_lines colsT (items (val #"specific_enthalpy" s)) else [])
  else [].
Definition gener_lines (n : nat) (x : pyval) (s : dict) : list str := gener_head n x s :: gener_tables s.

(** ** The conditions on a source *)
Record source_facts (n : nat) (s : dict) : Prop := {
  sf_name : col_ok (CText 5) (val #"name" s) = true;
  sf_nseq : col_ok (CInt (gi1 n)) (val #"nseq" s) = true;
  sf_nadd : col_ok (CInt (gi2 n)) (val #"nadd" s) = true;
  sf_nads : col_ok (CInt (gi3 n)) (val #"nads" s) = true;
  sf_type : col_ok (CText 4) (val #"type" s) = true;
  sf_thick : fits 3 (val #"layer_thickness" s) = true;
  sf_table : if tabular s
     then (1 < steps_of s)%nat /\ Z.of_nat (steps_of s) < 100000
          /\ table_of (steps_of s) (val #"times" s) = true /\ table_of (steps_of s) (val #"rates" s) = true
          /\ (val #"specific_enthalpy" s = PNone \/ table_of (steps_of s) (val #"specific_enthalpy" s) = true)
     else val #"times" s = PNone /\ fits 3 (val #"rates" s) = true /\ fits 3 (val #"specific_enthalpy" s) = true }.
Lemma is_none_eq v : is_none v = true -> v = PNone. Proof. destruct v; try discriminate; auto. Qed.
Lemma source_spec n s : source_ok n s = true -> source_facts n s.
Proof.
  unfold source_ok. replace (gener_ints n) with (gi1 n, gi2 n, gi3 n) by (unfold gi1, gi2, gi3; now destruct (gener_ints n) as [[? ?] ?]).
  rewrite !andb_true_iff. intros ((((((H1 & H2) & H3) & H4) & H5) & H6) & H7). split; auto.
  destruct (tabular s).
  - rewrite !andb_true_iff, orb_true_iff, Nat.ltb_lt, Z.ltb_lt in H7. destruct H7 as ((((A & B) & C) & D) & [E|E]); repeat split; auto.
    left. now apply is_none_eq.
  - rewrite !andb_true_iff in H7. destruct H7 as ((A & B) & C). repeat split; auto. now apply is_none_eq.
Qed.
Lemma table_spec m v : table_of m v = true -> exists q l, v = PSeq q l /\ List.length l = m /\ Forall (fun v => num_fits 14 7 v = true) l.
Proof.
  unfold table_of. rewrite !andb_true_iff, Nat.eqb_eq. intros ((A & B) & C). destruct v; try discriminate.
  exists k, l. repeat split; auto. apply Forall_forall. now apply forallb_forall.
Qed.
Lemma fits_scalar k v : fits k v = true -> is_seq v = false.
Proof. destruct v; auto; discriminate. Qed.
Lemma steps_fit m : (Z.of_nat m < 100000) -> col_ok (CInt 5) (PInt (Z.of_nat m)) = true.
Proof.
  intros H. cbn [col_ok absent orb int_of]. apply andb_true_iff. split; [apply Z.ltb_lt; lia|].
  apply Nat.leb_le. apply print_Z_len5. lia.
Qed.

Lemma gener_rec_ok n x s : label_ok x = true -> (List.length x <= n)%nat -> source_facts n s ->
  rec_ok (cols_gener n) (gener_vals (PStr x) s) = true.
Proof.
  intros L W [H1 H2 H3 H4 H5 H6 H7]. unfold cols_gener, gener_vals. cbn [repeat app]. rewrite !rec_ok_cons.
  rewrite (label_ok_col n x), H1, H2, H3, H4, H5 by auto. cbn [rec_ok].
  assert (E : col_ok (CInt 1) (if is_seq (val #"specific_enthalpy" s) then PInt 1 else PNone) = true)
    by (destruct (is_seq _); reflexivity). rewrite E.
  unfold fits in *. rewrite H6. destruct (tabular s).
  - destruct H7 as (_ & B & _). rewrite steps_fit by auto. reflexivity.
  - destruct H7 as (_ & -> & ->). reflexivity.
Qed.

(** ** Writing *)
Definition same_fields (data s : dict) : Prop := forall k, In k gener_fields -> dgetE k data = Ok (val k s).
Ltac field := unfold gener_fields; cbn [In]; auto 20.
Lemma write_table l : Forall (fun v => num_fits 14 7 v = true) l ->
  write_record_multi l (str2format fmt_GENER_0 []) = Ok (multi_lines colsT l).
Proof. intros F. apply (nums_write fmt_GENER_0 14 7 4); auto. Qed.
Lemma fits_ndim v : is_seq v = false -> py_ndim v = Ok 0%nat.
Proof. destruct v; try discriminate; reflexivity. Qed.
Lemma write_generator_ok n x s data : label_ok x = true -> (List.length x <= n)%nat -> source_facts n s ->
  same_fields data s -> write_generator (toks (cols_gener n)) (KS x, data) = Ok (gener_lines n (PStr x) s).
Proof.
  intros L W F SF. pose proof (gener_rec_ok n x s L W F) as R. pose proof (sf_table _ _ F) as T. clear F.
  unfold write_generator. cbn [fst snd key_val]. rewrite !SF by field. cbn [bind].
  unfold gener_lines, gener_tables, gener_head, gener_vals in *.
  unfold with_enthalpy, steps_of, tabular in *.
  destruct (is_seq (val #"times" s)) eqn:TB.
  - destruct T as (M & _ & T1 & T2 & T3).
    destruct (table_spec _ _ T1) as (q1 & l1 & E1 & L1 & F1). rewrite E1 in *. cbn [items] in *.
    destruct (table_spec _ _ T2) as (q2 & l2 & E2 & L2 & F2). rewrite E2 in *. cbn [items mapM is_none is_seq guard bind py_len] in *.
    assert (MM : Nat.ltb 1 (List.length l1) = true) by now apply Nat.ltb_lt.
    destruct T3 as [E3|T3].
    + rewrite E3 in *. cbn [is_none is_seq negb andb not_none] in *. rewrite L2, MM, Nat.eqb_refl. cbn [andb guard bind mapM].
      destruct (List.length l1) eqn:EL; [lia|]. rewrite (write_record_ok _ (cols_gener n)) by auto. cbn [bind when py_seq andb].
      rewrite !write_table by auto. cbn [bind app]. rewrite !app_nil_r. reflexivity.
    + destruct (table_spec _ _ T3) as (q3 & l3 & E3 & L3 & F3). rewrite E3 in *. cbn [is_none is_seq negb andb not_none items py_len bind guard] in *.
      rewrite L2, L3, MM, Nat.eqb_refl. cbn [andb guard bind mapM].
      destruct (List.length l1) eqn:EL; [lia|]. rewrite (write_record_ok _ (cols_gener n)) by auto. cbn [bind when py_seq andb].
      rewrite !write_table by auto. cbn [bind app]. reflexivity.
  - destruct T as (E1 & T2 & T3). rewrite E1 in *. cbn [mapM].
    pose proof (fits_scalar _ _ T2) as S2. pose proof (fits_scalar _ _ T3) as S3. rewrite S3 in *.
    assert (G : forall v, is_seq v = false -> (if is_none v then Ok tt else let* n := py_ndim v in guard (Nat.eqb n 0) ValueError) = Ok tt).
    { intros v Hv. rewrite fits_ndim by auto. now destruct (is_none v). }
    rewrite !G by auto. cbn [bind]. rewrite (write_record_ok _ (cols_gener n)) by auto. reflexivity.
Qed.

(** One element: splitting its dictionary into sources. *)
Definition flat (v : pyval) : Prop := match v with PSeq _ l => Forall scalar l | _ => True end.
Lemma flat_ndim v : flat v -> exists m, py_ndim v = Ok m /\ Nat.leb m 1 = true.
Proof.
  destruct v; cbn [flat]; intros H; try (exists 0%nat; split; reflexivity).
  exists 1%nat. unfold py_ndim. rewrite flat_shape by auto. split; reflexivity.
Qed.
Lemma not_seq_flat v : is_seq v = false -> flat v. Proof. destruct v; try discriminate; exact (fun _ => I). Qed.
Lemma col_ok_flat c v : match c with CText _ | CInt _ | CSci _ _ => True | _ => False end -> col_ok c v = true -> flat v.
Proof. intros C H. apply not_seq_flat. destruct v; auto. destruct c; try contradiction; discriminate. Qed.
Lemma table_flat m v : table_of m v = true -> flat v.
Proof.
  intros H. destruct (table_spec _ _ H) as (q & l & -> & _ & F). cbn [flat]. rewrite Forall_forall in *.
  intros a Ha. apply (num_fits_scalar 14 7). now apply F.
Qed.
Lemma source_flat n s k : source_facts n s -> In k other_fields -> flat (val k s).
Proof.
  intros [H1 H2 H3 H4 H5 H6 H7] Hk. unfold other_fields in Hk. cbn [In] in Hk.
  assert (C : forall c v, match c with CText _ | CInt _ | CSci _ _ => True | _ => False end -> col_ok c v = true -> flat v) by apply col_ok_flat.
  repeat destruct Hk as [<-|Hk]; try contradiction;
    try (eapply (C (CText 5)); eauto; exact I); try (eapply (C (CInt _)); eauto; exact I); try (eapply (C (CSci 10 3)); eauto; exact I);
    destruct (tabular s).
  - destruct H7 as (_ & _ & A & _). eapply table_flat; eauto.
  - destruct H7 as (-> & _). exact I.
  - destruct H7 as (_ & _ & _ & A & _). eapply table_flat; eauto.
  - destruct H7 as (_ & A & _). apply not_seq_flat. eapply fits_scalar; eauto.
  - destruct H7 as (_ & _ & _ & _ & [->|A]); [exact I|]. eapply table_flat; eauto.
  - destruct H7 as (_ & _ & A). apply not_seq_flat. eapply fits_scalar; eauto.
Qed.

Lemma fields_get (f : key -> pyval) ks k : In k ks -> dget k (map (fun k => (k, f k)) ks) = Some (f k).
Proof.
  induction ks as [|a ks IH]; [contradiction|]. cbn [map dget]. intros H. destruct (key_eqb k a) eqn:E.
  - apply key_eqb_eq in E. now subst.
  - apply IH. destruct H as [->|H]; auto. now rewrite key_eqb_refl in E.
Qed.
Lemma fields_val (f : key -> pyval) ks k : In k ks -> val k (map (fun k => (k, f k)) ks) = f k.
Proof. intros H. unfold val. now rewrite fields_get. Qed.
Lemma d_gen_get g k : keys_unique g -> In k gener_fields -> dgetE k (dupdate d_generators g) = Ok (val k g).
Proof.
  intros U H. apply dgetE_none; auto. change d_generators with (map (fun k => (k, PNone)) gener_fields).
  now apply (fields_get (fun _ => PNone)).
Qed.
Lemma other_in k : In k other_fields -> In k gener_fields.
Proof. unfold other_fields, gener_fields. cbn [In]. tauto. Qed.

Lemma mapM_unit {A} (f : A -> res unit) l : (forall x, In x l -> f x = Ok tt) -> exists u, mapM f l = Ok u.
Proof. intros H. rewrite (mapM_ok f (fun _ => tt)) by auto. eauto. Qed.
Lemma split_generator_ok n x g : generator_ok n g ->
  exists datas, split_generator (KS x, PDict g) = Ok (map (fun d => (KS x, d)) datas) /\ Forall2 same_fields datas (sources g).
Proof.
  intros (U & T & TY & SO & _). unfold split_generator. cbn [fst snd as_dict bind].
  rewrite d_gen_get by (auto; field). cbn [bind]. unfold sources in *.
  destruct (val #"type" g) as [| | | | |ty|q l|] eqn:ET; try contradiction.
  - cbn [is_str]. cbn [forallb] in SO. rewrite andb_true_r in SO. apply source_spec in SO.
    match goal with |- context [mapM ?f ?l] => destruct (mapM_unit f l) as [u E] end.
    { intros k Hk. change gener_keys with other_fields in Hk. rewrite d_gen_get by (auto using other_in). cbn [bind].
      pose proof (source_flat _ _ _ SO Hk) as F. rewrite fields_val in F by auto using other_in.
      destruct (flat_ndim _ F) as (m & -> & M1). cbn [bind]. now rewrite M1. }
    rewrite E. cbn [bind]. exists [dupdate d_generators g]. split; [reflexivity|].
    constructor; [|constructor]. intros k Hk. rewrite d_gen_get by auto. now rewrite fields_val by auto.
  - cbn [is_str py_len bind]. destruct TY as [NE TY]. rewrite forallb_forall in TY.
    match goal with |- context [mapM ?f gener_keys] => destruct (mapM_unit f gener_keys) as [u E] end.
    { intros k Hk. change gener_keys with other_fields in Hk. rewrite d_gen_get by (auto using other_in). cbn [bind].
      specialize (TY k Hk). apply orb_true_iff in TY as [TY|TY]; [now rewrite TY|].
      apply andb_true_iff in TY as [S1 S2]. destruct (val k g); try discriminate. cbn [is_none is_seq guard bind py_len items] in *. now rewrite S2. }
    rewrite E. cbn [bind].
    exists (map (fun i => map (fun k => (k, nth i (items (val k g)) PNone)) (dkeys d_generators)) (seq 0 (List.length l))). split.
    + rewrite map_map. apply mapM_ok. intros i Hi. apply in_seq in Hi.
      rewrite (mapM_ok _ (fun k => (k, nth i (items (val k g)) PNone))); [reflexivity|].
      intros k Hk. change (dkeys d_generators) with gener_fields in Hk. rewrite d_gen_get by auto. cbn [bind].
      destruct (is_none (val k g)) eqn:N.
      * destruct (val k g); try discriminate. cbn [items bind]. now destruct i.
      * assert (X : exists q' l', val k g = PSeq q' l' /\ List.length l' = List.length l).
        { destruct (key_dec k #"type") as [->|NK]; [rewrite ET; eauto|].
          assert (Hk' : In k other_fields).
          { clear -Hk NK. unfold gener_fields, other_fields in *. cbn [In] in *. intuition congruence. }
          specialize (TY k Hk'). rewrite N in TY. cbn [orb] in TY. apply andb_true_iff in TY as [S1 S2].
          destruct (val k g); try discriminate. apply Nat.eqb_eq in S2. eauto. }
        destruct X as (q' & l' & -> & L'). cbn [index items].
        rewrite (nth_error_nth' l' PNone) by lia. reflexivity.
    + clear. induction (seq 0 (List.length l)) as [|i r IH]; cbn [map]; constructor; auto.
      intros k Hk. change (dkeys d_generators) with gener_fields. unfold dgetE. rewrite fields_get by auto. now rewrite fields_val by auto.
Qed.

(** ** The written block *)
Definition all_sources (d : dict) : list (key * dict) :=
  concat (map (fun kv => map (fun s => (fst kv, s)) (sources (entries (snd kv)))) d).
Definition gener_width (p : dict) : nat := label_width (generators_of p).
Definition source_lines (n : nat) (ks : key * dict) : list str := gener_lines n (key_val (fst ks)) (snd ks).
Definition GENER_body (p : dict) : list str :=
  concat (map (source_lines (gener_width p)) (all_sources (generators_of p))) ++ [[nl]].

Lemma concatM_ok2 {A B} (R : A -> B -> Prop) (f : A -> res (list str)) (g : B -> list str) xs ys :
  Forall2 R xs ys -> (forall x y, R x y -> In y ys -> f x = Ok (g y)) -> concatM f xs = Ok (concat (map g ys)).
Proof.
  intros F H. induction F as [|x y xs ys Rxy F IH]; auto. cbn [concatM map concat]. rewrite (H x y) by (auto; now left). cbn [bind].
  rewrite IH by (intros; apply H; auto; now right). reflexivity.
Qed.
Definition like (a b : key * dict) : Prop := fst a = fst b /\ same_fields (snd a) (snd b).
Lemma split_all n d : Forall (fun kv => exists s g, kv = (KS s, PDict g) /\ label_ok s = true /\ generator_ok n g) d ->
  exists gd, mapM split_generator d = Ok gd /\ Forall2 like (concat gd) (all_sources d).
Proof.
  induction d as [|kv d IH]; intros F; [exists []; split; [reflexivity|constructor]|].
  apply Forall_cons_iff in F as [(x & g & -> & L & G) F]. destruct (IH F) as (gd & E & R).
  destruct (split_generator_ok n x g G) as (datas & ED & RD). cbn [mapM]. rewrite ED, E. cbn [bind].
  eexists. split; [reflexivity|]. cbn [concat]. unfold all_sources. cbn [map concat fst snd entries].
  apply Forall2_app; auto. clear -RD. induction RD; cbn [map]; constructor; auto. split; auto.
Qed.

Lemma source_of d n ks : Forall (fun kv => exists s g, kv = (KS s, PDict g) /\ label_ok s = true /\ generator_ok n g) d ->
  In ks (all_sources d) ->
  exists x s g, ks = (KS x, s) /\ In (KS x, PDict g) d /\ In s (sources g) /\ label_ok x = true /\ generator_ok n g /\ source_facts n s.
Proof.
  intros F H. unfold all_sources in H. apply in_concat in H as (l & Hl & H). apply in_map_iff in Hl as (kv & <- & Hkv).
  rewrite Forall_forall in F. destruct (F kv Hkv) as (x & g & -> & L & G). cbn [fst snd entries] in H.
  apply in_map_iff in H as (s & <- & Hs). exists x, s, g. do 5 (split; [auto|]).
  destruct G as (_ & _ & _ & SO & _). rewrite forallb_forall in SO. now apply source_spec, SO.
Qed.
Lemma in_keys (d : dict) k v : In (k, v) d -> In k (dkeys d). Proof. intros H. apply (in_map fst) in H. exact H. Qed.

Lemma GENER_write p : GENER_ok p -> write_gener p = Ok (head ($"GENER") :: GENER_body p).
Proof.
  intros H. pose proof H as (G & NE & U & W & F). fold (gener_width p) in *.
  unfold write_gener. rewrite (check_list_ok dt_GENER kinds_GENER #"generators" p (generators_of p) st_GENER); auto.
  2:{ intros k v Hk. rewrite Forall_forall in F. destruct (F _ Hk) as (s & e & E & _ & (_ & T & _)). injection E as -> ->. exists e. auto. }
  cbn [bind]. unfold block, get_dict, dgetE at 1. rewrite G. cbn [bind as_dict].
  destruct (split_all _ _ F) as (gd & -> & R). cbn [bind].
  rewrite max_key_len_ok; auto.
  2:{ exact (labelled_names _ (fun s e => label_ok s = true /\ generator_ok (gener_width p) e) F). }
  cbn [bind]. rewrite f_GENER by (unfold gener_width in W; lia). cbn [bind]. rewrite toks_gener.
  rewrite (concatM_ok2 like _ (source_lines (gener_width p)) _ _ R); [reflexivity|].
  intros [k data] ks [K1 K2] Hks. destruct (source_of _ _ _ F Hks) as (x & s & g & -> & I & _ & L & _ & SF).
  cbn [fst snd] in *. subst k. unfold source_lines. cbn [fst snd key_val]. apply write_generator_ok; auto.
  apply label_width_le. eapply in_keys; eauto.
Qed.

Lemma GENER_good p : GENER_ok p -> Forall good_line (GENER_body p).
Proof.
  intros H. pose proof H as (G & NE & U & W & F). unfold GENER_body. apply Forall_app. split; [|constructor; auto using good_nl].
  apply Forall_concat. intros ks Hks. destruct (source_of _ _ _ F Hks) as (x & s & g & -> & I & _ & L & _ & SF).
  unfold source_lines, gener_lines. cbn [fst snd key_val]. constructor.
  - apply rec_line_good, gener_rec_ok; auto. apply label_width_le. eapply in_keys; eauto.
  - unfold gener_tables. pose proof (sf_table _ _ SF) as T. unfold with_enthalpy. destruct (tabular s); [|constructor].
    destruct T as (_ & _ & T1 & T2 & T3).
    assert (TG : forall v, table_of (steps_of s) v = true -> Forall good_line (multi_lines colsT (items v))).
    { intros v Hv. destruct (table_spec _ _ Hv) as (q & l & -> & _ & FF). apply multi_good; auto. }
    apply Forall_app. split; [now apply TG|]. apply Forall_app. split; [now apply TG|].
    destruct T3 as [->|T3]; [constructor|]. destruct (negb _); [now apply TG|constructor].
Qed.

(** ** Reading *)
Definition raw (s : dict) : dict := map (fun kv => (fst kv, PSeq SList [snd kv])) (source_back s).
Definition appended (old s : dict) : dict :=
  map (fun kv => (fst kv, PSeq SList (items (snd kv) ++ [val (fst kv) (source_back s)]))) old.
Definition add_source (st : dict) (ks : key * dict) : dict :=
  match dget (fst ks) st with
  | Some (PDict old) => dset (fst ks) (PDict (appended old (snd ks))) st
  | _ => dset (fst ks) (PDict (raw (snd ks))) st
  end.
Definition mergeable (st : dict) (ks : key * dict) : Prop :=
  match dget (fst ks) st with
  | None => True
  | Some (PDict old) => dkeys old = dkeys (source_back (snd ks)) /\ Forall (fun kv => is_seq (snd kv) = true) old
  | Some _ => False
  end.
Lemma raw_get s k : In k (dkeys (source_back s)) -> dget k (raw s) = Some (PSeq SList [val k (source_back s)]).
Proof.
  unfold raw, val. induction (source_back s) as [|[a v] d IH]; [contradiction|]. cbn [map dkeys dget fst snd].
  intros H. destruct (key_eqb k a) eqn:E; auto. apply IH. destruct H as [<-|H]; auto. now rewrite key_eqb_refl in E.
Qed.
Lemma append_ok old s : dkeys old = dkeys (source_back s) -> Forall (fun kv => is_seq (snd kv) = true) old ->
  append_generator old (raw s) = Ok (appended old s).
Proof.
  intros K F. unfold append_generator, appended. apply mapM_ok. intros [k v] H. cbn [fst snd].
  unfold dgetE. rewrite raw_get by (rewrite <- K; eapply in_keys; eauto). cbn [bind].
  rewrite Forall_forall in F. specialize (F _ H). cbn [snd] in F. destruct v; try discriminate. reflexivity.
Qed.
Lemma read_one_table l r : Forall (fun v => num_fits 14 7 v = true) l ->
  read_table (List.length (multi_lines colsT l ++ r)) fmt_GENER_0 (Z.of_nat (List.length l)) [] (multi_lines colsT l ++ r)
  = Ok (map (sci 7) l, r).
Proof.
  intros F. apply (read_table_ok fmt_GENER_0 14 7 4 l eq_refl ltac:(lia) F _ []). rewrite app_length. unfold colsT. lia.
Qed.
Lemma read_generator_ok n fmt x s st r : fmt = Ok (toks (cols_gener n)) -> label_ok x = true -> (List.length x <= n)%nat ->
  source_facts n s -> mergeable st (KS x, s) ->
  read_generator fmt st (source_lines n (KS x, s) ++ r) = Ok (true, add_source st (KS x, s), r).
Proof.
  intros -> L W F M. pose proof (gener_rec_ok n x s L W F) as R. pose proof (sf_table _ _ F) as T.
  unfold source_lines, gener_lines. cbn [fst snd key_val app]. unfold read_generator. cbn [next bind].
  assert (B : blank (gener_head n (PStr x) s) = false).
  { apply rec_line_not_blank; [now apply label_ok_col|now apply label_ok_nonempty]. }
  rewrite B. unfold gener_head. rewrite (read_record_ok _ (cols_gener n)) by auto. cbn [bind].
  unfold gener_vals, cols_gener. cbn [repeat app]. rewrite !rec_val_cons. cbn [rec_val at_ nth].
  rewrite label_back by auto. cbn [val_key bind].
  match goal with |- (let* (_, _) := ?m in _) = _ => assert (E : m = Ok (raw s, r)) end.
  { unfold gener_tables, raw, source_back. unfold with_enthalpy. destruct (tabular s) eqn:TB.
    - destruct T as (M1 & _ & T1 & T2 & T3). cbn [col_val int_of].
      replace (1 <? Z.of_nat (steps_of s)) with true by (symmetry; apply Z.ltb_lt; lia).
      destruct (table_spec _ _ T1) as (q1 & l1 & E1 & L1 & F1). rewrite E1.
      destruct (table_spec _ _ T2) as (q2 & l2 & E2 & L2 & F2). rewrite E2. cbn [items table_back].
      destruct T3 as [E3|T3].
      + rewrite E3. cbn [is_none is_seq negb andb col_val int_of truthy bind app read_tables]. rewrite !app_nil_r, <- !app_assoc.
        rewrite <- L1 at 1. rewrite read_one_table by auto. cbn [bind].
        rewrite <- L2 at 1. rewrite read_one_table by auto. cbn [bind]. reflexivity.
      + destruct (table_spec _ _ T3) as (q3 & l3 & E3 & L3 & F3). rewrite E3.
        cbn [is_none is_seq negb andb col_val int_of truthy bind app read_tables items table_back]. rewrite <- !app_assoc.
        change (negb (1 =? 0)) with true. cbn [app read_tables].
        rewrite <- L1 at 1. rewrite read_one_table by auto. cbn [bind].
        rewrite <- L2 at 1. rewrite read_one_table by auto. cbn [bind].
        rewrite <- L3 at 1. rewrite read_one_table by auto. cbn [bind]. reflexivity.
    - destruct T as (E1 & T2 & T3). rewrite E1. cbn [andb negb col_val int_of app].
      pose proof (fits_scalar _ _ T2) as S2. pose proof (fits_scalar _ _ T3) as S3.
      assert (TBK : forall v, is_seq v = false -> table_back v = sci 3 v) by (intros []; try discriminate; reflexivity).
      rewrite !TBK by auto. reflexivity. }
  rewrite E. cbn [bind]. unfold add_source, mergeable in *. cbn [fst snd] in *.
  destruct (dget (KS x) st) as [[| | | | | | |old]|]; try contradiction; [|reflexivity].
  destruct M as [M1 M2]. rewrite append_ok by auto. reflexivity.
Qed.

Lemma iter_lines_prefix {St X} (step : St -> list str -> res (bool * St * list str))
    (recs : X -> list str) (upd : St -> X -> St) (stop : str) rest :
  (forall st r, step st (stop :: r) = Ok (false, st, r)) ->
  forall xs st,
  (forall d x todo r, xs = d ++ x :: todo -> step (fold_left upd d st) (recs x ++ r) = Ok (true, upd (fold_left upd d st) x, r)) ->
  forall fuel, (List.length xs < fuel)%nat ->
  iter_lines fuel step st (concat (map recs xs) ++ stop :: rest) = Ok (fold_left upd xs st, rest).
Proof.
  intros He. induction xs as [|x xs IH]; intros st H fuel F.
  - destruct fuel; [simpl in F; lia|]. cbn [map concat app iter_lines]. rewrite He. reflexivity.
  - destruct fuel; [simpl in F; lia|]. cbn [map concat app iter_lines fold_left].
    rewrite <- app_assoc, (H [] x xs) by reflexivity. cbn [bind fold_left].
    apply IH; [|simpl in F; lia]. intros d y todo r ->. apply (H (x :: d) y todo r). reflexivity.
Qed.

Lemma back_keys s s' : with_enthalpy s = with_enthalpy s' -> dkeys (source_back s) = dkeys (source_back s').
Proof. intros E. unfold source_back. rewrite E. unfold dkeys. rewrite !map_app. f_equal. now destruct (with_enthalpy s'). Qed.

Lemma fold_inv xs k v : dget k (fold_left add_source xs []) = Some v ->
  exists s old, In (k, s) xs /\ v = PDict old /\ dkeys old = dkeys (source_back s) /\ Forall (fun kv => is_seq (snd kv) = true) old.
Proof.
  revert k v. induction xs as [|[k s] xs IH] using rev_ind; [discriminate|]. intros k' v. rewrite fold_left_app. cbn [fold_left].
  set (st := fold_left add_source xs []) in *. unfold add_source. cbn [fst snd].
  assert (N : dget k' (dset k (PDict (raw s)) st) = Some v -> (forall w, dget k st = Some w -> is_dict w = false) ->
     exists s0 old, In (k', s0) (xs ++ [(k, s)]) /\ v = PDict old /\ dkeys old = dkeys (source_back s0) /\ Forall (fun kv => is_seq (snd kv) = true) old).
  { rewrite dget_dset. intros H _. destruct (key_eqb k' k) eqn:E.
    - apply key_eqb_eq in E. subst k'. injection H as <-. exists s, (raw s). split; [apply in_or_app; right; now left|].
      split; auto. split.
      + unfold raw, dkeys. now rewrite map_map.
      + unfold raw. apply Forall_forall. intros kv Hkv. apply in_map_iff in Hkv as (? & <- & _). reflexivity.
    - destruct (IH _ _ H) as (s0 & old & I & E0). exists s0, old. split; [apply in_or_app; now left|auto]. }
  destruct (dget k st) as [w|] eqn:G.
  - destruct (IH _ _ G) as (s0 & old & I & -> & K & F).
    rewrite dget_dset. intros H. destruct (key_eqb k' k) eqn:E.
    + apply key_eqb_eq in E. subst k'. injection H as <-. exists s0, (appended old s). split; [apply in_or_app; now left|].
      split; auto. split.
      * rewrite <- K. unfold appended, dkeys. now rewrite map_map.
      * unfold appended. apply Forall_forall. intros kv Hkv. apply in_map_iff in Hkv as (? & <- & _). reflexivity.
    + destruct (IH _ _ H) as (s1 & old1 & I1 & E1). exists s1, old1. split; [apply in_or_app; now left|auto].
  - intros H. apply N; auto. discriminate.
Qed.

Lemma generator_uniform n g s s' : generator_ok n g -> In s (sources g) -> In s' (sources g) -> with_enthalpy s = with_enthalpy s'.
Proof.
  intros (_ & _ & _ & _ & [H|H]) A B; rewrite forallb_forall in H; pose proof (H _ A); pose proof (H _ B); [congruence|].
  destruct (with_enthalpy s), (with_enthalpy s'); discriminate || auto.
Qed.
Lemma gener_mergeable p d x todo : GENER_ok p -> all_sources (generators_of p) = d ++ x :: todo ->
  mergeable (fold_left add_source d []) x.
Proof.
  intros (_ & _ & U & _ & F) E. unfold mergeable.
  destruct (dget (fst x) (fold_left add_source d [])) as [v|] eqn:G; [|exact I].
  destruct (fold_inv _ _ _ G) as (s & old & I & -> & K & Q). split; auto. rewrite K. apply back_keys.
  assert (A : In (fst x, s) (all_sources (generators_of p))) by (rewrite E; apply in_or_app; now left).
  assert (B : In x (all_sources (generators_of p))) by (rewrite E; apply in_or_app; right; now left).
  destruct (source_of _ _ _ F A) as (y & s1 & g1 & E1 & I1 & J1 & _ & G1 & _).
  destruct (source_of _ _ _ F B) as (y' & s2 & g2 & E2 & I2 & J2 & _ & G2 & _). subst x. cbn [fst snd] in *.
  injection E1 as <- <-. apply (in_dget _ _ _ U) in I1. apply (in_dget _ _ _ U) in I2. rewrite I1 in I2. injection I2 as <-.
  exact (generator_uniform _ _ _ _ G1 J1 J2).
Qed.

Definition merged (l : list dict) : dict :=
  map (fun k => (k, PSeq SList (map (fun s => val k (source_back s)) l))) (dkeys (source_back (hd [] l))).
Lemma dset_last k v w st : dget k st = None -> dset k v (st ++ [(k, w)]) = st ++ [(k, v)].
Proof.
  induction st as [|[a b] st IH]; cbn [app dget dset].
  - now rewrite key_eqb_refl.
  - destruct (key_eqb k a) eqn:E; [discriminate|]. intros H. rewrite IH; auto.
Qed.
Lemma dget_last k w st : dget k st = None -> dget k (st ++ [(k, w)]) = Some w.
Proof. intros H. rewrite dget_app, H. cbn [dget]. now rewrite key_eqb_refl. Qed.
Lemma raw_merged s : raw s = merged [s].
Proof. unfold raw, merged. cbn [hd map]. unfold source_back. destruct (with_enthalpy s); reflexivity. Qed.
Lemma fold_element k s ss st : dget k st = None ->
  fold_left add_source (map (fun s => (k, s)) (s :: ss)) st = st ++ [(k, PDict (merged (s :: ss)))].
Proof.
  intros G. induction ss as [|s' ss IH] using rev_ind.
  - cbn [map fold_left]. unfold add_source. cbn [fst snd]. rewrite G, dset_fresh, raw_merged by auto. reflexivity.
  - change (s :: ss ++ [s']) with ((s :: ss) ++ [s']). rewrite map_app, fold_left_app, IH. cbn [map fold_left].
    unfold add_source. cbn [fst snd]. rewrite dget_last, dset_last by auto. do 4 f_equal.
    unfold appended, merged. rewrite map_map. apply map_ext. intros kk. cbn [fst snd items]. now rewrite map_app.
Qed.
Lemma fold_all d st : keys_unique d -> (forall k, In k (dkeys d) -> dget k st = None) ->
  (forall kv, In kv d -> sources (entries (snd kv)) <> []) ->
  fold_left add_source (all_sources d) st = st ++ map (fun kv => (fst kv, PDict (merged (sources (entries (snd kv)))))) d.
Proof.
  revert st. induction d as [|[k v] d IH]; intros st U H NE.
  - cbn. now rewrite app_nil_r.
  - unfold all_sources in *. cbn [map concat fst snd]. rewrite fold_left_app.
    pose proof (NE (k, v) (or_introl eq_refl)) as N0. cbn [snd] in N0. destruct (sources (entries v)) as [|s ss]; [congruence|].
    rewrite fold_element by (apply H; now left). unfold keys_unique in U. cbn [dkeys map fst] in U. inversion_clear U as [|? ? U1 U2].
    rewrite IH; auto.
    + rewrite <- app_assoc. reflexivity.
    + intros k' Hk'. rewrite dget_app, H by now right. cbn [dget]. destruct (key_eqb k' k) eqn:E; auto.
      apply key_eqb_eq in E. subst. contradiction.
    + intros kv Hkv. apply NE. now right.
Qed.

Lemma sources_nonempty n g : generator_ok n g -> sources g <> [].
Proof.
  intros (_ & _ & T & _). unfold sources. destruct (val #"type" g); try contradiction; [discriminate|].
  destruct T as [T _]. destruct l; [congruence|discriminate].
Qed.
Lemma several_tidy vs : tidy_value (PSeq SList vs) = several vs.
Proof. destruct vs as [|v [|w vs]]; reflexivity. Qed.

Lemma GENER_len p ll rest : GENER_ok p -> GENER_known ll p -> label_len ll (GENER_body p ++ rest) = Ok (gener_width p).
Proof.
  intros H K. pose proof H as (G & NE & U & W & F). unfold GENER_known in K. unfold GENER_body.
  destruct (generators_of p) as [|kv d] eqn:ED; [congruence|].
  pose proof F as F'. apply Forall_cons_iff in F' as [(x & g & -> & L & GO) _].
  pose proof (sources_nonempty _ _ GO) as SN. cbn [key_text entries] in K.
  assert (X : exists s ss, sources g = s :: ss) by (destruct (sources g) as [|s ss]; [congruence|eauto]). destruct X as (s & ss & ES).
  rewrite ES in K. cbn [hd] in K.
  unfold all_sources. cbn [map concat fst snd entries]. rewrite ES. cbn [map app concat source_lines fst snd key_val gener_lines].
  assert (Ls : (List.length x <= gener_width p)%nat).
  { unfold gener_width. rewrite ED. apply label_width_le. now left. }
  assert (SF : source_facts (gener_width p) s).
  { destruct GO as (_ & _ & _ & SO & _). rewrite ES in SO. cbn [forallb] in SO. apply andb_true_iff in SO as [SO _].
    apply source_spec. unfold gener_width. now rewrite ED. }
  destruct (rec_line_label (gener_width p) (tl (cols_gener (gener_width p))) x (tl (gener_vals (PStr x) s)) Ls) as [tail ET].
  change (rec_line (CText (gener_width p) :: tl (cols_gener (gener_width p))) (PStr x :: tl (gener_vals (PStr x) s)))
    with (gener_head (gener_width p) (PStr x) s) in ET.
  unfold source_lines at 1. cbn [fst snd key_val]. unfold gener_lines. cbn [app].
  apply (label_len_known ll (gener_width p) x (match val #"name" s with PStr (c :: _) => is_digit c | _ => false end) _
    (cols_text (tl (cols_gener (gener_width p))) (tl (gener_vals (PStr x) s)) ++ tail)).
  - unfold gener_width. now rewrite ED.
  - unfold gener_width. rewrite ED. exact K.
  - intros LE. rewrite ET, ljust_full by auto. reflexivity.
  - intros D. pose proof (sf_name _ _ SF) as N. cbn [cols_gener gener_vals app tl cols_text]. rewrite <- app_assoc.
    cbn [col_ok] in N. apply orb_true_iff in N as [N|N].
    + destruct (val #"name" s) as [| | | | |[|]| |]; try discriminate; reflexivity.
    + destruct (val #"name" s) as [| | | | |[|c nm]| |]; try discriminate; [reflexivity|].
      unfold col_text. rewrite spec_text. cbv [to_str no_ge py_format sp_t sp_right sp_w sp_p trunc].
      cbn [firstn ljust app]. exact D.
Qed.

Lemma GENER_block p : GENER_ok p ->
  write_gener p = Ok (head ($"GENER") :: GENER_body p) /\ Forall good_line (GENER_body p) /\
  forall ll q rest, GENER_known ll p ->
    read_block ll (head ($"GENER")) q (GENER_body p ++ rest) = Ok (true, dupdate q (GENER_back p), rest).
Proof.
  intros H. split; [now apply GENER_write|]. split; [now apply GENER_good|].
  intros ll q rest K. at_block. unfold read_gener. rewrite GENER_len by auto. cbn [bind].
  pose proof H as (G & NE & U & W & F).
  assert (IL : iter_lines (S (List.length (GENER_body p ++ rest))) (read_generator (fmt_GENER (gener_width p))) [] (GENER_body p ++ rest)
    = Ok (fold_left add_source (all_sources (generators_of p)) [], rest)).
  { unfold GENER_body. rewrite <- app_assoc. cbn [app].
    apply (iter_lines_prefix (read_generator (fmt_GENER (gener_width p))) (source_lines (gener_width p)) add_source).
    - intros st r. reflexivity.
    - intros d x todo r E. pose proof (gener_mergeable p d x todo H E) as M.
      assert (B : In x (all_sources (generators_of p))) by (rewrite E; apply in_or_app; right; now left).
      destruct (source_of _ _ _ F B) as (y & s & g & -> & I1 & J1 & L & G1 & SF).
      apply read_generator_ok; auto.
      + rewrite <- toks_gener. now apply f_GENER.
      + apply label_width_le. eapply in_keys; eauto.
    - rewrite app_length.
      pose proof (concat_len_ge (source_lines (gener_width p)) (all_sources (generators_of p))) as C.
      enough (List.length (all_sources (generators_of p)) <= List.length (concat (map (source_lines (gener_width p)) (all_sources (generators_of p)))))%nat by lia.
      apply C. intros ks _. discriminate. }
  rewrite IL. cbn [bind]. rewrite fold_all; auto.
  2:{ intros kv Hkv. rewrite Forall_forall in F. destruct (F _ Hkv) as (x & g & -> & _ & GO). cbn [snd entries]. eapply sources_nonempty; eauto. }
  cbn [app]. rewrite map_map. cbn [fst snd].
  rewrite (prune_values_map (fun kv => fst kv) (fun kv => map (fun x => (fst x, tidy_value (snd x))) (merged (sources (entries (snd kv)))))).
  unfold GENER_back, generators_back. do 7 f_equal. apply map_ext. intros kv. rewrite known_prune. do 2 f_equal.
  unfold generator_back. f_equal. unfold merged. rewrite map_map. apply map_ext. intros k. cbn [fst snd]. now rewrite several_tidy.
Qed.
