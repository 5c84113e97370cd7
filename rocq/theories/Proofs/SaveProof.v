(** SAVE files read as outputs. *)
From Coq Require Import String Ascii ZArith Bool Lia Permutation List.
From Verif Require Import Base.Str Base.Digits Base.Flt Base.FltText.
From Verif Require Import Model.Py Model.Records Model.Write Model.Read Model.Dispatch Model.Output Model.Save.
From Verif Require Import Spec.Fields Spec.Values Spec.Types Spec.Layouts Spec.Rocks Spec.Flac Spec.Simple Spec.Labels Spec.Indom
  Spec.Incon Spec.File Spec.Save.
From Verif Require Import Proofs.RecordLemmas Proofs.DictLemmas Proofs.Layouts Proofs.Types Proofs.BlockTools Proofs.RocksProof Proofs.SimpleProof Proofs.TwoLines
  Proofs.IndomProof Proofs.LabelProof Proofs.MeshProof Proofs.WordProof Proofs.InconProof Proofs.FileProof Proofs.RecognizeProof
  Proofs.ReorderProof Proofs.CellText.
Import ListNotations.
Local Open Scope Z_scope.

Definition save_entries (p : dict) : list str := concat (map (incon_lines p) (incons_order_of p)).
Lemma stop_line stop : strip stop = [] \/ startswith $"+++" stop = true -> blank stop || plus3 stop = true.
Proof.
  unfold blank, plus3. intros [-> | ->]; [reflexivity|apply orb_true_r].
Qed.

Lemma save_len ll p stop rest : INCON_ok p -> INCON_known ll p -> incons_order_of p <> [] ->
  label_len ll (save_entries p ++ stop :: rest) = Ok (label_width (incons_of p)).
Proof.
  intros H K NE. unfold INCON_known, first_known in K. unfold save_entries.
  pose proof (INCON_item p) as I. destruct (incons_order_of p) as [|x xs]; [congruence|].
  destruct (I x H (or_introl eq_refl)) as (s & e & -> & Ge & E & Ls & L & Wd & EO).
  cbn [map concat app incon_lines entry_lines]. unfold incon_headline. rewrite E. cbn [name_key key_text] in K.
  pose proof H as (_ & _ & _ & _ & _ & W & _).
  destruct (incon_head_text (incon_width p) s e Ls W) as [w ET].
  apply (label_len_known ll _ s _ _ (spaces 1 ++ w) _ W K).
  - intros LE. exact ET.
  - intros D. reflexivity.
Qed.

Lemma save_conditions ll p stop rest : INCON_ok p -> INCON_known ll p -> blank stop || plus3 stop = true ->
  read_incon ll (save_entries p ++ stop :: rest) = Ok (INCON_back p, rest).
Proof.
  intros H K T. unfold read_incon.
  assert (X : exists m, label_len ll (save_entries p ++ stop :: rest) = Ok m /\ (incons_order_of p <> [] -> m = label_width (incons_of p))).
  { destruct (incons_order_of p) eqn:E.
    - unfold save_entries. rewrite E. cbn [map concat app]. unfold label_len. cbn [next bind]. eexists. split; [reflexivity|congruence].
    - eexists. split; [apply save_len; auto; rewrite E; congruence|auto]. }
  destruct X as (m & -> & Hm). cbn [bind].
  pose proof H as (_ & _ & _ & U & O & W & F & LF).
  destruct (entries_read (A := dict * list pyval) (read_initial (fmt_INCON m)) (incon_headline p) (incon_values p)
      (add_named (incon_named p)) (fun l => blank l || plus3 l) (stop :: rest) rest) with
    (xs := incons_order_of p) (fuel := S (List.length (save_entries p ++ stop :: rest))) (acc := (@nil (key * pyval), @nil pyval)) (two := true)
    as (two' & E).
  - eexists _, _. split; [reflexivity|exact T].
  - intros [[d o] t]. unfold read_initial. cbn [next bind]. now rewrite T.
  - apply Forall_forall. intros x Hx. apply INCON_entry_ok; auto.
    rewrite Hm by (intros X; rewrite X in Hx; contradiction). rewrite <- toks_incon. now apply f_INCON.
  - unfold save_entries. rewrite !app_length. pose proof (concat_len (incon_lines p) (incons_order_of p)) as C.
    enough (List.length (incons_order_of p) <= List.length (concat (map (incon_lines p) (incons_order_of p))))%nat by lia.
    apply C. intros x. unfold incon_lines, entry_lines. congruence.
  - rewrite <- LF. f_equal. apply map_ext. intros x. apply values_w_long.
  - rewrite fold_named in E by (apply order_list_nodup; auto using INCON_names).
    match goal with |- context [iter_lines ?a ?b ?c ?d] => match type of E with _ = ?r => replace (iter_lines a b c d) with r by (symmetry; exact E) end end.
    cbn [bind]. unfold incon_named. rewrite prune_values_map. unfold INCON_back, incons_back. do 5 f_equal.
    apply map_ext. intros x. now rewrite known_prune.
Qed.

(** ** The frame *)
Lemma starts_app kw s : startswith kw s = true -> exists r, s = kw ++ r.
Proof.
  revert s. induction kw as [|c kw IH]; intros s H; [now exists s|]. destruct s as [|d s]; [discriminate|].
  cbn [startswith] in H. apply andb_true_iff in H as [E H]. apply Ascii.eqb_eq in E as ->. destruct (IH _ H) as (r & ->). now exists r.
Qed.
Lemma strip_incon title : startswith $"INCON" title = true -> exists t, strip title = $"INCON" ++ t.
Proof.
  intros H. destruct (starts_app _ _ H) as (r & ->). unfold strip. change (lstrip ($"INCON" ++ r)) with ($"INCO" ++ "N"%char :: r).
  destruct (rstrip_keeps $"INCO" "N"%char r eq_refl) as (t & ->). now exists t.
Qed.
Lemma incon_line_block ll title q ls : startswith $"INCON" title = true ->
  read_block ll title q ls = (let* (d, ls) := read_incon ll ls in Ok (true, dupdate q d, ls)).
Proof. intros H. destruct (starts_app _ _ H) as (r & ->). reflexivity. Qed.
Lemma save_lines_good p title stop rest : INCON_ok p -> save_frame title stop rest ->
  Forall good_line (title :: save_entries p ++ stop :: rest).
Proof.
  intros H (T1 & T2 & S1 & S2 & R). constructor; [exact T2|]. apply Forall_app. split.
  - pose proof (INCON_good p H) as G. unfold INCON_body in G. now apply Forall_app in G as [G _].
  - constructor; [exact S2|]. eapply Forall_impl; [|exact R]. intros l [_ E]. exact E.
Qed.
Lemma save_run ll q p title stop rest tail r : INCON_ok p -> INCON_known ll p -> save_frame title stop rest ->
  Run ll (dupdate q (INCON_back p)) tail r -> Run ll q (title :: save_entries p ++ stop :: rest ++ tail) r.
Proof.
  intros H K (T1 & T2 & S1 & S2 & R) X. eapply Run_step.
  - rewrite incon_line_block by auto. rewrite save_conditions by (auto using stop_line). cbn [bind]. reflexivity.
  - rewrite !app_length. cbn [List.length]. rewrite app_length. lia.
  - clear -R X. induction R as [|l rest [H _] F IH]; [exact X|]. cbn [app].
    eapply Run_step; [|reflexivity|exact IH]. unfold read_block. rewrite !(not_block l) by (auto; unfold block_names; cbn [In]; tauto). reflexivity.
Qed.
Lemma read_text_ok fuel ll t : label_choice ll -> read_text fuel ll t = read_buffer fuel (label_given ll) t.
Proof.
  intros LC. unfold read_text, label_given. destruct ll as [z|]; [|reflexivity]. cbn [label_choice] in LC.
  assert (E : (5 <=? z) && (z <? 10) = true) by (apply andb_true_iff; split; [apply Z.leb_le|apply Z.ltb_lt]; lia). now rewrite E.
Qed.
Lemma save_text_read fuel ll p title stop rest : INCON_ok p -> label_choice ll -> INCON_known (label_given ll) p -> save_frame title stop rest ->
  read_text fuel ll (concat (title :: save_entries p ++ stop :: rest)) = Ok (INCON_back p).
Proof.
  intros H C K F. pose proof (save_lines_good p title stop rest H F) as G. pose proof F as (T1 & _).
  rewrite (read_text_ok fuel ll _ C). unfold read_buffer. rewrite lines_all by exact G.
  assert (T : read_title fuel (title :: save_entries p ++ stop :: rest) = Ok []).
  { unfold read_title. cbn [Read.readline]. destruct (strip_incon title T1) as (t & ->). reflexivity. }
  rewrite T. cbn [bind].
  assert (X : Run (label_given ll) [] (title :: save_entries p ++ stop :: rest) (Ok (INCON_back p))).
  { rewrite <- (app_nil_r rest). apply save_run; auto. intros [|n] L; reflexivity. }
  apply X. reflexivity.
Qed.
Lemma save_recognized p title stop rest : INCON_ok p -> save_frame title stop rest ->
  get_output_type (lines (concat (title :: save_entries p ++ stop :: rest))) = Ok (Element, FSave).
Proof.
  intros H F. pose proof (save_lines_good p title stop rest H F) as G. destruct F as (T1 & _).
  rewrite lines_all by exact G. unfold get_output_type. cbn [Output.readline]. destruct (strip_incon title T1) as (t & ->). reflexivity.
Qed.

(** ** Tables of columns that are functions of the label *)
Definition over (labels : list str) (cols : list (str * (str -> pyval))) : table (list pyval) :=
  map (fun c => (fst c, map (snd c) labels)) cols.
Lemma pick_map {B} (f : str -> B) own idx labels : Forall2 (fun i l => nth_error own i = Some l) idx labels ->
  Output.pick idx (map f own) = Ok (map f labels).
Proof.
  unfold Output.pick. induction 1 as [|i l idx labels H F IH]; [reflexivity|]. cbn [mapM].
  rewrite (map_nth_error f _ _ H). cbn [bind]. rewrite IH. reflexivity.
Qed.
Lemma picks own labels : Permutation own labels -> exists idx,
  mapM (fun l => match last_index l own with Some i => Ok i | None => Err KeyError end) labels = Ok idx /\
  Forall2 (fun i l => nth_error own i = Some l) idx labels.
Proof.
  intros P. assert (I : forall l, In l labels -> In l own) by (intros; eapply Permutation_in; [symmetry; exact P|auto]).
  clear P. induction labels as [|l r IH]; [now exists []|]. destruct IH as (idx & E & F); [intros; apply I; now right|].
  cbn [mapM]. destruct (last_index l own) as [i|] eqn:X.
  - rewrite E. cbn [bind]. exists (i :: idx). split; [reflexivity|]. constructor; auto. now apply last_index_some.
  - apply last_index_none in X. exfalso. apply X, I. now left.
Qed.
Lemma reorder_over t fmt own labels cols : Permutation own labels ->
  reorder_saved (Saved t fmt own (over own cols)) labels = Ok (Saved t fmt labels (over labels cols)).
Proof.
  intros P. unfold reorder_saved. cbn [sv_type sv_format sv_labels sv_data]. rewrite (Permutation_length P), Nat.eqb_refl. cbn [guard bind].
  destruct (picks own labels P) as (idx & -> & F). cbn [bind].
  pose proof (pick_map (fun s => s) own idx labels F) as L. rewrite !map_id in L. rewrite L. cbn [bind].
  assert (E : mapM (fun kv : str * list pyval => let* v := Output.pick idx (snd kv) in Ok (fst kv, v)) (over own cols) = Ok (over labels cols)).
  { unfold over. induction cols as [|c cols IH]; [reflexivity|]. cbn [map mapM fst snd]. rewrite (pick_map _ own idx labels F). cbn [bind].
    rewrite IH. reflexivity. }
  rewrite E. reflexivity.
Qed.

(** ** The columns *)
Definition back (p : dict) (s : str) : dict := incon_back (conditions p s).
Lemma backs p own : listed p own -> incons_back p = map (fun s => (KS s, PDict (back p s))) own.
Proof. unfold listed, incons_back. intros ->. rewrite map_map. reflexivity. Qed.
Lemma back_values p s : dget #"values" (back p s) = Some (PSeq SList (stored_values (conditions p s))).
Proof.
  unfold back, incon_back, sci_list, stored_values. cbn [known]. destruct (is_none _); destruct (trim (map (sci 3) _)); reflexivity.
Qed.
Lemma sci_present k v : col_ok (CSci 15 k) v = true -> absent v = false -> is_none (sci k v) = false.
Proof. destruct v as [| | | | |[|]| |]; try discriminate; reflexivity. Qed.
Lemma back_porosity p s : col_ok (CSci 15 9) (val #"porosity" (conditions p s)) = true -> absent (val #"porosity" (conditions p s)) = false ->
  dget #"porosity" (back p s) = Some (sci 9 (val #"porosity" (conditions p s))).
Proof.
  intros C A. unfold back, incon_back. cbn [known]. rewrite (sci_present _ _ C A). reflexivity.
Qed.
Lemma back_userx p s : col_ok (CSci 15 9) (val #"porosity" (conditions p s)) = true ->
  dget #"userx" (back p s) = match stored_userx (conditions p s) with [] => None | l => Some (PSeq SList l) end.
Proof.
  intros C. unfold back, incon_back, stored_userx. cbn [known].
  destruct (is_none _); destruct (trim (map (sci 3) _)); reflexivity.
Qed.

Lemma mapM_map {A B C} (f : B -> res C) (g : A -> B) l : mapM f (map g l) = mapM (fun x => f (g x)) l.
Proof. induction l as [|a l IH]; [reflexivity|]. cbn [map mapM]. now rewrite IH. Qed.
Lemma mapM_fun {A B} (f : A -> res B) g l : (forall a, In a l -> f a = Ok (g a)) -> mapM f l = Ok (map g l).
Proof.
  induction l as [|a l IH]; intros H; [reflexivity|]. cbn [mapM map]. rewrite H by now left. cbn [bind]. rewrite IH by (intros; apply H; now right). reflexivity.
Qed.
Lemma list_nth {A} (d : A) l : map (fun j => nth j l d) (seq 0 (List.length l)) = l.
Proof.
  induction l as [|a l IH]; [reflexivity|]. cbn [List.length seq map nth]. f_equal. rewrite <- seq_shift, map_map. exact IH.
Qed.

Definition x_cols (p : dict) (n : nat) : list (str * (str -> pyval)) :=
  combine (firstn n x_names) (map (fun j s => nth j (stored_values (conditions p s)) PNone) (seq 0 n)).
Lemma x_name_ok n : (n <= 8)%nat -> map x_name (seq 0 n) = firstn n x_names.
Proof. intros H. do 9 (destruct n as [|n]; [reflexivity|]). lia. Qed.
Lemma x_nodup n : NoDup (firstn n x_names ++ [$"porosity"; $"userx"]).
Proof.
  assert (G : forall m, (m <= 8)%nat -> NoDup (firstn m x_names ++ [$"porosity"; $"userx"])).
  { intros m H. do 9 (destruct m as [|m]; [repeat constructor; cbn; intuition discriminate|]). lia. }
  destruct (Nat.le_gt_cases n 8) as [H|H]; [auto|]. rewrite firstn_all2 by (cbn; lia). apply (G 8%nat). lia.
Qed.
Lemma nodup_l {A} (a b : list A) : NoDup (a ++ b) -> NoDup a.
Proof.
  induction a as [|x a IH]; intros N; [constructor|]. inversion_clear N. constructor; auto. intros I. apply H. apply in_or_app. now left.
Qed.
Lemma x_cols_names p n labels : (n <= 8)%nat -> map fst (over labels (x_cols p n)) = firstn n x_names.
Proof.
  intros H. unfold over, x_cols. rewrite map_map. cbn [fst].
  assert (G : forall (A B : Type) (a : list A) (b : list B), List.length a = List.length b -> map fst (combine a b) = a).
  { induction a as [|x a IH]; intros [|y b] E; try discriminate; [reflexivity|]. cbn. f_equal. apply IH. now injection E. }
  apply G. rewrite map_length, seq_length, firstn_length. cbn. lia.
Qed.
Lemma x_columns_ok p n own : own <> [] -> (n <= 8)%nat -> (forall s, In s own -> List.length (stored_values (conditions p s)) = n) ->
  x_columns (map (fun s => stored_values (conditions p s)) own) = Ok (over own (x_cols p n)).
Proof.
  intros NE L H. unfold x_columns.
  replace (map (fun s => stored_values (conditions p s)) own)
    with (map (fun s => map ((fun s j => nth j (stored_values (conditions p s)) PNone) s) (seq 0 n)) own).
  2:{ apply map_ext_in. intros s I. rewrite <- (H s I). apply list_nth. }
  rewrite transpose_map by auto. cbn [bind]. rewrite map_length, seq_length, x_name_ok by auto.
  rewrite to_table_nodup.
  - f_equal. unfold over, x_cols.
    assert (G : forall (a : list str) (b : list nat),
      combine a (map (fun j => map (fun s => nth j (stored_values (conditions p s)) PNone) own) b) =
      map (fun c => (fst c, map (snd c) own)) (combine a (map (fun j s => nth j (stored_values (conditions p s)) PNone) b))).
    { induction a as [|x a IH]; intros [|y b]; [reflexivity..|]. cbn [map combine fst snd]. now rewrite IH. }
    apply G.
  - exact (nodup_l _ _ (x_nodup n)).
  - rewrite map_length, seq_length, firstn_length. cbn. lia.
Qed.

Definition save_cols (p : dict) (n : nat) (u : bool) : list (str * (str -> pyval)) :=
  x_cols p n ++ [($"porosity", fun s => sci 9 (val #"porosity" (conditions p s)))] ++
  (if u then [($"userx", fun s => PSeq SList (stored_userx (conditions p s)))] else []).
Lemma over_app labels a b : over labels (a ++ b) = over labels a ++ over labels b.
Proof. apply map_app. Qed.

Lemma conditions_ok p own s : INCON_ok p -> listed p own -> In s own -> incon_ok (conditions p s).
Proof.
  intros H L I. destruct (INCON_item p (PStr s) H) as (t & e & E & _ & R & _ & _ & _ & K).
  - rewrite L. now apply in_map.
  - unfold conditions. now rewrite R.
Qed.
Lemma trim_length l : (List.length (trim l) <= List.length l)%nat.
Proof. induction l as [|x l IH]; cbn [trim List.length]; [lia|]. destruct (trim l); [destruct (is_none x); cbn; lia|cbn in *; lia]. Qed.
Lemma stored_length e : incon_ok e -> (List.length (stored_values e) <= 8)%nat.
Proof.
  intros (_ & _ & _ & _ & _ & _ & V). apply values_spec in V as (L & _). unfold stored_values.
  pose proof (trim_length (map (sci 13) (values_of e))). rewrite map_length in *. lia.
Qed.

Lemma save_labels p own : mapM save_label (dkeys (map (fun s => (KS s, PDict (back p s))) own)) = Ok own.
Proof.
  unfold dkeys. rewrite map_map, mapM_map. rewrite (mapM_fun _ (fun s => s)); [now rewrite map_id|reflexivity].
Qed.
Lemma save_sub (p : dict) own k f : (forall s, In s own -> dget k (back p s) = Some (f s)) ->
  mapM (condition k) (map snd (map (fun s => (KS s, PDict (back p s))) own)) = Ok (map f own).
Proof.
  intros H. rewrite map_map, mapM_map. apply mapM_fun. intros s I. unfold condition, subscript. cbn [snd as_dict bind]. unfold dgetE. now rewrite (H s I).
Qed.
Lemma save_userx p own (u : bool) : (forall s, In s own -> incon_ok (conditions p s)) ->
  (forall s, In s own -> match stored_userx (conditions p s) with [] => u = false | _ => u = true end) ->
  userx_rows (map snd (map (fun s => (KS s, PDict (back p s))) own)) =
  Ok (if u then map (fun s => PSeq SList (stored_userx (conditions p s))) own else []).
Proof.
  induction own as [|s own IH]; intros H U; [now destruct u|]. cbn [map userx_rows snd].
  pose proof (H s (or_introl eq_refl)) as (_ & _ & P & _). pose proof (U s (or_introl eq_refl)) as Us.
  unfold with_userx at 1. cbn [as_dict bind]. unfold dmem, condition, subscript. cbn [as_dict bind]. unfold dgetE. rewrite back_userx by auto.
  rewrite (IH (fun t I => H t (or_intror I)) (fun t I => U t (or_intror I))).
  destruct (stored_userx (conditions p s)); subst u; reflexivity.
Qed.
Lemma same_lengths_ok p own : (forall s t, In s own -> In t own ->
  List.length (stored_userx (conditions p s)) = List.length (stored_userx (conditions p t))) ->
  same_lengths (map (fun s => PSeq SList (stored_userx (conditions p s))) own) = Ok tt.
Proof.
  intros H. unfold same_lengths. rewrite mapM_map. rewrite (mapM_fun _ (fun s => stored_userx (conditions p s))) by reflexivity.
  cbn [bind]. destruct own as [|s own]; [reflexivity|]. cbn [map]. unfold guard. replace (forallb _ _) with true; [reflexivity|].
  symmetry. apply forallb_forall. intros q I. apply Nat.eqb_eq. change (In q (map (fun s => stored_userx (conditions p s)) (s :: own))) in I.
  apply in_map_iff in I as (t & <- & I). apply H; auto. now left.
Qed.

(** ** The whole *)
Lemma save_body fuel p own title stop rest order : INCON_ok p -> INCON_known None p -> listed p own -> complete p own ->
  save_frame title stop rest -> exists n u,
  (forall s, In s own -> List.length (stored_values (conditions p s)) = n) /\
  (forall s, In s own -> match stored_userx (conditions p s) with [] => u = false | _ => u = true end) /\ (n <= 8)%nat /\
  read_save fuel order (concat (title :: save_entries p ++ stop :: rest)) =
  (let* l := chosen_order order own in reorder_saved (Saved Element $"save" own (over own (save_cols p n u))) l).
Proof.
  intros H K L (C1 & C2) F.
  set (n := match own with [] => 0%nat | s :: _ => List.length (stored_values (conditions p s)) end).
  set (u := match own with [] => false | s :: _ => match stored_userx (conditions p s) with [] => false | _ => true end end).
  assert (N : forall s, In s own -> List.length (stored_values (conditions p s)) = n).
  { intros s I. unfold n. destruct own as [|t own]; [contradiction|]. apply C2; auto. now left. }
  assert (U : forall s, In s own -> match stored_userx (conditions p s) with [] => u = false | _ => u = true end).
  { intros s I. unfold u. destruct own as [|t own]; [contradiction|]. destruct (C2 s t I (or_introl eq_refl)) as [_ E].
    destruct (stored_userx (conditions p s)), (stored_userx (conditions p t)); try discriminate; reflexivity. }
  assert (N8 : (n <= 8)%nat).
  { unfold n. destruct own as [|t own]; [lia|]. apply stored_length. eapply conditions_ok; eauto. now left. }
  assert (UO : own = [] -> u = false) by (unfold u; now intros ->).
  exists n, u. split; [auto|]. split; [auto|]. split; [auto|].
  unfold read_save. rewrite save_recognized by auto. cbn [bind]. unfold save_read. rewrite save_text_read by (auto; exact I). cbn [bind].
  change (dgetE #"initial_conditions" (INCON_back p)) with (@Ok pyval (PDict (incons_back p))). cbn [bind as_dict].
  rewrite (backs p own L), save_labels. cbn [bind].
  rewrite (save_sub p own #"values" (fun s => PSeq SList (stored_values (conditions p s)))) by (intros; apply back_values). cbn [bind].
  rewrite mapM_map. rewrite (mapM_fun _ (fun s => stored_values (conditions p s))) by reflexivity. cbn [bind].
  assert (X : x_columns (map (fun s => stored_values (conditions p s)) own) = Ok (over own (x_cols p n))).
  { destruct own as [|t own0] eqn:E; [reflexivity|]. rewrite <- E in *. apply x_columns_ok; auto. congruence. }
  rewrite X. cbn [bind].
  rewrite (save_sub p own #"porosity" (fun s => sci 9 (val #"porosity" (conditions p s)))).
  2:{ intros s I. apply back_porosity; [|auto]. now apply (conditions_ok p own s H L) in I as (_ & _ & P & _). }
  cbn [bind]. rewrite (save_userx p own u) by (auto; intros; eapply conditions_ok; eauto). cbn [bind].
  assert (D : (match (if u then map (fun s => PSeq SList (stored_userx (conditions p s))) own else []) with
     | [] => Ok (tset $"porosity" (map (fun s => sci 9 (val #"porosity" (conditions p s))) own) (over own (x_cols p n)))
     | _ => let* _ := same_lengths (if u then map (fun s => PSeq SList (stored_userx (conditions p s))) own else []) in
            Ok (tset $"userx" (if u then map (fun s => PSeq SList (stored_userx (conditions p s))) own else [])
                  (tset $"porosity" (map (fun s => sci 9 (val #"porosity" (conditions p s))) own) (over own (x_cols p n)))) end)
     = Ok (over own (save_cols p n u))).
  { pose proof (x_nodup n) as ND.
    assert (P1 : tset $"porosity" (map (fun s => sci 9 (val #"porosity" (conditions p s))) own) (over own (x_cols p n))
      = over own (x_cols p n ++ [($"porosity", fun s => sci 9 (val #"porosity" (conditions p s)))])).
    { rewrite over_app. cbn [over map fst snd]. apply tset_new. rewrite x_cols_names by auto.
      intros I. apply (NoDup_remove_2 (firstn n x_names) [$"userx"] $"porosity") in ND. apply ND. apply in_or_app. now left. }
    rewrite P1. unfold save_cols. destruct u.
    - assert (P2 : tset $"userx" (map (fun s => PSeq SList (stored_userx (conditions p s))) own)
           (over own (x_cols p n ++ [($"porosity", fun s => sci 9 (val #"porosity" (conditions p s)))]))
           = over own (x_cols p n ++ [($"porosity", fun s => sci 9 (val #"porosity" (conditions p s)))] ++ [($"userx", fun s => PSeq SList (stored_userx (conditions p s)))])).
      { rewrite app_assoc, (over_app own (_ ++ _)). cbn [over map fst snd]. apply tset_new. rewrite over_app, map_app, x_cols_names by auto. cbn [over map fst].
        intros I. apply (NoDup_remove_2 (firstn n x_names ++ [$"porosity"]) [] $"userx").
        - now rewrite <- app_assoc.
        - now rewrite app_nil_r. }
      rewrite P2. rewrite same_lengths_ok by (intros; now apply C2). cbn [bind].
      destruct own as [|t own]; [specialize (UO eq_refl); discriminate|]. reflexivity.
    - reflexivity. }
  rewrite D. cbn [bind]. 
  change (dgetE #"initial_conditions_order" (INCON_back p)) with (@Ok pyval (PSeq SList (incons_order_of p))). cbn [bind py_iter].
  rewrite L, mapM_map. rewrite (mapM_fun _ (fun s => s)) by reflexivity. rewrite map_id. cbn [bind]. reflexivity.
Qed.

Lemma combine_maps {A B C D} (f : A * B -> C * D) (g : A -> C) (h : B -> D) a b :
  (forall x y, f (x, y) = (g x, h y)) -> map f (combine a b) = combine (map g a) (map h b).
Proof. intros H. revert b. induction a as [|x a IH]; intros [|y b]; [reflexivity..|]. cbn [combine map]. now rewrite H, IH. Qed.
Lemma row_over p n u labels i s : (n <= 8)%nat -> nth_error labels i = Some s ->
  List.length (stored_values (conditions p s)) = n ->
  match stored_userx (conditions p s) with [] => u = false | _ => u = true end ->
  row_at (Saved Element $"save" labels (over labels (save_cols p n u))) i =
  map (fun kv => (fst kv, Some (snd kv))) (save_cells (conditions p s)).
Proof.
  intros N I L U. unfold row_at. cbn [sv_data]. unfold over. rewrite map_map. cbn [fst snd].
  transitivity (map (fun c : str * (str -> pyval) => (fst c, Some (snd c s))) (save_cols p n u)).
  { apply map_ext. intros c. now rewrite (map_nth_error (snd c) _ _ I). }
  unfold save_cols, save_cells. rewrite !map_app. f_equal.
  - unfold x_cols. rewrite (combine_maps _ (fun x => x) (fun f => Some (f s))) by reflexivity.
    rewrite (combine_maps _ (fun x => x) Some x_names) by reflexivity. rewrite !map_id, map_map.
    rewrite <- (map_map (fun j => nth j (stored_values (conditions p s)) PNone) Some), <- L, list_nth.
    rewrite (combine_firstn_r x_names), map_length. reflexivity.
  - destruct (stored_userx (conditions p s)) eqn:E; subst u; cbn [map app fst snd]; rewrite ?E; reflexivity.
Qed.
Lemma over_lengths labels cols k c : In (k, c) (over labels cols) -> List.length c = List.length labels.
Proof. unfold over. intros I. apply in_map_iff in I as (q & [= <- <-] & _). apply map_length. Qed.

Lemma written_entries p h body : INCON_ok p -> write_incon p = Ok (h :: body ++ [[nl]]) -> body = save_entries p.
Proof.
  intros H W. rewrite INCON_write in W by auto. injection W as _ W. unfold INCON_body in W. now apply app_inj_tail in W as [W _].
Qed.

Theorem save_file fuel p own h body title stop rest order labels :
  INCON_ok p -> INCON_known None p -> listed p own -> complete p own ->
  write_incon p = Ok (h :: body ++ [[nl]]) -> save_frame title stop rest ->
  order = NoOrder /\ labels = own \/ order = ListOrder labels /\ labels <> [] /\ Permutation own labels ->
  exists o, read_save fuel order (concat (title :: body ++ stop :: rest)) = Ok o /\
    sv_type o = Element /\ sv_format o = $"save" /\ sv_labels o = labels /\
    (forall k c, In (k, c) (sv_data o) -> List.length c = List.length labels) /\
    forall i s, nth_error labels i = Some s ->
      row_at o i = map (fun kv => (fst kv, Some (snd kv))) (save_cells (conditions p s)).
Proof.
  intros H K L C W F O. rewrite (written_entries p h body H W).
  destruct (save_body fuel p own title stop rest order H K L C F) as (n & u & N & U & N8 & E).
  assert (X : chosen_order order own = Ok labels /\ Permutation own labels).
  { destruct O as [[-> ->] | (-> & NE & P)]; [now split|]. destruct labels; [congruence|]. now split. }
  destruct X as [X P]. rewrite X in E. cbn [bind] in E. rewrite reorder_over in E by auto.
  eexists. split; [exact E|]. cbn [sv_type sv_format sv_labels]. split; [auto|]. split; [auto|]. split; [auto|].
  split; [intros k c I; eapply over_lengths; exact I|]. intros i s I.
  assert (Is : In s own) by (eapply Permutation_in; [symmetry; exact P|eapply nth_error_In; eauto]).
  apply row_over; auto. exact (U s Is).
Qed.

Theorem save_array fuel p own h body title stop rest a b l :
  INCON_ok p -> INCON_known None p -> listed p own -> complete p own ->
  write_incon p = Ok (h :: body ++ [[nl]]) -> save_frame title stop rest ->
  read_save fuel (ArrayOrder (a :: b :: l)) (concat (title :: body ++ stop :: rest)) = Err ValueError.
Proof.
  intros H K L C W F. rewrite (written_entries p h body H W).
  destruct (save_body fuel p own title stop rest (ArrayOrder (a :: b :: l)) H K L C F) as (n & u & N & U & N8 & E). exact E.
Qed.
Theorem save_refuses fuel p own h body title stop rest labels :
  INCON_ok p -> INCON_known None p -> listed p own -> complete p own ->
  write_incon p = Ok (h :: body ++ [[nl]]) -> save_frame title stop rest -> labels <> [] ->
  (List.length labels <> List.length own ->
     read_save fuel (ListOrder labels) (concat (title :: body ++ stop :: rest)) = Err ValueError) /\
  (List.length labels = List.length own -> (exists s, In s labels /\ ~ In s own) ->
     read_save fuel (ListOrder labels) (concat (title :: body ++ stop :: rest)) = Err KeyError).
Proof.
  intros H K L C W F NE. rewrite (written_entries p h body H W).
  destruct (save_body fuel p own title stop rest (ListOrder labels) H K L C F) as (n & u & N & U & N8 & E0).
  assert (X : chosen_order (ListOrder labels) own = Ok labels) by (destruct labels; [congruence|reflexivity]).
  rewrite X in E0. cbn [bind] in E0. unfold reorder_saved in E0. cbn [sv_labels] in E0. split.
  - intros D. etransitivity; [exact E0|]. replace (Nat.eqb _ _) with false; [reflexivity|]. symmetry. apply Nat.eqb_neq. auto.
  - intros E (s & I & O). etransitivity; [exact E0|]. rewrite E, Nat.eqb_refl. cbn [guard bind]. rewrite (mapM_err _ KeyError); [reflexivity| |].
    + intros a _. destruct (last_index a own); eauto.
    + exists s. split; auto. now rewrite (proj2 (last_index_none s own) O).
Qed.
