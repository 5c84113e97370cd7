(** CSV outputs. *)
From Coq Require Import String Ascii ZArith Bool Lia Permutation List.
From Verif Require Import Base.Str Base.Digits Base.Flt Base.FltText Model.Py Model.Dispatch Model.Output
  Spec.Fields Spec.Output Proofs.DictLemmas Proofs.BlockTools Proofs.RecordLemmas Proofs.FileProof Proofs.CellText.
Import ListNotations.
Local Open Scope nat_scope.

(** ** An output as functions of the row *)
Definition labels_of (o : output) : list (list str) := match o_labels o with Some l => l | None => [] end.
Definition column (o : output) (k : str) : list flt := match tget k (o_data o) with Some c => c | None => [] end.
Definition lab (o : output) (i : nat) : list str := nth i (labels_of o) [].
Definition val (o : output) (i : nat) (k : str) : flt := nth i (column o k) NaN.
Definition time_of (o : output) : flt := match o_time o with Some t => t | None => NaN end.

Lemma map_nth_seq {A} (l : list A) d n : List.length l = n -> map (fun i => nth i l d) (seq 0 n) = l.
Proof.
  intros <-. rewrite (map_seq _ (fun x => x)); [apply map_id|]. intros j b E. now apply nth_error_nth.
Qed.
Section Sheet.
Variables (P : list str -> Prop) (n : nat) (o : output).
Hypothesis H : sheet P n o.
Lemma sheet_labels : o_labels o = Some (map (lab o) (seq 0 n)).
Proof. destruct (sh_labels _ _ _ H) as (ls & E & L & F). unfold lab, labels_of. rewrite E. now rewrite map_nth_seq. Qed.
Lemma sheet_label i : i < n -> P (lab o i).
Proof.
  destruct (sh_labels _ _ _ H) as (ls & E & L & F). unfold lab, labels_of. rewrite E. intros I.
  rewrite Forall_forall in F. apply F, nth_In. lia.
Qed.
Lemma sheet_time : o_time o = Some (time_of o) /\ is_f64 (time_of o) = true.
Proof. destruct (sh_time _ _ _ H) as (t & E & F). unfold time_of. rewrite E. auto. Qed.
Lemma sheet_column k : In k (names o) -> tget k (o_data o) = Some (column o k) /\ List.length (column o k) = n /\
  Forall (fun x => is_f64 x = true) (column o k).
Proof.
  intros I. unfold column. destruct (tget_key _ _ I) as (c & E). rewrite E. split; auto.
  apply (sh_data _ _ _ H k). now apply tget_some.
Qed.
Lemma sheet_val k i : In k (names o) -> i < n -> datum o i k = Ok (val o i k) /\ is_f64 (val o i k) = true.
Proof.
  intros I L. destruct (sheet_column k I) as (A & B & C). unfold datum, val. rewrite A.
  destruct (nth_error (column o k) i) as [x|] eqn:E; [|apply nth_error_None in E; lia].
  rewrite (nth_error_nth _ _ _ E). split; auto. rewrite Forall_forall in C. apply C. eapply nth_error_In; eauto.
Qed.
End Sheet.

(** ** A row of the file *)
Definition row_line (label : list str) (xs : list flt) : str := comma_line (map quoted label ++ map number xs).

Lemma row_lacks d label xs : d <> sp -> d <> quote -> d <> ","%char -> num_c d = false -> Forall (lacks d) label ->
  lacks d (join [","%char] (map quoted label ++ map number xs)).
Proof.
  intros N1 N2 N3 N4 F. apply lacks_join; [apply lacks_cons; split; auto using lacks_nil|].
  apply Forall_app. split; apply Forall_map.
  - eapply Forall_impl; [|exact F]. intros. now apply lacks_quoted.
  - apply Forall_forall. intros. now apply lacks_number.
Qed.
Lemma row_read st n t rows r label xs :
  List.length label = n -> n <> 0 -> Forall plain label -> not_time (hd [] label) -> Forall (fun x => is_f64 x = true) xs ->
  st = (t, rows) :: r ->
  unquote (strip (row_line label xs)) <> [] /\
  csv_line n st (unquote (strip (row_line label xs))) = Ok ((t, (label, map (rnd_e 12) xs) :: rows) :: r).
Proof.
  intros Ln N P T F ->. unfold row_line, comma_line.
  set (cells := map quoted label ++ map number xs).
  assert (CN : exists s ls, label = s :: ls) by (destruct label as [|s ls]; [cbn in Ln; congruence|eauto]).
  destruct CN as (s0 & ls & EL).
  assert (TR : trimmed (join [","%char] cells) = true).
  { unfold cells. rewrite EL. apply open_close.
    - cbn [map app]. apply opens_join, opens_quoted.
    - apply closes_join; [discriminate|]. apply Forall_app. split; apply Forall_map, Forall_forall; intros;
        [apply closes_quoted|apply closes_number]. }
  rewrite strip_nl by auto. rewrite unquote_join.
  assert (EU : map unquote cells = map (rjust 18) label ++ map number xs).
  { unfold cells. rewrite map_app, !map_map. f_equal; apply map_ext_in.
    - intros s I. apply unquote_quoted. rewrite Forall_forall in P. now apply plain_lacks, P.
    - intros x _. apply unquote_lacks, lacks_number; [discriminate|reflexivity]. }
  rewrite EU. split.
  - intros X. rewrite EL in X.
    assert (G : forall a b, List.length a <= List.length (join [","%char] (a :: b))).
    { intros a b. destruct b; cbn [join]; [lia|]. rewrite app_length. lia. }
    pose proof (G (rjust 18 s0) (map (rjust 18) ls ++ map number xs)) as G'. pose proof (rjust_ge 18 s0).
    change (rjust 18 s0 :: map (rjust 18) ls ++ map number xs) with (map (rjust 18) (s0 :: ls) ++ map number xs) in G'.
    rewrite X in G'. cbn [List.length] in G'. lia.
  - unfold csv_line. rewrite split_on_join.
    + replace (hd [] (map (rjust 18) label ++ map number xs)) with (rjust 18 s0) by (rewrite EL; reflexivity).
      replace (startswith $"TIME" (rjust 18 s0)) with false.
      * rewrite skipn_app, map_length, Ln, Nat.sub_diag, skipn_all2 by (rewrite map_length; lia).
        cbn [skipn app]. rewrite firstn_app, map_length, Ln, Nat.sub_diag, firstn_all2 by (rewrite map_length; lia).
        cbn [firstn]. rewrite app_nil_r.
        rewrite (mapM_ok _ (fun l => match to_float (strip l) with Ok x => x | Err _ => NaN end)).
        -- cbn [bind]. rewrite !map_map. do 5 f_equal.
           ++ rewrite <- (map_id label) at 2. apply map_ext_in. intros s I. apply strip_rjust.
              rewrite Forall_forall in P. now apply P.
           ++ apply map_ext_in. intros x I. rewrite Forall_forall in F. now rewrite strip_number, to_float_e by auto.
        -- intros l I. apply in_map_iff in I as (x & <- & I). rewrite Forall_forall in F.
           now rewrite strip_number, to_float_e by auto.
      * symmetry. rewrite EL in T. cbn [hd] in T. unfold rjust. destruct T as [T|T].
        -- replace (18 - List.length s0) with (S (17 - List.length s0)) by lia. reflexivity.
        -- destruct (18 - List.length s0); [exact T|reflexivity].
    + rewrite EL. discriminate.
    + apply Forall_app. split; apply Forall_map.
      * eapply Forall_impl; [|exact P]. intros s Hs. apply lacks_rjust; [discriminate|]. now apply plain_lacks.
      * apply Forall_forall. intros. apply lacks_number; [discriminate|reflexivity].
Qed.

(** ** The line of a time *)
Lemma time_cell t : split_ws ($"TIME [sec]  " ++ fmt_e 8 t) = [$"TIME"; $"[sec]"; fmt_e 8 t].
Proof.
  unfold split_ws. cbn [lit String.string_rect]. cbn -[fmt_e]. do 2 f_equal.
  assert (G : forall s cur, no_space_str s = true -> cur ++ s <> [] -> split_ws_aux cur s = [rev cur ++ s]).
  { induction s as [|c s IH]; intros cur A B; cbn [split_ws_aux].
    - destruct cur; [now destruct B|]. now rewrite app_nil_r.
    - unfold no_space_str in A. cbn [forallb] in A. apply andb_true_iff in A as [A1 A2]. apply negb_true_iff in A1.
      rewrite A1, IH; auto; [|discriminate]. cbn [rev]. now rewrite <- app_assoc. }
  rewrite G; [reflexivity|apply clean_no_space, fmt_e_clean|apply fmt_e_nonempty].
Qed.
Lemma time_lacks d t : num_c d = false -> lacks d $"TIME [sec]  " -> lacks d ($"TIME [sec]  " ++ fmt_e 8 t).
Proof. intros. apply lacks_app. split; auto. apply lacks_num; auto. apply fmt_e_num. Qed.
Lemma time_unquote t : unquote (quote :: ($"TIME [sec]  " ++ fmt_e 8 t) ++ [quote]) = $"TIME [sec]  " ++ fmt_e 8 t.
Proof.
  change (quote :: ($"TIME [sec]  " ++ fmt_e 8 t) ++ [quote]) with ([quote] ++ ($"TIME [sec]  " ++ fmt_e 8 t) ++ [quote]).
  rewrite !(unquote_app [quote]), unquote_app. change (unquote [quote]) with (@nil ascii). rewrite app_nil_r. cbn [app].
  apply (unquote_lacks (_ ++ _)), time_lacks; [reflexivity|]. intros c I ->. cbn in I. intuition discriminate.
Qed.
Lemma csv_time_eq t : csv_time t = (quote :: ($"TIME [sec]  " ++ fmt_e 8 t) ++ [quote]) ++ [nl].
Proof. unfold csv_time. cbn [app]. f_equal. now rewrite <- !app_assoc. Qed.
Lemma time_line_read n st t : is_f64 t = true ->
  csv_line n st ($"TIME [sec]  " ++ fmt_e 8 t) = Ok ((Some (rnd_e 8 t), []) :: st).
Proof.
  intros F. unfold csv_line. rewrite split_on_lacks.
  - cbn [hd]. change (startswith $"TIME" ($"TIME [sec]  " ++ fmt_e 8 t)) with true. cbn match.
    rewrite time_cell. cbn [last]. now rewrite to_float_e.
  - apply time_lacks; [reflexivity|]. intros c I ->. cbn in I. intuition discriminate.
Qed.
Lemma time_strip t : strip (csv_time t) = quote :: ($"TIME [sec]  " ++ fmt_e 8 t) ++ [quote].
Proof.
  rewrite csv_time_eq. apply strip_nl, open_close.
  - eexists _, _. split; [reflexivity|reflexivity].
  - exists (quote :: $"TIME [sec]  " ++ fmt_e 8 t), quote. split; auto.
Qed.
Lemma time_read n st t : is_f64 t = true ->
  unquote (strip (csv_time t)) <> [] /\ csv_line n st (unquote (strip (csv_time t))) = Ok ((Some (rnd_e 8 t), []) :: st).
Proof. intros F. rewrite time_strip, time_unquote. split; [discriminate|now apply time_line_read]. Qed.
(** The third line is unquoted before it is stripped. *)
Lemma time_first n st t : is_f64 t = true ->
  strip (unquote (csv_time t)) <> [] /\ csv_line n st (strip (unquote (csv_time t))) = Ok ((Some (rnd_e 8 t), []) :: st).
Proof.
  intros F. rewrite csv_time_eq, unquote_app, time_unquote. change (unquote [nl]) with [nl]. rewrite strip_nl.
  - split; [discriminate|now apply time_line_read].
  - apply open_close; [eexists _, _; split; reflexivity|]. apply closes_app, trimmed_closes; [apply fmt_e_nonempty|apply fmt_e_trimmed].
Qed.

(** ** The loop *)
Lemma csv_loop_step n st l r st' : unquote (strip l) <> [] -> csv_line n st (unquote (strip l)) = Ok st' ->
  csv_loop n st (l :: r) = csv_loop n st' r.
Proof. intros N E. cbn [csv_loop]. destruct (unquote (strip l)); [congruence|]. now rewrite E. Qed.

Section Sheets.
Variables (t : ftype) (n : nat) (hs : list str) (outs : list output).
Hypothesis HS : csv_sheets t n outs.
Hypothesis HN : forall o k, In o outs -> In k hs -> In k (names o).
Let w := if is_element t then 1 else 2.
Lemma csv_label_ok l : csv_label t l -> List.length l = w /\ Forall plain l /\ not_time (hd [] l).
Proof.
  clear HS HN. unfold w. destruct t; destruct l as [|a [|b [|c l]]]; cbn; try tauto.
  - intros [A B]. auto.
  - intros (A & B & C). auto.
Qed.
Lemma w_pos : w <> 0.
Proof. clear HS HN. unfold w. destruct t; discriminate. Qed.
Definition rounded (o : output) (i : nat) : list flt := map (fun k => rnd_e 12 (val o i k)) hs.
Definition lines_of (o : output) : list str :=
  csv_time (time_of o) :: map (fun i => row_line (lab o i) (map (val o i) hs)) (seq 0 n).
Definition step_of (o : output) : option flt * list (list str * list flt) :=
  (Some (rnd_e 8 (time_of o)), rev (map (fun i => (lab o i, rounded o i)) (seq 0 n))).

Lemma sheet_of o : In o outs -> sheet (csv_label t) n o.
Proof. intros I. destruct HS as (_ & _ & F & _). rewrite Forall_forall in F. auto. Qed.
Lemma row_read_o o i st tm rows r : In o outs -> i < n -> st = (tm, rows) :: r ->
  let l := row_line (lab o i) (map (val o i) hs) in
  unquote (strip l) <> [] /\ csv_line w st (unquote (strip l)) = Ok ((tm, (lab o i, rounded o i) :: rows) :: r).
Proof.
  intros I L E. cbv zeta. pose proof (sheet_of o I) as SH.
  destruct (csv_label_ok _ (sheet_label _ _ _ SH i L)) as (A & B & C).
  unfold rounded. rewrite <- (map_map (val o i) (rnd_e 12)). apply row_read; auto using w_pos.
  apply Forall_map, Forall_forall. intros k K. eapply sheet_val; eauto.
Qed.
Lemma rows_loop o rest is_ : In o outs -> (forall i, In i is_ -> i < n) -> forall st tm rows r, st = (tm, rows) :: r ->
  csv_loop w st (map (fun i => row_line (lab o i) (map (val o i) hs)) is_ ++ rest) =
  csv_loop w ((tm, rev (map (fun i => (lab o i, rounded o i)) is_) ++ rows) :: r) rest.
Proof.
  intros I. induction is_ as [|i is_ IH]; intros B st tm rows r ->; [reflexivity|].
  cbn [map app]. destruct (row_read_o o i _ tm rows r I (B i (or_introl eq_refl)) eq_refl) as (A1 & A2).
  rewrite (csv_loop_step _ _ _ _ _ A1 A2), (IH ltac:(intros; apply B; now right) _ _ _ _ eq_refl).
  cbn [rev]. now rewrite <- app_assoc.
Qed.
Lemma step_loop o st rest : In o outs -> csv_loop w st (lines_of o ++ rest) = csv_loop w (step_of o :: st) rest.
Proof.
  intros I. unfold lines_of. cbn [app]. destruct (sheet_time _ _ _ (sheet_of o I)) as [_ F].
  destruct (time_read w st _ F) as [A1 A2]. rewrite (csv_loop_step _ _ _ _ _ A1 A2).
  rewrite (rows_loop o rest (seq 0 n) I) with (tm := Some (rnd_e 8 (time_of o))) (rows := []) (r := st); auto.
  - unfold step_of. now rewrite app_nil_r.
  - intros i Hi. apply in_seq in Hi. lia.
Qed.
Lemma steps_loop os : incl os outs -> forall st, csv_loop w st (concat (map lines_of os)) = Ok (rev (map step_of os) ++ st).
Proof.
  induction os as [|o os IH]; intros I st; [reflexivity|]. cbn [map concat].
  rewrite step_loop by (apply I; now left). rewrite IH by (intros x Hx; apply I; now right).
  cbn [map rev]. now rewrite <- app_assoc.
Qed.

(** ** The writer *)
Lemma csv_step_ok o : In o outs -> Forall csv_name hs ->
  csv_step ((if is_element t then [$"ELEM"] else [$"ELEM1"; $"ELEM2"]) ++ hs) o = Ok (lines_of o).
Proof.
  intros I HC. pose proof (sheet_of o I) as SH. unfold csv_step. destruct (sheet_time _ _ _ SH) as [-> _].
  rewrite (sheet_labels _ _ _ SH).
  set (heads := if is_element t then [$"ELEM"] else [$"ELEM1"; $"ELEM2"]).
  assert (FH : filter (fun k => negb (startswith $"ELEM" k)) (heads ++ hs) = hs).
  { rewrite filter_app. replace (filter _ heads) with (@nil str) by (unfold heads; now destruct t). cbn [app].
    clear - HC. induction HC as [|k hs [_ N] F IH]; auto. cbn [filter]. rewrite N. cbn [negb]. now rewrite IH. }
  assert (R : forall i, i < n -> csv_row (heads ++ hs) o i (lab o i) = Ok (row_line (lab o i) (map (val o i) hs))).
  { intros i L. unfold csv_row. rewrite FH.
    rewrite (mapM_ok _ (val o i)) by (intros k K; eapply sheet_val; eauto). cbn [bind].
    destruct (csv_label_ok _ (sheet_label _ _ _ SH i L)) as (A & _ & _).
    assert (LH : List.length heads = w) by (unfold heads, w; now destruct t).
    assert (EH : Forall (fun h => startswith $"ELEM" h = true) heads) by (unfold heads; destruct t; repeat constructor).
    rewrite <- LH in A.
    assert (C : forall (X Y : Type) (a1 a2 : list X) (b1 b2 : list Y), List.length a1 = List.length b1 ->
      combine (a1 ++ a2) (b1 ++ b2) = combine a1 b1 ++ combine a2 b2).
    { intros X Y. induction a1 as [|x a1 IH]; intros a2 [|y b1] b2 E; try discriminate; auto. cbn. f_equal. apply IH. now injection E. }
    rewrite C by now rewrite map_length.
    assert (MA : forall (X Y : Type) (f : X -> res Y) a b ra rb, mapM f a = Ok ra -> mapM f b = Ok rb -> mapM f (a ++ b) = Ok (ra ++ rb)).
    { intros X Y f a. induction a as [|x a IH]; intros b ra rb; cbn [mapM app]; [now intros [= <-] ->|].
      destruct (f x); cbn [bind]; [|discriminate]. destruct (mapM f a); cbn [bind]; [|discriminate].
      intros [= <-] E. now rewrite (IH _ _ _ eq_refl E). }
    rewrite (MA _ _ _ _ _ (map quoted (lab o i)) (map number (map (val o i) hs))).
    - reflexivity.
    - clear - A EH. revert A EH. generalize (lab o i) as l. induction heads as [|h heads IH]; intros [|x l] E F; try discriminate; auto.
      cbn [map combine mapM]. apply Forall_cons_iff in F as [F1 F2]. unfold fmt_cell at 1. cbn [fst snd]. rewrite F1. cbn [bind].
      rewrite IH by (auto; now injection E). reflexivity.
    - clear - HC. induction HC as [|k hs [_ N] F IH]; auto. cbn [map combine mapM]. unfold fmt_cell at 1. cbn [fst snd].
      rewrite N. cbn [bind]. rewrite IH. reflexivity. }
  assert (EN : enumerate (map (lab o) (seq 0 n)) = map (fun i => (i, lab o i)) (seq 0 n)).
  { unfold enumerate. rewrite map_length, seq_length. generalize (seq 0 n) as s. induction s; cbn; congruence. }
  rewrite EN.
  rewrite (mapM_ok _ (fun il => row_line (snd il) (map (val o (fst il)) hs))).
  - cbn [bind]. unfold lines_of. now rewrite map_map.
  - intros [i l] J. apply in_map_iff in J as (j & [= <- <-] & J). apply in_seq in J. cbn [fst snd]. apply R. lia.
Qed.
End Sheets.

Lemma last_output_snoc front o : last_output (front ++ [o]) = Some o.
Proof. induction front as [|x f IH]; auto. cbn [app last_output]. destruct (f ++ [o]) eqn:E; [destruct f; discriminate|auto]. Qed.

(** ** The header *)
Lemma header_read hs : hs <> [] -> Forall plain hs ->
  map strip (split_on ","%char (unquote (comma_line (map quoted hs)))) = hs.
Proof.
  intros N P. unfold comma_line. rewrite unquote_app, unquote_join, map_map. change (unquote [nl]) with [nl].
  assert (E : map (fun x => unquote (quoted x)) hs = map (rjust 18) hs).
  { apply map_ext_in. intros s I. apply unquote_quoted. rewrite Forall_forall in P. now apply plain_lacks, P. }
  rewrite E. destruct (exists_last N) as (r & x & ->). rewrite map_app. cbn [map]. rewrite join_tail, split_on_join.
  - rewrite map_app. cbn [map]. apply Forall_app in P as [P1 P2]. apply Forall_inv in P2.
    rewrite strip_rjust_nl by apply P2. f_equal. rewrite map_map. rewrite <- (map_id r) at 2. apply map_ext_in.
    intros s I. apply strip_rjust. rewrite Forall_forall in P1. now apply P1.
  - destruct (map (rjust 18) r); discriminate.
  - apply Forall_app in P as [P1 P2]. apply Forall_app. split.
    + apply Forall_map. eapply Forall_impl; [|exact P1]. intros s Hs. apply lacks_rjust; [discriminate|]. now apply plain_lacks.
    + constructor; [|constructor]. apply lacks_app. split.
      * apply lacks_rjust; [discriminate|]. apply Forall_inv in P2. now apply plain_lacks.
      * intros c [<-|[]]. discriminate.
Qed.
Lemma comma_good l : Forall (lacks nl) l -> good_line (comma_line l).
Proof.
  intros F. exists (join [","%char] l). split; auto. apply lacks_line, lacks_join; auto.
  intros c [<-|[]]. discriminate.
Qed.
Lemma unit_lacks h : lacks nl (match tget h header_to_unit with Some u => u | None => $" (-)" end).
Proof.
  destruct (tget h header_to_unit) as [u|] eqn:E.
  - apply tget_some in E. assert (F : Forall (fun kv => lacks nl (snd kv)) header_to_unit).
    { repeat constructor; intros c I ->; cbn in I; intuition discriminate. }
    rewrite Forall_forall in F. apply (F _ E).
  - intros c I ->. cbn in I. intuition discriminate.
Qed.

Theorem csv_roundtrip t n outs : csv_sheets t n outs ->
  exists recs outs', csv_write outs = Ok recs /\ csv_read t $"csv" None (lines (concat recs)) = Ok outs' /\
    Forall2 (comes_back $"csv" 8 12 true) outs outs'.
Proof.
  intros HS. pose proof HS as (NE & NZ & FS & FT & IN). destruct (exists_last NE) as (front & lst & EO).
  set (hs := columns (o_data lst)).
  assert (LI : In lst outs) by (rewrite EO; apply in_app_iff; right; now left).
  rewrite Forall_forall in FS, FT.
  assert (HN : forall o k, In o outs -> In k hs <-> In k (names o)).
  { intros o k I. unfold hs. rewrite columns_in. split; intros K.
    - now apply (IN lst o).
    - now apply (IN o lst). }
  assert (HN1 : forall o k, In o outs -> In k hs -> In k (names o)) by (intros o k I; now apply HN).
  assert (ND : NoDup hs) by (apply columns_nodup; apply (sh_names _ _ _ (FS _ LI))).
  assert (HC : Forall csv_name hs).
  { apply Forall_forall. intros k K. destruct (FT _ LI) as [_ F]. rewrite Forall_forall in F. apply F. now apply HN. }
  set (heads := if is_element t then [$"ELEM"] else [$"ELEM1"; $"ELEM2"]).
  assert (PH : Forall plain (heads ++ hs)).
  { apply Forall_app. split; [|eapply Forall_impl; [|exact HC]; now intros k [K _]].
    unfold heads. destruct t; repeat constructor; intros; subst; cbn in *; intuition (subst; discriminate). }
  assert (EW : csv_write outs = Ok (comma_line (map quoted (heads ++ hs)) ::
     comma_line (map quoted (map (fun h => match tget h header_to_unit with Some u => u | None => $" (-)" end) (heads ++ hs))) ::
     concat (map (lines_of n hs) outs))).
  { unfold csv_write. rewrite EO, last_output_snoc, <- EO. unfold csv_headers. fold hs.
    destruct (FT _ LI) as [-> _]. fold heads.
    rewrite (mapM_ok _ (lines_of n hs)); [reflexivity|]. intros o I. now apply (csv_step_ok t n hs outs). }
  rewrite EW. eexists _, _. split; [reflexivity|].
  assert (GL : Forall good_line (comma_line (map quoted (heads ++ hs)) ::
     comma_line (map quoted (map (fun h => match tget h header_to_unit with Some u => u | None => $" (-)" end) (heads ++ hs))) ::
     concat (map (lines_of n hs) outs))).
  { constructor; [|constructor].
    - apply comma_good, Forall_map. eapply Forall_impl; [|exact PH]. intros s Hs. apply lacks_quoted; try discriminate. now apply plain_lacks.
    - apply comma_good, Forall_map, Forall_map, Forall_forall. intros s _. apply lacks_quoted; try discriminate. apply unit_lacks.
    - apply Forall_concat. intros o I. unfold lines_of. constructor.
      + rewrite csv_time_eq. eexists. split; [reflexivity|]. apply lacks_line. apply lacks_cons. split; [discriminate|].
        apply lacks_app. split; [|intros c [<-|[]]; discriminate]. apply time_lacks; [reflexivity|].
        intros c J ->. cbn in J. intuition discriminate.
      + apply Forall_map, Forall_forall. intros i J. apply in_seq in J. apply comma_good.
        destruct (csv_label_ok t _ (sheet_label _ _ _ (FS _ I) i ltac:(lia))) as (_ & P & _).
        apply Forall_app. split; apply Forall_map.
        * eapply Forall_impl; [|exact P]. intros s Hs. apply lacks_quoted; try discriminate. now apply plain_lacks.
        * apply Forall_forall. intros x _. apply lacks_number; [discriminate|reflexivity]. }
  rewrite (lines_all _ GL). unfold csv_read, read_csv. cbn [readline].
  rewrite header_read; [|unfold heads; destruct t; discriminate|exact PH].
  (* the third line *)
  destruct outs as [|o1 outs']; [congruence|]. cbn [map concat]. unfold lines_of at 1. cbn [app readline].
  change (startswith (quote :: $"TIME") (csv_time (time_of o1))) with true. cbn match.
  destruct (sheet_time _ _ _ (FS o1 (or_introl eq_refl))) as [_ F1].
  destruct (time_first (if is_element t then 1 else 2) [] _ F1) as [A1 A2].
  destruct (strip (unquote (csv_time (time_of o1)))) as [|c0 l0] eqn:EL3; [congruence|]. rewrite A2. cbn [bind].
  rewrite (rows_loop t n hs (o1 :: outs') HS HN1 o1 _ (seq 0 n) (or_introl eq_refl)) with (tm := Some (rnd_e 8 (time_of o1))) (rows := []) (r := []);
    [|intros i Hi; apply in_seq in Hi; lia|reflexivity].
  rewrite app_nil_r. fold (step_of n hs o1). clear A1 A2 EL3 c0 l0.
  rewrite (steps_loop t n hs (o1 :: outs') HS HN1 outs') by (intros x Hx; now right). cbn [bind].
  replace (rev (map (step_of n hs) outs') ++ [step_of n hs o1]) with (rev (map (step_of n hs) (o1 :: outs'))) by reflexivity.
  rewrite rev_involutive. set (all := o1 :: outs') in *. clearbody all. clear F1 o1 outs'.
  set (step' := fun o => (Some (rnd_e 8 (time_of o)), map (fun i => (lab o i, rounded hs o i)) (seq 0 n))).
  assert (ES : map (fun s : option flt * list (list str * list flt) => (fst s, rev (snd s))) (map (step_of n hs) all) = map step' all).
  { rewrite map_map. apply map_ext. intros o. unfold step_of, step'. cbn [fst snd]. now rewrite rev_involutive. }
  rewrite ES. clear ES.
  assert (SS : same_shape (map step' all) = true).
  { unfold same_shape. apply andb_true_iff. split.
    - apply (rectangular_all n). rewrite map_map. apply Forall_map, Forall_forall. intros o _. cbn [snd step']. now rewrite map_length, seq_length.
    - apply (rectangular_all (List.length hs)). rewrite map_map. apply Forall_concat. intros o _.
      cbn [snd step']. rewrite map_map. apply Forall_map, Forall_forall. intros i _. cbn [snd]. unfold rounded. now rewrite map_length. }
  rewrite SS. replace (skipn (if is_element t then 1 else 2) (heads ++ hs)) with hs by (unfold heads; now destruct t).
  unfold to_output. rewrite map_map.
  set (back := fun o => Output t $"csv" (Some (rnd_e 8 (time_of o))) (Some (map (lab o) (seq 0 n)))
        (combine hs (map (fun k => map (fun i => rnd_e 12 (val o i k)) (seq 0 n)) hs))).
  assert (EM : mapM (step_output t $"csv" hs)
     (map (fun o => (fst (step' o), Some (map fst (snd (step' o))), map snd (snd (step' o)))) all) = Ok (map back all)).
  { clear - NZ ND. induction all as [|o all IH]; auto. cbn [map mapM]. rewrite IH.
    unfold step_output at 1. cbn [step' fst snd]. rewrite !map_map. cbn [fst snd]. unfold rounded.
    rewrite (transpose_map (fun i k => rnd_e 12 (val o i k)) (seq 0 n) hs) by (destruct n; [congruence|discriminate]).
    cbn [bind]. rewrite to_table_nodup by (auto; now rewrite map_length). reflexivity. }
  rewrite EM. cbn [bind]. split; [reflexivity|].
  assert (FB : forall o, In o all -> comes_back $"csv" 8 12 true o (back o)).
  { intros o I. pose proof (FS o I) as SH. destruct (FT o I) as [T0 _]. destruct (sheet_time _ _ _ SH) as [ET _].
    assert (NB : names (back o) = hs).
    { unfold names, back. cbn [o_data].
      assert (Q : forall (A B : Type) (a : list A) (b : list B), List.length a = List.length b -> map fst (combine a b) = a).
      { intros A B. induction a as [|x a IHa]; intros [|y b] E; try discriminate; auto. cbn. f_equal. apply IHa. now injection E. }
      apply Q. now rewrite map_length. }
    constructor; auto.
    - cbn [back o_time]. now rewrite ET.
    - cbn [back o_labels]. symmetry. apply (sheet_labels _ _ _ SH).
    - rewrite NB. apply NoDup_Permutation; [exact ND|apply (sh_names _ _ _ SH)|]. intros k. now apply HN.
    - intros k c K. assert (KN : In k (names o)) by now apply (in_map fst) in K.
      assert (KH : In k hs) by now apply (proj2 (HN o k I)).
      assert (EC : map (fun i => rnd_e 12 (val o i k)) (seq 0 n) = map (rnd_e 12) c).
      { destruct (sheet_column _ _ _ SH k KN) as (C1 & C2 & _). rewrite (tget_in k c) in C1 by (auto; apply (sh_names _ _ _ SH)).
        injection C1 as ->. rewrite <- (map_nth_seq (column o k) NaN n C2) at 1. now rewrite map_map. }
      rewrite <- EC. cbn [back o_data]. clear - KH. induction hs as [|h l IH]; [destruct KH|]. cbn [map combine].
      destruct KH as [-> | KH]; [now left|right; auto]. }
  clear - FB. induction all as [|o all IH]; constructor; [apply FB; now left|]. apply IH. intros x Hx. apply FB. now right.
Qed.
