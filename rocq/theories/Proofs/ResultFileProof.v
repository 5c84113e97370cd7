(** Files of results read as they stand. *)
From Coq Require Import String Ascii Arith ZArith QArith Bool Lia Sorted List.
From Verif Require Import Base.Str Base.Digits Base.Flt Base.FltRound Base.FltText Model.Py Model.Dispatch Model.Output Spec.Output
  Proofs.DictLemmas Proofs.RecordLemmas Proofs.CellText Proofs.CsvProof Proofs.PetrasimProof Proofs.RecognizeProof Proofs.TecplotProof Proofs.HistoryProof Spec.ResultFile.
Import ListNotations.
Local Open Scope nat_scope.

(** ** Cells *)
Lemma cells_unquote l : cells_of l = map strip (split_on "," (unquote l)).
Proof. reflexivity. Qed.
Lemma unquote_app a b : unquote (a ++ b) = unquote a ++ unquote b.
Proof. apply filter_app. Qed.
Lemma unquote_blank a : forallb is_space a = true -> unquote a = a.
Proof.
  induction a as [|c a IH]; [reflexivity|]. cbn [forallb]. intros H. apply andb_true_iff in H as [H1 H2]. unfold unquote in *. cbn [filter].
  destruct (Ascii.eqb_spec c quote) as [->|_]; [discriminate H1|]. cbn [negb]. now rewrite IH.
Qed.
Lemma cells_strip l : map strip (split_on "," (unquote (strip l))) = cells_of l.
Proof.
  rewrite cells_unquote. destruct (strip_all l) as (a & b & A & B & E). rewrite E at 2. rewrite !unquote_app, (unquote_blank a A), (unquote_blank b B).
  rewrite split_lead by (auto; discriminate). now rewrite split_trail.
Qed.
Lemma cells_strip' l : map strip (split_on "," (strip (unquote l))) = cells_of l.
Proof. rewrite cells_unquote. now apply split_strip. Qed.
Lemma cells_nonempty l : cells_of l <> [].
Proof. rewrite cells_unquote. pose proof (split_on_nonempty "," (unquote l)). destruct (split_on "," (unquote l)); [congruence|discriminate]. Qed.
Lemma first_cell s c r : s = c :: r -> is_space c = false -> c <> quote -> c <> ","%char -> exists t, hd [] (cells_of s) = c :: t.
Proof.
  intros -> S Q K. rewrite cells_unquote. unfold unquote. cbn [filter]. destruct (Ascii.eqb_spec c quote) as [E|_]; [contradiction|]. cbn [negb].
  rewrite split_on_unfold. destruct (Ascii.eqb_spec c ",") as [E|_]; [contradiction|]. pose proof (split_on_nonempty "," (unquote r)) as N. unfold unquote in N.
  destruct (split_on "," (filter (fun c => negb (Ascii.eqb c quote)) r)) as [|x xs]; [congruence|]. cbn [map hd]. unfold strip. cbn [lstrip]. rewrite S. destruct (rstrip_keeps [] c x S) as (t & E). exists t. exact E.
Qed.
Lemma numbers_read texts xs : numbers texts xs -> mapM to_float texts = Ok xs.
Proof. induction 1 as [|s x texts xs E _ IH]; [reflexivity|]. cbn [mapM]. unfold to_float at 1. rewrite E. cbn [bind]. now rewrite IH. Qed.
Lemma strip_TIME s : startswith $"TIME" s = true -> startswith $"TIME" (strip s) = true.
Proof.
  intros H. apply startswith_spec in H as (r & ->). unfold strip. change (lstrip ($"TIME" ++ r)) with ($"TIM" ++ "E"%char :: r). destruct (rstrip_keeps ($"TIM") "E"%char r eq_refl) as (t & E). rewrite E. reflexivity.
Qed.

(** ** One line of a CSV file *)
Lemma row_taken n row l line t rows r : n <> 0 -> csv_row n row l -> map strip (split_on "," line) = cells_of l -> line <> [] /\ csv_line n ((t, rows) :: r) line = Ok ((t, row :: rows) :: r).
Proof.
  intros NZ (texts & C & L & N & NE & NT) E. destruct row as [label xs]. cbn [fst snd] in *. pose proof E as E0. rewrite C in E. split.
  - intros ->. cbn in E. destruct label as [|a label]; [cbn in L; congruence|]. injection E as <- _. now cbn in NE.
  - unfold csv_line. assert (F : startswith $"TIME" (hd [] (split_on "," line)) = false).
    { apply not_true_iff_false. intros H. apply strip_TIME in H. destruct (split_on "," line) as [|f cs]; [discriminate H|]. cbn [hd] in H. destruct label as [|a label]; [cbn in L; congruence|].
      cbn [map app] in E. injection E as E _. cbn [hd] in NT. congruence. }
    rewrite F. assert (V : mapM (fun l => to_float (strip l)) (skipn n (split_on "," line)) = Ok xs).
    { rewrite <- (numbers_read texts xs N). assert (G : map strip (skipn n (split_on "," line)) = texts) by (rewrite <- skipn_map, E, <- L, skipn_app, skipn_all, Nat.sub_diag; reflexivity).
      rewrite <- G. generalize (skipn n (split_on "," line)). intros q. induction q as [|x q IH]; [reflexivity|]. cbn [mapM map]. now rewrite IH. }
    rewrite V. cbn [bind]. do 3 f_equal. f_equal. f_equal. rewrite <- firstn_map, E, <- L, firstn_app, firstn_all, Nat.sub_diag. cbn. now rewrite app_nil_r.
Qed.
Lemma time_starts l : startswith (quote :: $"TIME") l = true -> exists r, l = quote :: $"TIME" ++ r.
Proof. intros H. apply startswith_spec in H as (r & ->). now exists r. Qed.
Lemma first_starts s : startswith $"TIME" s = true -> startswith $"TIME" (hd [] (split_on "," s)) = true.
Proof.
  intros H. apply startswith_spec in H as (r & ->). change ($"TIME" ++ r) with ("T"%char :: "I"%char :: "M"%char :: "E"%char :: r). rewrite !split_on_unfold.
  change (Ascii.eqb "T" ",") with false. change (Ascii.eqb "I" ",") with false. change (Ascii.eqb "M" ",") with false. change (Ascii.eqb "E" ",") with false.
  cbn match. pose proof (split_on_nonempty "," r). destruct (split_on "," r) as [|x xs]; [congruence|]. reflexivity.
Qed.
Lemma time_taken n t l line st : csv_time_line t l -> map strip (split_on "," line) = cells_of l -> startswith $"TIME" line = true -> line <> [] /\ csv_line n st line = Ok ((Some t, []) :: st).
Proof.
  intros (_ & front & w & W & P) E S. split; [now intros ->|]. unfold csv_line. rewrite (first_starts line S). assert (X : split_ws (hd [] (split_on "," line)) = front ++ [w]).
  { rewrite <- W, <- E. pose proof (split_on_nonempty "," line). destruct (split_on "," line) as [|f cs]; [congruence|]. cbn [hd map]. symmetry. apply split_ws_strip. }
  rewrite X. assert (LW : last (front ++ [w]) [] = w) by apply last_last. destruct (front ++ [w]) as [|x y] eqn:EF; [destruct front; discriminate EF|]. rewrite LW. unfold to_float. rewrite P. reflexivity.
Qed.
Lemma unquote_TIME r : exists s, unquote (quote :: $"TIME" ++ r) = $"TIME" ++ s.
Proof. exists (unquote r). reflexivity. Qed.
Lemma time_loop n t l ls st : csv_time_line t l -> csv_loop n st (l :: ls) = csv_loop n ((Some t, []) :: st) ls.
Proof.
  intros T. assert (S : startswith $"TIME" (unquote (strip l)) = true).
  { destruct T as (B & _). apply time_starts in B as (r & ->). unfold strip. change (lstrip (quote :: $"TIME" ++ r)) with ((quote :: $"TIM") ++ "E"%char :: r). destruct (rstrip_keeps (quote :: $"TIM") "E"%char r eq_refl) as (s & ->). reflexivity. }
  destruct (time_taken n t l (unquote (strip l)) st T (cells_strip l) S) as (N & E). now apply csv_loop_step.
Qed.
Lemma row_loop n row l ls t rows r : n <> 0 -> csv_row n row l -> csv_loop n ((t, rows) :: r) (l :: ls) = csv_loop n ((t, row :: rows) :: r) ls.
Proof. intros NZ R. destruct (row_taken n row l (unquote (strip l)) t rows r NZ R (cells_strip l)) as (N & E). now apply csv_loop_step. Qed.
Lemma rows_read n rows0 body : n <> 0 -> Forall2 (csv_row n) rows0 body -> forall t rows r ls, csv_loop n ((t, rows) :: r) (body ++ ls) = csv_loop n ((t, rev rows0 ++ rows) :: r) ls.
Proof. intros NZ. induction 1 as [|row l rows1 body R _ IH]; intros t rows r ls; [reflexivity|]. cbn [app rev]. rewrite (row_loop n row l _ t rows r NZ R), IH, <- app_assoc. reflexivity. Qed.
Lemma tail_ends n st tail : ends tail -> csv_loop n st tail = Ok st.
Proof. destruct tail as [|l tail]; [reflexivity|]. cbn [ends csv_loop]. intros ->. reflexivity. Qed.
Definition kept (s : flt * list (list str * list flt)) : option flt * list (list str * list flt) := (Some (fst s), rev (snd s)).
Lemma steps_read n steps groups : n <> 0 -> Forall2 (csv_step_lines n) steps groups -> forall st tail, ends tail -> csv_loop n st (concat groups ++ tail) = Ok (rev (map kept steps) ++ st).
Proof.
  intros NZ. induction 1 as [|s g steps groups (first & rest & -> & T & R) _ IH]; intros st tail E; [now apply tail_ends|]. cbn [concat]. rewrite <- app_assoc. cbn [app]. rewrite (time_loop n (fst s) first _ st T).
  rewrite (rows_read n (snd s) rest NZ R), app_nil_r, IH by exact E. cbn [map rev]. unfold kept at 2. now rewrite <- app_assoc.
Qed.

(** ** The columns *)
Lemma nth_combine {A B} (a : list A) (b : list B) j x y : nth_error (combine a b) j = Some (x, y) -> nth_error a j = Some x /\ nth_error b j = Some y.
Proof. revert b j. induction a as [|u a IH]; intros [|v b] [|j] E; try discriminate E; cbn in *; [now injection E as <- <-|now apply IH]. Qed.
Lemma fst_combine {A B} (a : list A) (b : list B) : List.length a = List.length b -> map fst (combine a b) = a.
Proof. revert b. induction a as [|x a IH]; intros [|y b] E; try discriminate E; [reflexivity|]. cbn. f_equal. apply IH. now injection E. Qed.
Lemma step_shows t fmt names time rows : NoDup names -> even names rows -> exists o, step_output t fmt names (time, Some (map fst rows), map snd rows) = Ok o /\ shows t fmt names time rows o.
Proof.
  intros ND (NE & F). destruct (transpose_rows (map snd rows) (List.length names)) as (cols & T & LC & C); [now destruct rows|now apply Forall_map|].
  unfold step_output. rewrite T. cbn [bind]. rewrite to_table_nodup by (auto; congruence). eexists. split; [reflexivity|]. split; [reflexivity|]. split; [reflexivity|]. split; [reflexivity|]. split; [reflexivity|]. cbn [o_data]. split; [apply fst_combine; congruence|].
  intros j k c J. apply nth_combine in J as (_ & J). destruct (C j c J) as (L & X). rewrite map_length in L. split; [exact L|]. intros i l xs I. apply X. exact (map_nth_error snd i rows I).
Qed.
Lemma all_shown t fmt names (steps : list (option flt * list (list str * list flt))) : NoDup names -> Forall (fun s => even names (snd s)) steps ->
  exists outs, mapM (step_output t fmt names) (map (fun s => (fst s, Some (map fst (snd s)), map snd (snd s))) steps) = Ok outs /\ Forall2 (fun s o => shows t fmt names (fst s) (snd s) o) steps outs.
Proof.
  intros ND F. induction F as [|s steps E _ (outs & M & R)]; [exists []; split; [reflexivity|constructor]|]. destruct (step_shows t fmt names (fst s) (snd s) ND E) as (o & O & S).
  exists (o :: outs). cbn [map mapM]. rewrite O. cbn [bind]. rewrite M. split; [reflexivity|]. constructor; auto.
Qed.

(** ** CSV files *)
Lemma csv_found t names h r : csv_header t names h -> get_output_type (h :: r) = Ok (t, FCsv).
Proof.
  intros (NQ & C). assert (H1 : hd [] (cells_of h) = match t with Element => $"ELEM" | Connection => $"ELEM1" end) by (destruct t; [rewrite C|destruct C as (s & ->)]; reflexivity).
  unfold get_output_type. cbn [readline]. destruct (strip_all h) as (a & b & A & B & E). destruct (strip h) as [|c s] eqn:S.
  - exfalso. cbn [app] in E. assert (HB : forallb is_space h = true) by (rewrite E; rewrite forallb_app, A, B; reflexivity). assert (Z : cells_of h = [[]]).
    { rewrite <- cells_strip, S. reflexivity. } rewrite Z in H1. destruct t; discriminate H1.
  - assert (CS : is_space c = false).
    { pose proof (strip_strip h) as SS. rewrite S in SS. unfold strip in SS. cbn [lstrip] in SS. destruct (is_space c) eqn:X; [|reflexivity]. exfalso.
      assert (LL : forall s, List.length (lstrip s) <= List.length s) by (induction s0 as [|x s0 IH]; cbn [lstrip]; [lia|]; destruct (is_space x); cbn [List.length]; lia).
      apply (f_equal (@List.length ascii)) in SS. unfold rstrip in SS. rewrite rev_length in SS. pose proof (LL (rev (lstrip s))) as L1. rewrite rev_length in L1. pose proof (LL s). cbn [List.length] in SS. lia. }
    assert (CC : c = quote \/ c = "E"%char).
    { destruct (Ascii.eqb_spec c quote) as [|N1]; [now left|right]. destruct (Ascii.eqb_spec c ",") as [->|N2].
      - exfalso. rewrite <- (cells_strip h), S in H1. cbn in H1. destruct t; discriminate H1.
      - destruct (first_cell (c :: s) c s eq_refl CS N1 N2) as (u & U). rewrite cells_unquote in U. rewrite <- (cells_strip h), S, U in H1. destruct t; injection H1 as -> _; reflexivity. }
    assert (NE : contains "=" (c :: s) = false).
    { apply lacks_contains. intros d I ->. apply NQ. rewrite E. apply in_app_iff. right. apply in_app_iff. now left. }
    assert (HH : strip (unquote (hd [] (split_on "," (c :: s)))) = hd [] (cells_of h)).
    { rewrite <- cells_strip, S. clear. generalize (c :: s). intros u. assert (G : hd [] (split_on "," (unquote u)) = unquote (hd [] (split_on "," u))).
      { induction u as [|x u IH]; [reflexivity|]. unfold unquote at 1. cbn [filter]. fold (unquote u). rewrite (split_on_unfold "," x u). pose proof (split_on_nonempty "," u) as N. destruct (Ascii.eqb_spec x quote) as [->|NQ]; cbn [negb].
        - change (Ascii.eqb quote ",") with false. cbn match. destruct (split_on "," u) as [|y ys]; [congruence|]. cbn [hd] in *. rewrite IH. reflexivity.
        - rewrite (split_on_unfold "," x (unquote u)). pose proof (split_on_nonempty "," (unquote u)) as N'. destruct (Ascii.eqb x ","); [reflexivity|]. destruct (split_on "," u) as [|y ys]; [congruence|]. destruct (split_on "," (unquote u)) as [|z zs]; [congruence|].
          cbn [hd] in *. subst z. unfold unquote. cbn [filter]. destruct (Ascii.eqb_spec x quote); [contradiction|reflexivity]. }
      pose proof (split_on_nonempty "," (unquote u)). destruct (split_on "," (unquote u)) as [|z zs]; [congruence|]. cbn [map hd] in *. now rewrite <- G. }
    destruct CC as [-> | ->]; cbn match.
    + change (startswith $"1      @@@@@" (quote :: s)) with false. change (startswith $"INCON" (quote :: s)) with false. change (startswith $"TIME" (quote :: s)) with false. rewrite NE, HH, H1. destruct t; reflexivity.
    + change (startswith $"1      @@@@@" ("E"%char :: s)) with false. change (startswith $"INCON" ("E"%char :: s)) with false. change (startswith $"TIME" ("E"%char :: s)) with false. rewrite NE, HH, H1. destruct t; reflexivity.
Qed.

Lemma headers_skip t names h : csv_header t names h -> skipn (if is_element t then 1 else 2) (cells_of h) = names.
Proof. intros (_ & C). destruct t; [rewrite C|destruct C as (s & ->)]; reflexivity. Qed.
Lemma count_eq t : (if is_element t then 1 else 2) = name_count t. Proof. now destruct t. Qed.
Theorem csv_as_it_stands t names steps ls connection label_length m : csv_file t names steps ls -> steps <> [] -> NoDup names -> Forall (fun s => even names (snd s) /\ List.length (snd s) = m) steps ->
  exists outs, read_output None connection label_length ls = Ok outs /\ Forall2 (fun s o => shows t $"csv" names (Some (fst s)) (snd s) o) steps outs.
Proof.
  intros (h & u & groups & tail & -> & H & E & F) NE ND EV. unfold read_output. rewrite (csv_found t names h _ H). cbn [bind]. unfold csv_read, read_csv. cbn [readline].
  change (map strip (split_on "," (unquote h))) with (cells_of h). rewrite count_eq. assert (NZ : name_count t <> 0) by (destruct t; discriminate).
  destruct F as [|s g steps groups (first & rest & -> & T & R) F]; [contradiction|]. cbn [concat]. rewrite <- !app_assoc. cbn [app readline].
  assert (SF : startswith (quote :: $"TIME") first = true) by apply T. rewrite SF. cbn match.
  assert (ST : startswith $"TIME" (strip (unquote first)) = true). { apply strip_TIME. apply time_starts in SF as (r & ->). destruct (unquote_TIME r) as (x & ->). apply startswith_app. }
  destruct (time_taken (name_count t) (fst s) first (strip (unquote first)) [] T (cells_strip' first) ST) as (N & CL). destruct (strip (unquote first)) as [|c0 l0] eqn:SU; [congruence|]. rewrite CL. cbn [bind].
  rewrite (rows_read (name_count t) (snd s) rest NZ R), app_nil_r, (steps_read (name_count t) steps groups NZ F _ tail E). cbn [bind].
  change ((Some (fst s), rev (snd s))) with (kept s). replace (rev (map kept steps) ++ [kept s]) with (rev (map kept (s :: steps))) by reflexivity. rewrite rev_involutive. set (all := s :: steps) in *. clearbody all.
  assert (MK : map (fun s : option flt * list (list str * list flt) => (fst s, rev (snd s))) (map kept all) = map (fun s => (Some (fst s), snd s)) all) by (rewrite map_map; apply map_ext; intros x; cbn; now rewrite rev_involutive).
  rewrite MK. assert (SS : same_shape (map (fun s => (Some (fst s), snd s)) all) = true).
  { unfold same_shape. apply andb_true_iff. rewrite Forall_forall in EV. split.
    - apply (rectangular_all m). rewrite map_map. apply Forall_map, Forall_forall. intros x I. now apply EV.
    - apply (rectangular_all (List.length names)). rewrite map_map. apply List.Forall_concat, Forall_map, Forall_forall. intros x I. cbn [snd]. apply Forall_map. apply (EV x I). }
  rewrite SS, <- count_eq, (headers_skip t names h H). unfold to_output.
  destruct (all_shown t $"csv" names (map (fun s => (Some (fst s), snd s)) all) ND) as (outs & M & SH); [apply Forall_map; eapply Forall_impl; [|exact EV]; now intros x []|].
  rewrite M. cbn [bind]. exists outs. split; [reflexivity|]. clear -SH. revert outs SH. induction all as [|x all IH]; intros outs SH; inversion SH; subst; constructor; auto.
Qed.
Theorem csv_table_as_it_stands t names rows ls connection label_length : csv_table t names rows ls -> NoDup names -> even names rows ->
  exists o, read_output None connection label_length ls = Ok [o] /\ shows t $"csv" names None rows o.
Proof.
  intros (h & u & body & tail & -> & H & E & F) ND EV. unfold read_output. rewrite (csv_found t names h _ H). cbn [bind]. unfold csv_read, read_csv. cbn [readline].
  change (map strip (split_on "," (unquote h))) with (cells_of h). rewrite count_eq. assert (NZ : name_count t <> 0) by (destruct t; discriminate).
  destruct EV as (NR & EV). destruct F as [|row l rows body R F]; [contradiction|]. cbn [app readline]. assert (SF : startswith (quote :: $"TIME") l = false).
  { apply not_true_iff_false. intros X. apply time_starts in X as (r & ->). destruct R as (texts & C & L & _ & _ & NT). assert (HC : hd [] (cells_of (quote :: $"TIME" ++ r)) = hd [] (fst row)) by (rewrite C; destruct (fst row); [now cbn in L; congruence|reflexivity]).
    assert (Z : startswith $"TIME" (hd [] (cells_of (quote :: $"TIME" ++ r))) = true); [|congruence]. rewrite <- cells_strip'. destruct (unquote_TIME r) as (x & ->).
    assert (Q : startswith $"TIME" (strip ($"TIME" ++ x)) = true) by (apply strip_TIME, startswith_app). apply first_starts in Q. pose proof (split_on_nonempty "," (strip ($"TIME" ++ x))). destruct (split_on "," (strip ($"TIME" ++ x))); [congruence|]. cbn [map hd] in *. now apply strip_TIME. }
  rewrite SF. cbn match. destruct (row_taken (name_count t) row l (strip (unquote l)) None [] [] NZ R (cells_strip' l)) as (N & CL). destruct (strip (unquote l)) as [|c0 l0] eqn:SU; [congruence|]. rewrite CL. cbn [bind].
  rewrite (rows_read (name_count t) rows body NZ F), (tail_ends _ _ tail E). cbn [bind rev app map fst snd]. rewrite rev_app_distr, rev_involutive. cbn [rev app].
  assert (SS : same_shape [(@None flt, row :: rows)] = true).
  { unfold same_shape. apply andb_true_iff. split; [cbn [map rectangular forallb]; now rewrite Nat.eqb_refl|]. apply (rectangular_all (List.length names)). cbn [map concat]. rewrite app_nil_r. cbn [snd]. now apply (Forall_map snd (fun r => List.length r = List.length names) (row :: rows)). }
  rewrite SS, <- count_eq, (headers_skip t names h H). unfold to_output. cbn [map mapM]. destruct (step_shows t $"csv" names None (row :: rows) ND (conj NR EV)) as (o & O & S). cbn [fst snd]. cbn [map] in O. rewrite O. cbn [bind]. exists o. split; [reflexivity|exact S].
Qed.

(** ** PetraSim files *)
Lemma unique_values ts : Forall finite ts -> StronglySorted before (unique_times ts) /\ (forall x, In x (unique_times ts) -> In x ts) /\ forall x, In x ts -> exists y, In y (unique_times ts) /\ (fval x == fval y)%Q.
Proof.
  intros F. unfold unique_times.
  assert (G : forall ts l, Forall finite (l ++ ts) -> StronglySorted before l -> StronglySorted before (fold_left (fun l t => insert_time t l) ts l) /\
     (forall x, In x (fold_left (fun l t => insert_time t l) ts l) -> In x (l ++ ts)) /\ forall x, In x (l ++ ts) -> exists y, In y (fold_left (fun l t => insert_time t l) ts l) /\ (fval x == fval y)%Q).
  { clear. induction ts as [|t ts IH]; intros l F S; cbn [fold_left]; [rewrite app_nil_r; split; [exact S|]; split; [auto|]; intros x I; exists x; split; [exact I|reflexivity]|].
    apply Forall_app in F as [F1 F2]. apply Forall_cons_iff in F2 as [F2 F3].
    assert (I1 : forall l x, In x (insert_time t l) -> x = t \/ In x l). { clear. induction l as [|u r IH]; cbn [insert_time In]; intros x I; [intuition|]. destruct (fcompare t u); cbn [In] in I; [now right|intuition|]. destruct I as [<-|I]; [right; now left|]. destruct (IH x I); auto. }
    assert (I2 : forall l x, In x l -> In x (insert_time t l)). { clear. induction l as [|u r IH]; cbn [insert_time In]; intros x I; [destruct I|]. destruct (fcompare t u); cbn [In]; intuition. }
    assert (I3 : exists y, In y (insert_time t l) /\ (fval t == fval y)%Q).
    { clear - F1 F2. induction l as [|u r IH]; cbn [insert_time]; [exists t; split; [now left|reflexivity]|]. apply Forall_cons_iff in F1 as [Fu F1]. destruct (fcompare t u) eqn:E.
      - exists u. split; [now left|]. rewrite fcompare_finite in E by auto. now apply Qeq_alt.
      - exists t. split; [now left|reflexivity].
      - destruct (IH F1) as (y & Y & Q). exists y. split; [now right|exact Q]. }
    destruct (IH (insert_time t l)) as (A & B & C).
    - apply Forall_app. split; [|exact F3]. apply Forall_forall. intros x I. apply I1 in I as [-> | I]; [exact F2|]. rewrite Forall_forall in F1. auto.
    - now apply insert_sorted.
    - split; [exact A|]. split.
      + intros x I. apply B in I. apply in_app_iff in I as [I|I]; [apply I1 in I as [-> | I]|]; apply in_app_iff; [right; now left|now left|right; now right].
      + intros x I. apply in_app_iff in I as [I|[<-|I]].
        * apply C. apply in_app_iff. left. now apply I2.
        * destruct I3 as (y & Y & Q). destruct (C y) as (z & Z & Q'); [apply in_app_iff; now left|]. exists z. split; [exact Z|]. now rewrite Q.
        * apply C. apply in_app_iff. now right. }
  destruct (G ts [] F) as (A & B & C); [constructor|]. auto.
Qed.
Lemma petrasim_body rows body tail : Forall2 petrasim_row_line rows body -> ends tail -> petrasim_rows (body ++ tail) = Ok rows.
Proof.
  intros F E. induction F as [|row l rows body (time & index & texts & C & T & N) _ IH]; [destruct tail as [|l tail]; [reflexivity|]; cbn in *; now rewrite E|].
  cbn [app]. assert (X : map strip (split_on "," (strip l)) = time :: snd (fst row) :: index :: texts) by (rewrite split_strip by reflexivity; exact C).
  rewrite (petrasim_rows_cons l (body ++ tail) row); [rewrite IH; reflexivity| |].
  - intros Z. rewrite Z in X. discriminate X.
  - rewrite petrasim_line_strip, X. unfold line_of_cells. cbn [hd nth_error skipn]. unfold to_float at 1. rewrite T. cbn [bind]. rewrite (numbers_read texts (snd row) N). cbn [bind]. now destruct row as [[a b] c].
Qed.
Lemma petrasim_found h r : ~ In "="%char h -> startswith $"TIME" (strip h) = true -> get_output_type (h :: r) = Ok (Element, FPetrasim).
Proof.
  intros NQ S. unfold get_output_type. cbn [readline]. destruct (strip_all h) as (a & b & _ & _ & E). apply startswith_spec in S as (t & S). rewrite S in *.
  assert (NE : contains "=" ($"TIME" ++ t) = false). { apply lacks_contains. intros d I ->. apply NQ. rewrite E. apply in_app_iff. right. apply in_app_iff. now left. }
  change ($"TIME" ++ t) with ("T"%char :: "I"%char :: "M"%char :: "E"%char :: t) in *. cbn match. change (startswith $"1      @@@@@" ("T"%char :: "I"%char :: "M"%char :: "E"%char :: t)) with false. change (startswith $"INCON" ("T"%char :: "I"%char :: "M"%char :: "E"%char :: t)) with false.
  rewrite NE. reflexivity.
Qed.
Theorem petrasim_as_it_stands names rows ls connection label_length : petrasim_file names rows ls -> NoDup names -> Forall (fun r => finite_number (fst (fst r)) /\ List.length (snd r) = List.length names) rows ->
  exists outs, read_output None connection label_length ls = Ok outs /\ StronglySorted (fun o o' => forall t t', o_time o = Some t -> o_time o' = Some t' -> (fval t < fval t')%Q) outs /\
    (forall r, In r rows -> exists o t, In o outs /\ o_time o = Some t /\ (fval (fst (fst r)) == fval t)%Q) /\
    Forall (fun o => exists t, at_time t rows <> [] /\ shows Element $"petrasim" names (Some t) (at_time t rows) o) outs.
Proof.
  intros (h & body & tail & -> & NQ & S & (c1 & c2 & c3 & C) & E & F) ND EV. unfold read_output. rewrite (petrasim_found h _ NQ S). cbn [bind]. unfold petrasim_read. cbn [readline].
  assert (HN : map strip (skipn 3 (split_on "," (strip h))) = names) by (rewrite <- skipn_map, split_strip, C by reflexivity; reflexivity). rewrite HN, (petrasim_body rows body tail F E). cbn [bind].
  assert (NN : existsb (fun r : flt * str * list flt => is_nan (fst (fst r))) rows = false).
  { apply not_true_iff_false. intros X. apply existsb_exists in X as (r & I & X). rewrite Forall_forall in EV. destruct (EV r I) as (FN & _). destruct (fst (fst r)); try discriminate X. destruct FN. }
  assert (RC : rectangular (map snd rows) = true) by (apply (rectangular_all (List.length names)), Forall_map; eapply Forall_impl; [|exact EV]; now intros r []).
  rewrite NN, RC. set (ts := map (fun r : flt * str * list flt => fst (fst r)) rows). assert (FT : Forall finite ts) by (apply Forall_map; eapply Forall_impl; [|exact EV]; now intros r []).
  destruct (unique_values ts FT) as (U1 & U2 & U3). set (us := unique_times ts) in *. clearbody us. unfold to_output.
  assert (FU : Forall finite us) by (apply Forall_forall; intros x I; rewrite Forall_forall in FT; auto).
  assert (OWN : forall t, In t us -> even names (at_time t rows) /\ (Some t, Some (map (fun r : flt * str * list flt => [snd (fst r)]) (filter (fun r => same_time (fst (fst r)) t) rows)), map snd (filter (fun r => same_time (fst (fst r)) t) rows)) =
     (Some t, Some (map fst (at_time t rows)), map snd (at_time t rows))).
  { intros t I. assert (FE : filter (fun r : flt * str * list flt => same_time (fst (fst r)) t) rows = filter (fun r => Qeq_bool (fval (fst (fst r))) (fval t)) rows).
    { apply filter_ext_in. intros r R. unfold same_time. rewrite Forall_forall in EV, FU. destruct (EV r R) as (FR & _). rewrite fcompare_finite by (auto; apply FU; exact I).
      destruct (fval (fst (fst r)) ?= fval t)%Q eqn:Q; symmetry; [now apply Qeq_bool_iff, Qeq_alt| |]; apply not_true_iff_false; intros X; apply Qeq_bool_iff, Qeq_alt in X; congruence. }
    rewrite FE. unfold at_time. split; [split|].
    - pose proof (U2 t I) as IT. unfold ts in IT. apply in_map_iff in IT as (r & Q & R). intros X. apply map_eq_nil in X. assert (Y : In r (filter (fun r => Qeq_bool (fval (fst (fst r))) (fval t)) rows)) by (apply filter_In; split; [exact R|]; rewrite Q; apply Qeq_bool_iff; reflexivity). rewrite X in Y. destruct Y.
    - apply Forall_map, Forall_forall. intros r R. apply filter_In in R as (R & _). rewrite Forall_forall in EV. now apply EV.
    - rewrite !map_map. reflexivity. }
  assert (MM : exists outs, mapM (step_output Element $"petrasim" names) (map (fun time => (Some time, Some (map (fun r : flt * str * list flt => [snd (fst r)]) (filter (fun r => same_time (fst (fst r)) time) rows)), map snd (filter (fun r => same_time (fst (fst r)) time) rows))) us) = Ok outs /\
     Forall2 (fun t o => shows Element $"petrasim" names (Some t) (at_time t rows) o) us outs).
  { clear - OWN ND. induction us as [|t us IH]; [exists []; split; [reflexivity|constructor]|]. destruct IH as (outs & M & R); [intros x I; apply OWN; now right|]. destruct (OWN t (or_introl eq_refl)) as (EV & Q).
    destruct (step_shows Element $"petrasim" names (Some t) (at_time t rows) ND EV) as (o & O & SH). exists (o :: outs). cbn [map mapM]. rewrite Q, O. cbn [bind]. rewrite M. split; [reflexivity|]. constructor; auto. }
  destruct MM as (outs & M & R). rewrite M. cbn [bind]. exists outs. split; [reflexivity|]. split; [|split].
  - clear - U1 R. revert outs R. induction U1 as [|t us _ IH FA]; intros outs R; inversion R as [|? o ? outs' SH R']; subst; constructor; [now apply IH|]. clear IH.
    assert (G : forall o', In o' outs' -> exists t', In t' us /\ o_time o' = Some t'). { clear - R'. induction R' as [|t o us outs SH _ IH]; intros o' I; [destruct I|]. destruct I as [<-|I]; [exists t; split; [now left|apply SH]|]. destruct (IH o' I) as (t' & I' & T'). exists t'. split; [now right|exact T']. }
    apply Forall_forall. intros o' I t1 t2 T1 T2. destruct (G o' I) as (t' & I' & T'). destruct SH as (_ & _ & TO & _). assert (t1 = t) by congruence. assert (t2 = t') by congruence. subst. rewrite Forall_forall in FA. exact (FA t' I').
  - intros r I. destruct (U3 (fst (fst r))) as (y & Y & Q); [apply in_map_iff; now exists r|]. assert (G : exists o, In o outs /\ o_time o = Some y).
    { clear - R Y. induction R as [|t o us outs SH _ IH]; [destruct Y|]. destruct Y as [<-|Y]; [exists o; split; [now left|apply SH]|]. destruct (IH Y) as (o' & I' & T'). exists o'. split; [now right|exact T']. }
    destruct G as (o & IO & TO). exists o, y. auto.
  - assert (G : Forall (fun t => at_time t rows <> []) us) by (apply Forall_forall; intros t I; apply (OWN t I)). clear - R G. induction R as [|t o us outs SH _ IH]; [constructor|]. inversion_clear G. constructor; [exists t; auto|auto].
Qed.
