(** PetraSim outputs. *)
From Coq Require Import String Ascii ZArith QArith Bool Lia Permutation Sorted List.
From Verif Require Import Base.Str Base.Digits Base.QPow Base.Flt Base.FltRound Base.FltText Model.Py Model.Dispatch Model.Output
  Spec.Fields Spec.Output Proofs.DictLemmas Proofs.RecordLemmas Proofs.BlockTools Proofs.FileProof Proofs.CellText Proofs.CsvProof.
Import ListNotations.
Local Open Scope nat_scope.

(** ** split after strip *)
Lemma split_on_aux_cur sep cur s : split_on_aux sep cur s =
  match split_on sep s with h :: t => (rev cur ++ h) :: t | [] => [] end.
Proof.
  unfold split_on. revert cur. induction s as [|c s IH]; intros cur; cbn [split_on_aux].
  - cbn. now rewrite app_nil_r.
  - destruct (Ascii.eqb c sep) eqn:E.
    + cbn. now rewrite app_nil_r.
    + rewrite (IH (c :: cur)), (IH [c]). destruct (split_on_aux sep [] s); auto. cbn. now rewrite <- app_assoc.
Qed.
Lemma split_on_unfold sep c s : split_on sep (c :: s) =
  if Ascii.eqb c sep then [] :: split_on sep s
  else match split_on sep s with h :: t => (c :: h) :: t | [] => [] end.
Proof. unfold split_on at 1. cbn [split_on_aux]. destruct (Ascii.eqb c sep); auto. now rewrite split_on_aux_cur. Qed.
Lemma split_on_nonempty sep s : split_on sep s <> [].
Proof.
  induction s as [|c s IH]; [discriminate|]. rewrite split_on_unfold. destruct (Ascii.eqb c sep); [discriminate|].
  destruct (split_on sep s); [congruence|discriminate].
Qed.
Lemma strip_cons c s : is_space c = true -> strip (c :: s) = strip s.
Proof. intros H. unfold strip. cbn [lstrip]. now rewrite H. Qed.
Lemma strip_all s : exists a b, forallb is_space a = true /\ forallb is_space b = true /\ s = a ++ strip s ++ b.
Proof.
  assert (L : forall t, exists a, forallb is_space a = true /\ t = a ++ lstrip t).
  { induction t as [|c t (a & A & E)]; [now exists []|]. cbn [lstrip]. destruct (is_space c) eqn:S.
    - exists (c :: a). cbn. rewrite S, A, <- E. auto.
    - now exists []. }
  destruct (L s) as (a & A & E). destruct (L (rev (lstrip s))) as (b & B & F).
  exists a, (rev b). split; auto. split.
  - rewrite forallb_forall in *. intros x I. apply B. now apply in_rev.
  - unfold strip, rstrip. rewrite <- (rev_involutive (lstrip s)) in E. rewrite F in E. rewrite rev_app_distr in E. exact E.
Qed.
Lemma strip_snoc c s : is_space c = true -> strip (s ++ [c]) = strip s.
Proof.
  intros H. destruct (strip_all s) as (a & b & A & B & E). rewrite E at 1. rewrite <- !app_assoc.
  apply strip_around; auto; [apply strip_trimmed|]. rewrite forallb_app, B. cbn. now rewrite H.
Qed.
Lemma split_lead sep a s : sep <> sp -> is_space sep = false -> forallb is_space a = true ->
  map strip (split_on sep (a ++ s)) = map strip (split_on sep s).
Proof.
  intros N1 N2. induction a as [|c a IH]; auto. cbn [forallb app]. intros H. apply andb_true_iff in H as [H1 H2].
  rewrite split_on_unfold. destruct (Ascii.eqb_spec c sep); [congruence|]. rewrite <- IH by auto.
  destruct (split_on sep (a ++ s)); auto. cbn [map]. now rewrite strip_cons.
Qed.
Lemma split_snoc sep c s : c <> sep ->
  split_on sep (s ++ [c]) = removelast (split_on sep s) ++ [last (split_on sep s) [] ++ [c]].
Proof.
  intros N. assert (N' := N). apply Ascii.eqb_neq in N. induction s as [|d s IH]; cbn [app].
  - rewrite split_on_unfold, N. reflexivity.
  - rewrite !split_on_unfold, IH. pose proof (split_on_nonempty sep s) as NE.
    destruct (split_on sep s) as [|h t]; [congruence|]. destruct (Ascii.eqb d sep); [reflexivity|].
    destruct t; reflexivity.
Qed.
Lemma split_trail sep b s : is_space sep = false -> forallb is_space b = true ->
  map strip (split_on sep (s ++ b)) = map strip (split_on sep s).
Proof.
  intros N2. revert s. induction b as [|c b IH]; intros s; [now rewrite app_nil_r|]. cbn [forallb]. intros H.
  apply andb_true_iff in H as [H1 H2]. replace (s ++ c :: b) with ((s ++ [c]) ++ b) by now rewrite <- app_assoc.
  rewrite IH by auto. rewrite split_snoc by congruence.
  rewrite (app_removelast_last [] (split_on_nonempty sep s)) at 3. rewrite !map_app. cbn [map]. now rewrite strip_snoc.
Qed.
Lemma split_strip sep s : is_space sep = false -> map strip (split_on sep (strip s)) = map strip (split_on sep s).
Proof.
  intros N. destruct (strip_all s) as (a & b & A & B & E). rewrite E at 2. rewrite split_lead, split_trail; auto.
  intros ->. discriminate.
Qed.
Lemma strip_strip s : strip (strip s) = strip s.
Proof. pose proof (strip_trimmed s). now rewrite trimmed_strip. Qed.

(** ** Order of times *)
Lemma fval_scaled s m e k : (k <= e)%Z -> (fval (Fin s m e) == inject_Z (signed s m * 2 ^ (e - k)) * qpow 2 k)%Q.
Proof.
  intros L. assert (E : (qpow 2 e == qpow 2 k * inject_Z (2 ^ (e - k)))%Q).
  { rewrite <- qpow_add_pos by lia. now replace (k + (e - k))%Z with e by lia. }
  rewrite inject_Z_mult. unfold signed. destruct s; cbn [fval]; unfold qval; rewrite E; [rewrite inject_Z_opp|]; ring.
Qed.
Lemma fcompare_fval s m e s' m' e' :
  fcompare (Fin s m e) (Fin s' m' e') = (fval (Fin s m e) ?= fval (Fin s' m' e'))%Q.
Proof.
  cbn [fcompare]. set (k := Z.min e e').
  rewrite (fval_scaled s m e k), (fval_scaled s' m' e' k) by (unfold k; lia).
  set (a := (signed s m * 2 ^ (e - k))%Z). set (b := (signed s' m' * 2 ^ (e' - k))%Z).
  assert (P : (0 < qpow 2 k)%Q) by now apply qpow_pos.
  symmetry. destruct (Z.compare_spec a b) as [-> | L | L].
  - apply Qeq_alt. reflexivity.
  - apply Qlt_alt. apply Qmult_lt_r; auto. now apply inject_lt.
  - apply Qgt_alt. apply Qmult_lt_r; auto. now apply inject_lt.
Qed.
Definition finite (x : flt) : Prop := match x with Fin _ _ _ => True | _ => False end.
Lemma fcompare_finite x y : finite x -> finite y -> fcompare x y = (fval x ?= fval y)%Q.
Proof. destruct x, y; cbn [finite]; try tauto. intros _ _. apply fcompare_fval. Qed.
Definition before (x y : flt) : Prop := (fval x < fval y)%Q.

Lemma insert_in t l : finite t -> Forall finite l -> (forall x, In x l -> fval x == fval t -> x = t)%Q ->
  forall x, In x (insert_time t l) <-> x = t \/ In x l.
Proof.
  intros Ft F U x. induction l as [|u r IH]; cbn [insert_time In]; [intuition congruence|].
  apply Forall_cons_iff in F as [F1 F2]. rewrite fcompare_finite by auto.
  destruct (fval t ?= fval u)%Q eqn:E.
  - apply Qeq_alt in E. assert (u = t) as -> by (apply U; [now left|now symmetry]). cbn [In]. intuition congruence.
  - cbn [In]. intuition congruence.
  - cbn [In]. rewrite IH; [intuition congruence|auto|]. intros y Hy. apply U. now right.
Qed.
Lemma insert_sorted t l : finite t -> Forall finite l -> StronglySorted before l -> StronglySorted before (insert_time t l).
Proof.
  intros Ft F. induction 1 as [|u r SS IH FA]; cbn [insert_time]; [repeat constructor|].
  apply Forall_cons_iff in F as [F1 F2]. rewrite fcompare_finite by auto.
  destruct (fval t ?= fval u)%Q eqn:E.
  - constructor; auto.
  - apply Qlt_alt in E. constructor; [constructor; auto|]. constructor; auto. eapply Forall_impl; [|exact FA].
    intros x. unfold before. intros. now apply (Qlt_trans _ (fval u)).
  - apply Qgt_alt in E. constructor; auto. apply Forall_forall. intros x I.
    assert (G : forall l, In x (insert_time t l) -> x = t \/ In x l).
    { clear. induction l as [|v l IH]; cbn [insert_time In]; [intuition|]. destruct (fcompare t v); cbn [In]; intuition. }
    apply G in I as [-> | I]; [exact E|]. rewrite Forall_forall in FA. auto.
Qed.
Lemma unique_spec ts : Forall finite ts -> (forall x y, In x ts -> In y ts -> fval x == fval y -> x = y)%Q ->
  StronglySorted before (unique_times ts) /\ forall x, In x (unique_times ts) <-> In x ts.
Proof.
  intros F U. unfold unique_times.
  assert (G : forall ts l, Forall finite (l ++ ts) -> (forall x y, In x (l ++ ts) -> In y (l ++ ts) -> fval x == fval y -> x = y)%Q ->
     StronglySorted before l -> StronglySorted before (fold_left (fun l t => insert_time t l) ts l) /\
     forall x, In x (fold_left (fun l t => insert_time t l) ts l) <-> In x (l ++ ts)).
  { clear. induction ts as [|t ts IH]; intros l F U S; cbn [fold_left]; [rewrite app_nil_r; intuition|].
    apply Forall_app in F as [F1 F2]. apply Forall_cons_iff in F2 as [F2 F3].
    assert (E : forall x, In x (insert_time t l ++ ts) <-> In x (l ++ t :: ts)).
    { intros x. rewrite !in_app_iff, (insert_in t l F2 F1); [cbn [In]; intuition congruence|].
      intros y Y. apply U; rewrite in_app_iff; cbn [In]; auto. }
    destruct (IH (insert_time t l)) as [S' E'].
    - apply Forall_forall. intros x I. apply E in I. apply in_app_iff in I. rewrite Forall_forall in F1, F3.
      destruct I as [I|[<-|I]]; auto.
    - intros x y X Y. apply U; now apply E.
    - now apply insert_sorted.
    - split; auto. intros x. now rewrite E', E. }
  apply (G ts []); auto. constructor.
Qed.
Lemma sorted_unique l1 l2 : StronglySorted before l1 -> StronglySorted before l2 ->
  (forall x, In x l1 <-> In x l2) -> l1 = l2.
Proof.
  assert (IRR : forall x, ~ before x x) by (intros x H; now apply Qlt_irrefl in H).
  assert (ASY : forall x y, before x y -> before y x -> False).
  { intros x y A B. apply (IRR x). unfold before in *. now apply (Qlt_trans _ (fval y)). }
  intros S1. revert l2. induction S1 as [|a l1 S1 IH F1]; intros l2 S2 E.
  - destruct l2 as [|b l2]; auto. destruct (proj2 (E b) (or_introl eq_refl)).
  - destruct S2 as [|b l2 S2 F2]; [destruct (proj1 (E a) (or_introl eq_refl))|].
    rewrite Forall_forall in F1, F2.
    assert (a = b) as ->.
    { destruct (proj1 (E a) (or_introl eq_refl)) as [|A]; [congruence|].
      destruct (proj2 (E b) (or_introl eq_refl)) as [|B]; [congruence|]. exfalso. eapply ASY; eauto. }
    f_equal. apply IH; auto. intros x. split; intros I.
    + destruct (proj1 (E x) (or_intror I)) as [<-|]; auto. exfalso. apply (IRR b). auto.
    + destruct (proj2 (E x) (or_intror I)) as [<-|]; auto. exfalso. apply (IRR b). auto.
Qed.

(** ** A row *)
Definition prow_cells (t : flt) (s : str) (i : nat) (xs : list flt) : list str :=
  number t :: rjust 18 s :: rjust 20 (print_Z (Z.of_nat i + 1)) :: map number xs.
Lemma print_lacks d n : is_digit d = false -> lacks d (print_Z (Z.of_nat n + 1)).
Proof.
  intros D c I ->. unfold print_Z in I. destruct (Z.ltb_spec (Z.of_nat n + 1) 0); [lia|].
  pose proof (digits_all (Z.of_nat n + 1)) as H0. rewrite forallb_forall in H0. rewrite H0 in D; auto. discriminate.
Qed.
Lemma strip_number' x : strip (number x) = fmt_e 12 x.
Proof. apply strip_number. Qed.
Lemma prow_lacks d t s i xs : d <> sp -> num_c d = false -> lacks d s -> Forall (lacks d) (prow_cells t s i xs).
Proof.
  intros N1 N2 L. assert (D : is_digit d = false) by (unfold num_c in N2; now apply orb_false_iff in N2).
  unfold prow_cells. constructor; [now apply lacks_number|]. constructor; [now apply lacks_rjust|].
  constructor; [apply lacks_rjust; auto; now apply print_lacks|]. apply Forall_map, Forall_forall. intros. now apply lacks_number.
Qed.
(** What is read depends on the cells without outer blanks only. *)
Definition line_of_cells (cells : list str) : res (flt * str * list flt) :=
  let* t := to_float (hd [] cells) in
  match nth_error cells 1 with
  | None => Err IndexError
  | Some l => let* xs := mapM to_float (skipn 3 cells) in Ok (t, l, xs)
  end.
Lemma mapM_strip l : mapM to_float l = mapM to_float (map strip l).
Proof. induction l as [|x l IH]; auto. cbn [mapM map]. now rewrite <- to_float_strip, IH. Qed.
Lemma petrasim_line_strip line : petrasim_line line = line_of_cells (map strip (split_on "," line)).
Proof.
  unfold petrasim_line, line_of_cells. pose proof (split_on_nonempty "," line) as N.
  destruct (split_on "," line) as [|h cells]; [congruence|]. cbn [hd map]. rewrite <- to_float_strip.
  destruct (to_float h); cbn [bind]; auto. cbn [nth_error]. destruct cells as [|l cells]; auto. cbn [map].
  change (skipn 3 (strip h :: strip l :: map strip cells)) with (skipn 1 (map strip cells)).
  change (skipn 3 (h :: l :: cells)) with (skipn 1 cells). rewrite skipn_map, <- mapM_strip. reflexivity.
Qed.
Lemma prow_read t s i xs : is_f64 t = true -> plain s -> Forall (fun x => is_f64 x = true) xs ->
  strip (comma_line (prow_cells t s i xs)) <> [] /\
  petrasim_line (strip (comma_line (prow_cells t s i xs))) = Ok (rnd_e 12 t, s, map (rnd_e 12) xs).
Proof.
  intros Ft P F. assert (E : map strip (split_on "," (strip (comma_line (prow_cells t s i xs)))) =
     fmt_e 12 t :: s :: print_Z (Z.of_nat i + 1) :: map (fmt_e 12) xs).
  { rewrite split_strip by reflexivity. unfold comma_line. rewrite split_trail by reflexivity. rewrite split_on_join.
    - unfold prow_cells. cbn [map]. rewrite strip_number, strip_rjust by apply P. rewrite strip_rjust by apply print_Z_trimmed.
      do 3 f_equal. rewrite map_map. apply map_ext. intros. apply strip_number.
    - discriminate.
    - apply prow_lacks; [discriminate|reflexivity|]. now apply plain_lacks. }
  split.
  - intros X. rewrite X in E. discriminate.
  - rewrite petrasim_line_strip, E. unfold line_of_cells. cbn [hd nth_error]. rewrite to_float_e by auto. cbn [bind skipn].
    rewrite (mapM_ok _ (fun l => match to_float l with Ok x => x | Err _ => NaN end)).
    + cbn [bind]. rewrite map_map. do 2 f_equal. apply map_ext_in. intros x I. rewrite Forall_forall in F. now rewrite to_float_e by auto.
    + intros l I. apply in_map_iff in I as (x & <- & I). rewrite Forall_forall in F. now rewrite to_float_e by auto.
Qed.
Lemma petrasim_rows_cons l r x : strip l <> [] -> petrasim_line (strip l) = Ok x ->
  petrasim_rows (l :: r) = let* xs := petrasim_rows r in Ok (x :: xs).
Proof. intros N E. cbn [petrasim_rows]. destruct (strip l); [congruence|]. now rewrite E. Qed.

(** ** The outputs *)
Definition size (o : output) : nat := List.length (labels_of o).
Definition el (o : output) (i : nat) : str := hd [] (lab o i).
Section Sheets.
Variables (hs : list str) (outs : list output).
Hypothesis HS : petrasim_sheets outs.
Hypothesis HN : forall o k, In o outs -> In k hs <-> In k (names o).
Hypothesis HH : hs <> [].

Lemma psheet o : In o outs -> sheet (fun l => exists s, l = [s] /\ plain s) (size o) o /\ size o <> 0.
Proof.
  intros I. destruct HS as (_ & F & _). rewrite Forall_forall in F. destruct (F o I) as (_ & _ & _ & n & N & SH).
  destruct (sh_labels _ _ _ SH) as (ls & E & L & _).
  assert (E' : size o = n) by (unfold size, labels_of; now rewrite E). rewrite E'. auto.
Qed.
Definition prow (o : output) (i : nat) : flt * str * list flt :=
  (rnd_e 12 (time_of o), el o i, map (fun k => rnd_e 12 (val o i k)) hs).
Definition ptext (o : output) (i : nat) : str :=
  comma_line (prow_cells (time_of o) (el o i) i (map (val o i) hs)).
Lemma pvals o i : In o outs -> i < size o -> Forall (fun x => is_f64 x = true) (map (val o i) hs).
Proof.
  intros I L. destruct (psheet o I) as [SH _]. apply Forall_map, Forall_forall. intros k K.
  eapply sheet_val; eauto. now apply (proj1 (HN o k I)).
Qed.
Lemma plabel o i : In o outs -> i < size o -> lab o i = [el o i] /\ plain (el o i).
Proof.
  intros I L. destruct (psheet o I) as [SH _]. destruct (sheet_label _ _ _ SH i L) as (s & E & P).
  unfold el. rewrite E. auto.
Qed.
Lemma prow_ok o i : In o outs -> i < size o ->
  strip (ptext o i) <> [] /\ petrasim_line (strip (ptext o i)) = Ok (prow o i).
Proof.
  intros I L. destruct (psheet o I) as [SH _]. destruct (plabel o i I L) as [_ P].
  destruct (prow_read (time_of o) (el o i) i (map (val o i) hs)) as [A B]; auto.
  - apply (sheet_time _ _ _ SH).
  - now apply pvals.
  - split; auto. unfold ptext. rewrite B. unfold prow. now rewrite map_map.
Qed.
Lemma prows_read os : incl os outs ->
  petrasim_rows (concat (map (fun o => map (ptext o) (seq 0 (size o))) os)) =
  Ok (concat (map (fun o => map (prow o) (seq 0 (size o))) os)).
Proof.
  induction os as [|o os IH]; intros I; [reflexivity|]. cbn [map concat].
  assert (G : forall is_ rest rs, (forall i, In i is_ -> i < size o) -> petrasim_rows rest = Ok rs ->
     petrasim_rows (map (ptext o) is_ ++ rest) = Ok (map (prow o) is_ ++ rs)).
  { induction is_ as [|i is_ IHi]; intros rest rs B E; auto. cbn [map app].
    destruct (prow_ok o i) as [A1 A2]; [apply I; now left|apply B; now left|].
    rewrite (petrasim_rows_cons _ _ _ A1 A2), (IHi rest rs); auto. intros; apply B; now right. }
  apply G; [intros i Hi; apply in_seq in Hi; lia|]. apply IH. intros x Hx. apply I. now right.
Qed.
Lemma petrasim_step_ok o : In o outs -> petrasim_step hs o = Ok (map (ptext o) (seq 0 (size o))).
Proof.
  intros I. destruct (psheet o I) as [SH N]. unfold petrasim_step.
  rewrite (mapM_ok _ (column o)).
  - cbn [bind].
    assert (EC : map (column o) hs = map (fun k => map (fun i => val o i k) (seq 0 (size o))) hs).
    { apply map_ext_in. intros k K. destruct (sheet_column _ _ _ SH k (proj1 (HN o k I) K)) as (_ & C & _).
      unfold val. now rewrite map_nth_seq. }
    rewrite EC, (transpose_map (fun k i => val o i k) hs (seq 0 (size o)) HH). cbn [bind].
    assert (EN : enumerate (map (fun i => map (fun k => val o i k) hs) (seq 0 (size o))) =
       map (fun i => (i, map (val o i) hs)) (seq 0 (size o))).
    { unfold enumerate. rewrite map_length, seq_length. generalize (seq 0 (size o)) as s. induction s as [|i s IH]; [reflexivity|]. cbn [map combine]. now rewrite IH. }
    rewrite EN. rewrite (mapM_ok _ (fun ir => ptext o (fst ir))).
    + now rewrite map_map.
    + intros [i r] J. apply in_map_iff in J as (j & [= <- <-] & J). apply in_seq in J. cbn [fst snd].
      unfold petrasim_row. destruct (sheet_time _ _ _ SH) as [-> _]. unfold fmt_label.
      rewrite (sheet_labels _ _ _ SH). rewrite (map_nth_error (lab o) j (seq 0 (size o)) (d := j)).
      * destruct (plabel o j I ltac:(lia)) as [-> _]. reflexivity.
      * replace (Some j) with (Some (nth j (seq 0 (size o)) 0)) by (rewrite seq_nth by lia; reflexivity).
        apply nth_error_nth'. rewrite seq_length. lia.
  - intros k K. now destruct (sheet_column _ _ _ SH k (proj1 (HN o k I) K)) as (-> & _).
Qed.
Lemma ptext_good o i : In o outs -> i < size o -> good_line (ptext o i).
Proof.
  intros I L. apply comma_good, prow_lacks; [discriminate|reflexivity|]. now apply plain_lacks, plabel.
Qed.
End Sheets.

Lemma pheader_read hs : Forall plain hs ->
  map strip (skipn 3 (split_on "," (strip (comma_line (map (rjust 18) ([$"TIME [sec]"; $"ELEM"; $"INDEX"] ++ hs)))))) = hs.
Proof.
  intros P. rewrite <- skipn_map, split_strip by reflexivity. unfold comma_line. rewrite split_trail by reflexivity.
  assert (PA : Forall plain ([$"TIME [sec]"; $"ELEM"; $"INDEX"] ++ hs)).
  { apply Forall_app. split; auto. repeat constructor; intros; subst; cbn in *; intuition (subst; discriminate). }
  rewrite split_on_join.
  - rewrite map_map. rewrite (map_ext_in _ (fun s => s)); [now rewrite map_id|]. intros s I. apply strip_rjust.
    rewrite Forall_forall in PA. now apply PA.
  - discriminate.
  - apply Forall_map. eapply Forall_impl; [|exact PA]. intros s Hs. apply lacks_rjust; [discriminate|]. now apply plain_lacks.
Qed.
Lemma filter_rows (g : output -> list (flt * str * list flt)) (f : flt * str * list flt -> bool) outs o :
  NoDup outs -> In o outs -> (forall r, In r (g o) -> f r = true) ->
  (forall o' r, In o' outs -> o' <> o -> In r (g o') -> f r = false) -> filter f (concat (map g outs)) = g o.
Proof.
  assert (T : forall l, (forall r : flt * str * list flt, In r l -> f r = true) -> filter f l = l).
  { induction l as [|x l IH]; intros H; auto. cbn. rewrite H by now left. f_equal. apply IH. intros; apply H; now right. }
  assert (FF : forall l, (forall r : flt * str * list flt, In r l -> f r = false) -> filter f l = []).
  { induction l as [|x l IH]; intros H; auto. cbn. rewrite H by now left. apply IH. intros; apply H; now right. }
  induction 1 as [|x outs N D IH]; intros I A B; [destruct I|]. cbn [map concat]. rewrite filter_app.
  destruct I as [-> | I].
  - rewrite T by auto. rewrite FF, app_nil_r; auto. intros r J. apply in_concat in J as (l & L1 & L2).
    apply in_map_iff in L1 as (o' & <- & O). apply (B o'); auto; [now right|]. intros ->. contradiction.
  - rewrite FF; [|intros r J; apply (B x); auto; [now left|intros ->; contradiction]]. apply IH; auto. intros o' r O. apply B. now right.
Qed.

Theorem petrasim_roundtrip outs sorted : petrasim_sheets outs -> Forall (finite_time 12) outs ->
  Permutation outs sorted -> StronglySorted (earlier 12) sorted ->
  exists recs outs', petrasim_write outs = Ok recs /\
    petrasim_read Element $"petrasim" None (lines (concat recs)) = Ok outs' /\
    Forall2 (comes_back $"petrasim" 12 12 true) sorted outs'.
Proof.
  intros HS FT PS SS. pose proof HS as (NE & FO & IN). destruct (exists_last NE) as (front & lst & EO).
  set (hs := columns (o_data lst)).
  assert (LI : In lst outs) by (rewrite EO; apply in_app_iff; right; now left).
  assert (HN : forall o k, In o outs -> In k hs <-> In k (names o)).
  { intros o k I. unfold hs. rewrite columns_in. split; intros K; [now apply (IN lst o)|now apply (IN o lst)]. }
  rewrite Forall_forall in FO. destruct (FO _ LI) as (_ & NN & PL & _).
  assert (HH : hs <> []).
  { destruct (names lst) as [|k ks] eqn:E; [congruence|]. intros X.
    assert (K : In k hs) by (apply (proj2 (HN lst k LI)); rewrite E; now left). rewrite X in K. destruct K. }
  assert (ND : NoDup hs) by (apply columns_nodup; apply (sh_names _ _ _ (proj1 (psheet outs HS _ LI)))).
  assert (PH : Forall plain hs).
  { apply Forall_forall. intros k K. rewrite Forall_forall in PL. apply PL. now apply (proj1 (HN lst k LI)). }
  assert (EW : petrasim_write outs = Ok (comma_line (map (rjust 18) ([$"TIME [sec]"; $"ELEM"; $"INDEX"] ++ hs)) ::
     concat (map (fun o => map (ptext hs o) (seq 0 (size o))) outs))).
  { unfold petrasim_write. rewrite EO, last_output_snoc, <- EO. fold hs.
    rewrite (mapM_ok _ (fun o => map (ptext hs o) (seq 0 (size o)))); [reflexivity|]. intros o I. now apply (petrasim_step_ok hs outs). }
  rewrite EW. eexists _, _. split; [reflexivity|]. rewrite lines_all.
  2:{ constructor.
      - apply comma_good, Forall_map. apply Forall_app. split.
        + repeat constructor; intros c I ->; cbn in I; intuition discriminate.
        + eapply Forall_impl; [|exact PH]. intros s Hs. apply lacks_rjust; [discriminate|]. now apply plain_lacks.
      - apply Forall_concat. intros o I. apply Forall_map, Forall_forall. intros i J. apply in_seq in J.
        apply (ptext_good hs outs); auto. lia. }
  unfold petrasim_read. cbn [readline]. rewrite pheader_read by auto.
  rewrite (prows_read hs outs HS HN outs (incl_refl _)). cbn [bind].
  set (rows := concat (map (fun o => map (prow hs o) (seq 0 (size o))) outs)).
  assert (RI : forall r, In r rows <-> exists o i, In o outs /\ i < size o /\ r = prow hs o i).
  { intros r. unfold rows. rewrite in_concat. split.
    - intros (l & L1 & L2). apply in_map_iff in L1 as (o & <- & O). apply in_map_iff in L2 as (i & <- & J).
      apply in_seq in J. exists o, i. split; auto. split; auto. lia.
    - intros (o & i & O & L & ->). exists (map (prow hs o) (seq 0 (size o))). split.
      + now apply (in_map (fun o => map (prow hs o) (seq 0 (size o)))).
      + apply in_map, in_seq. lia. }
  set (T := fun o => rnd_e 12 (time_of o)).
  assert (TF : forall o, In o outs -> finite (T o) /\ time_value 12 o = fval (T o)).
  { intros o I. rewrite Forall_forall in FT. specialize (FT o I). unfold finite_time, time_value, T, time_of in *.
    destruct (o_time o); [|destruct FT]. split; auto. }
  assert (NN' : existsb (fun r : flt * str * list flt => is_nan (fst (fst r))) rows = false).
  { apply not_true_iff_false. intros X. apply existsb_exists in X as (r & R & X). apply RI in R as (o & i & O & _ & ->).
    destruct (TF o O) as [F _]. cbn [prow fst] in X. fold (T o) in X. destruct (T o); cbn in *; try discriminate; tauto. }
  rewrite NN'.
  assert (RC : rectangular (map snd rows) = true).
  { apply (rectangular_all (List.length hs)), Forall_map, Forall_forall. intros r R. apply RI in R as (o & i & _ & _ & ->).
    cbn [prow snd]. apply map_length. }
  rewrite RC.
  (* times of different outputs differ *)
  assert (NDs : NoDup sorted /\ forall o o', In o sorted -> In o' sorted -> (fval (T o) == fval (T o'))%Q -> o = o').
  { assert (TFs : forall o, In o sorted -> time_value 12 o = fval (T o)) by (intros o I; apply TF; eapply Permutation_in; [symmetry; exact PS|auto]).
    clear - SS TFs. induction SS as [|o l SS IH F]; [split; [constructor|intros o o2 []]|].
    rewrite Forall_forall in F. destruct IH as [I1 I2]; [intros; apply TFs; now right|].
    assert (G : forall x, In x l -> ~ (fval (T o) == fval (T x))%Q).
    { intros x X E. specialize (F x X). unfold earlier in F. rewrite (TFs o), (TFs x), E in F by (cbn; auto). now apply Qlt_irrefl in F. }
    split.
    - constructor; auto. intros X. apply (G o X). reflexivity.
    - intros a b [<-|A] [<-|B] E; auto; exfalso; [apply (G b B E)|apply (G a A); now symmetry]. }
  destruct NDs as [NDs INJ].
  assert (NDo : NoDup outs) by (eapply Permutation_NoDup; [symmetry; exact PS|auto]).
  assert (SO : forall o, In o sorted <-> In o outs).
  { intros o. split; apply Permutation_in; auto. now symmetry. }
  assert (UT : unique_times (map (fun r => fst (fst r)) rows) = map T sorted).
  { assert (TI : forall x, In x (map (fun r => fst (fst r)) rows) <-> exists o, In o outs /\ x = T o).
    { intros x. rewrite in_map_iff. split.
      - intros (r & <- & R). apply RI in R as (o & i & O & _ & ->). exists o. auto.
      - intros (o & O & ->). exists (prow hs o 0). split; auto. apply RI. exists o, 0. split; auto. split; auto.
        destruct (psheet outs HS o O). lia. }
    destruct (unique_spec (map (fun r => fst (fst r)) rows)) as [U1 U2].
    - apply Forall_forall. intros x X. apply TI in X as (o & O & ->). now apply TF.
    - intros x y X Y E. apply TI in X as (o & O & ->). apply TI in Y as (o' & O' & ->). f_equal. apply INJ; auto; now apply SO.
    - apply sorted_unique; auto.
      + assert (TFs : forall o, In o sorted -> time_value 12 o = fval (T o)) by (intros o I; apply TF; now apply SO).
        clear - SS TFs. induction SS as [|o l SS IH F]; cbn [map]; constructor.
        * apply IH. intros; apply TFs; now right.
        * apply Forall_map. rewrite Forall_forall in *. intros x X. specialize (F x X). unfold earlier in F.
          rewrite (TFs o), (TFs x) in F by (cbn; auto). exact F.
      + intros x. rewrite U2, TI, in_map_iff. split; intros (o & A & B); exists o; split; auto; try (now apply SO); congruence. }
  rewrite UT. unfold to_output. rewrite map_map.
  set (back := fun o => Output Element $"petrasim" (Some (T o)) (Some (map (lab o) (seq 0 (size o))))
        (combine hs (map (fun k => map (fun i => rnd_e 12 (val o i k)) (seq 0 (size o))) hs))).
  assert (OWN : forall o, In o sorted ->
     filter (fun r : flt * str * list flt => same_time (fst (fst r)) (T o)) rows = map (prow hs o) (seq 0 (size o))).
  { intros o I. unfold rows. apply (filter_rows (fun o => map (prow hs o) (seq 0 (size o)))); auto; [now apply SO| |].
    - intros r R. apply in_map_iff in R as (i & <- & _). cbn [prow fst]. fold (T o). unfold same_time.
      rewrite fcompare_finite by (apply TF; now apply SO).
      replace (fval (T o) ?= fval (T o))%Q with Eq by (symmetry; apply Qeq_alt; reflexivity). reflexivity.
    - intros o' r O' N R. apply in_map_iff in R as (i & <- & _). cbn [prow fst]. fold (T o'). unfold same_time.
      rewrite fcompare_finite by (apply TF; auto; now apply SO).
      destruct (fval (T o') ?= fval (T o))%Q eqn:E; auto. apply Qeq_alt in E. exfalso. apply N. apply INJ; auto. now apply SO. }
  assert (EM : mapM (step_output Element $"petrasim" hs)
     (map (fun x => (Some (T x),
          Some (map (fun r : flt * str * list flt => [snd (fst r)]) (filter (fun r => same_time (fst (fst r)) (T x)) rows)),
          map snd (filter (fun r => same_time (fst (fst r)) (T x)) rows))) sorted) = Ok (map back sorted)).
  { assert (G : forall l, incl l sorted -> mapM (step_output Element $"petrasim" hs)
       (map (fun x => (Some (T x),
          Some (map (fun r : flt * str * list flt => [snd (fst r)]) (filter (fun r => same_time (fst (fst r)) (T x)) rows)),
          map snd (filter (fun r => same_time (fst (fst r)) (T x)) rows))) l) = Ok (map back l)).
    { induction l as [|o l IH]; intros I; auto. cbn [map mapM]. rewrite IH by (intros x X; apply I; now right).
      assert (IO : In o sorted) by (apply I; now left). assert (IU : In o outs) by now apply SO.
      rewrite (OWN o IO). unfold step_output at 1. rewrite !map_map. cbn [prow fst snd].
      destruct (psheet outs HS o IU) as [_ NZ].
      rewrite (transpose_map (fun i k => rnd_e 12 (val o i k)) (seq 0 (size o)) hs) by (destruct (size o); [congruence|discriminate]).
      cbn [bind]. rewrite to_table_nodup by (auto; now rewrite map_length). unfold back at 2. do 3 f_equal. f_equal.
      apply map_ext_in. intros i J. apply in_seq in J. symmetry. apply (plabel outs HS o i IU). lia. }
    apply G, incl_refl. }
  rewrite EM. cbn [bind]. split; [reflexivity|].
  assert (FB : forall o, In o sorted -> comes_back $"petrasim" 12 12 true o (back o)).
  { intros o Is. assert (I : In o outs) by now apply SO. destruct (psheet outs HS o I) as [SH _]. destruct (FO o I) as [T0 _].
    destruct (sheet_time _ _ _ SH) as [ET _].
    assert (NB : names (back o) = hs).
    { unfold names, back. cbn [o_data].
      assert (Q : forall (A B : Type) (a : list A) (b : list B), List.length a = List.length b -> map fst (combine a b) = a).
      { intros A B. induction a as [|x a IHa]; intros [|y b] E; try discriminate; auto. cbn. f_equal. apply IHa. now injection E. }
      apply Q. now rewrite map_length. }
    constructor; auto.
    - cbn [back o_time]. now rewrite ET.
    - cbn [back o_labels]. symmetry. apply (sheet_labels _ _ _ SH).
    - rewrite NB. apply NoDup_Permutation; [exact ND|apply (sh_names _ _ _ SH)|]. intros k. now apply HN.
    - intros k c K. assert (KN : In k (names o)) by now apply (in_map fst) in K.
      assert (KH : In k hs) by now apply (proj2 (HN o k I)).
      assert (EC : map (fun i => rnd_e 12 (val o i k)) (seq 0 (size o)) = map (rnd_e 12) c).
      { destruct (sheet_column _ _ _ SH k KN) as (C1 & C2 & _). rewrite (tget_in k c) in C1 by (auto; apply (sh_names _ _ _ SH)).
        injection C1 as ->. rewrite <- (map_nth_seq (column o k) NaN (size o) C2) at 1. now rewrite map_map. }
      rewrite <- EC. cbn [back o_data]. clear - KH. induction hs as [|h l IH]; [destruct KH|]. cbn [map combine].
      destruct KH as [-> | KH]; [now left|right; auto]. }
  clear - FB. induction sorted as [|o l IH]; constructor; [apply FB; now left|]. apply IH. intros x Hx. apply FB. now right.
Qed.
