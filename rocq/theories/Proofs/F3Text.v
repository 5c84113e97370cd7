(** Reading back a FLAC3D grid in text. *)
From Coq Require Import String Ascii Arith ZArith Bool Lia List.
From Verif Require Import Base.Str Base.Digits Base.Flt Base.FltText Base.FltExact Model.Py Model.Numpy Model.Mesh Model.F3grid Spec.MeshCells Spec.F3grid
  Proofs.F3Build Proofs.F3Binary.
From Verif Require Proofs.TecplotProof Proofs.TimeSeriesProof.
Import ListNotations.
Local Open Scope nat_scope.

Definition one_line (s : str) : Prop := exists b, s = b ++ [nl] /\ forallb (fun c => negb (Ascii.eqb c nl)) b = true.
Lemma lines_of ls : Forall one_line ls -> lines (concat ls) = ls.
Proof.
  induction 1 as [|l ls (b & -> & B) F IH]; [reflexivity|]. cbn [concat]. rewrite <- app_assoc. cbn [app].
  change (nl :: concat ls) with (nl :: concat ls). rewrite lines_line by auto. now rewrite IH.
Qed.
Notation isword := TecplotProof.word.
Lemma words_split l : words l = split_ws l.
Proof.
  unfold words. assert (E : exists b, l = rstrip l ++ b /\ forallb is_space b = true).
  { unfold rstrip. enough (G : forall k, exists b, rev k = rev (lstrip k) ++ b /\ forallb is_space b = true) by (destruct (G (rev l)) as (b & E & B); rewrite rev_involutive in E; eauto).
    clear. intros l. induction l as [|c l (b & E & B)]; [now exists []|].
    cbn [lstrip]. destruct (is_space c) eqn:S.
    - exists (b ++ [c]). cbn [rev]. rewrite E, app_assoc. split; auto. rewrite forallb_app, B. cbn. now rewrite S.
    - exists []. now rewrite app_nil_r. }
  destruct E as (b & E & B). rewrite E at 2. now rewrite TecplotProof.split_ws_trail.
Qed.
Lemma join_words c ws r : is_space c = true -> Forall isword ws -> ws <> [] -> forallb is_space r = true -> split_ws (join [c] ws ++ r) = ws.
Proof.
  intros C F. induction F as [|w ws W F IH]; intros N R; [contradiction|]. destruct ws as [|w' ws].
  - cbn [join]. rewrite TecplotProof.split_ws_trail by auto. now apply TecplotProof.split_ws_one.
  - cbn [join]. rewrite <- !app_assoc. cbn [app]. rewrite TecplotProof.split_ws_word by auto. f_equal. apply IH; auto. discriminate.
Qed.
Lemma isword_print z : isword (print_Z z).
Proof. split; [|apply print_Z_no_space]. intros E. pose proof (parse_print_Z z) as P. rewrite E in P. discriminate P. Qed.
Lemma isword_fmt x : isword (fmt_e 16 x).
Proof. split; [apply fmt_e_nonempty|apply clean_no_space, fmt_e_clean]. Qed.
Lemma isword_nat n : isword (nat_text n).
Proof. apply isword_print. Qed.
Lemma to_int_nat n : to_int (nat_text n) = Ok (Z.of_nat n).
Proof. unfold to_int, nat_text. now rewrite parse_print_Z. Qed.
Lemma to_ints l : mapM to_int (map nat_text l) = Ok (map Z.of_nat l).
Proof. induction l as [|n l IH]; cbn [map mapM]; auto. rewrite to_int_nat. cbn [bind]. now rewrite IH. Qed.

(** One stretch of the loop *)
Definition leads (s : state) (ls : list str) (s' : state) (rest : list str) : Prop :=
  forall fuel, List.length ls < fuel -> exists fuel', List.length rest < fuel' /\ text_loop fuel s ls = text_loop fuel' s' rest.
Lemma leads_refl s ls : leads s ls s ls.
Proof. intros fuel L. now exists fuel. Qed.
Lemma leads_trans s1 l1 s2 l2 s3 l3 : leads s1 l1 s2 l2 -> leads s2 l2 s3 l3 -> leads s1 l1 s3 l3.
Proof. intros A B fuel L. destruct (A fuel L) as (f1 & L1 & E1). destruct (B f1 L1) as (f2 & L2 & E2). exists f2. split; congruence. Qed.
Lemma leads_end s ls s' : leads s ls s' [] -> text_loop (S (List.length ls)) s ls = Ok s'.
Proof. intros A. destruct (A (S (List.length ls))) as ([|f] & L & E); [lia|cbn in L; lia|]. rewrite E. reflexivity. Qed.
Lemma skip_line s l ws r : words l = $"*" :: ws -> leads s (l :: r) s r.
Proof.
  intros W [|fuel] L; [cbn in L; lia|]. exists fuel. cbn [List.length] in L. split; [lia|]. cbn [text_loop]. rewrite W. reflexivity.
Qed.
Lemma point_line s i p l r : List.length p = 3 -> Forall (fun x => is_f64 x = true) p -> text_point (i, p) = Ok l ->
  leads s (l :: r) (add_point s (pid i) p) r.
Proof.
  intros L3 F E. destruct p as [|x [|y [|z [|? ?]]]]; try discriminate L3. unfold text_point in E. cbn [fst snd] in E.
  apply Forall_cons_iff in F as [Fx F]. apply Forall_cons_iff in F as [Fy F]. apply Forall_cons_iff in F as [Fz _].
  assert (W : words l = [$"G"; print_Z (Z.of_nat (S i)); fmt_e 16 x; fmt_e 16 y; fmt_e 16 z]).
  { assert (l = $"G" ++ tab :: rjust 8 (print_Z (Z.of_nat (S i))) ++ tab :: join [tab] [fmt_e 16 x; fmt_e 16 y; fmt_e 16 z] ++ [nl]) as -> by congruence.
    rewrite words_split. rewrite TecplotProof.split_ws_word; [|split; [discriminate|reflexivity]|reflexivity]. f_equal.
    unfold rjust. rewrite <- app_assoc, TecplotProof.split_ws_lead by apply spaces_all_space.
    rewrite TecplotProof.split_ws_word; [|apply isword_print|reflexivity]. f_equal.
    apply join_words; [reflexivity| |discriminate|reflexivity]. repeat (apply Forall_cons; [apply isword_fmt|]). apply Forall_nil. }
  intros [|fuel] L; [cbn [List.length] in L; lia|]. exists fuel. cbn [List.length] in L. split; [lia|]. cbn [text_loop]. rewrite W.
  change (streqb $"G" $"G") with true. cbv iota. cbn [word item nth_error bind]. 
  change (word (print_Z (Z.of_nat (S i)) :: [fmt_e 16 x; fmt_e 16 y; fmt_e 16 z]) 0) with (Ok (print_Z (Z.of_nat (S i)))). cbn [bind].
  unfold to_int. rewrite parse_print_Z. cbn [bind skipn mapM]. unfold to_flt. rewrite !parse_fmt_16 by auto. reflexivity.
Qed.
Lemma short_word t name : assoc t short_names = Ok name -> isword name /\ streqb name $"B7" = false.
Proof.
  intros H. unfold short_names in H. cbn [assoc] in H.
  repeat (destruct (streqb t _) in H; [injection H as <-; split; [split; [discriminate|reflexivity]|reflexivity]|]). discriminate.
Qed.
Lemma cell_line f s s' i t row l r : text_cell f (i, (t, row)) = Ok l -> add_cell f s (pid i) (map pid row) false = Ok s' ->
  leads s (l :: r) s' r.
Proof.
  unfold text_cell. cbn [fst snd]. intros H A. destruct (assoc t short_names) as [name|] eqn:N; cbn [bind] in H; [|discriminate].
  destruct (short_word _ _ N) as [Wn B7].
  assert (W : words l = (match f with Zone => $"Z" | Face => $"F" end) :: name :: nat_text (S i) :: map nat_text (map S row)).
  { rewrite words_split. rewrite map_map. assert (l = word_line ((match f with Zone => $"Z" | Face => $"F" end) :: name :: nat_text (S i) :: map (fun v => nat_text (S v)) row)) as -> by congruence.
    unfold word_line. apply join_words; [reflexivity| |discriminate|reflexivity].
    constructor; [destruct f; (split; [discriminate|reflexivity])|]. constructor; auto. constructor; [apply isword_nat|].
    clear. induction row; constructor; auto. apply isword_nat. }
  intros [|fuel] L; [cbn [List.length] in L; lia|]. exists fuel. cbn [List.length] in L. split; [lia|]. cbn [text_loop]. rewrite W.
  assert (T : mapM to_int (skipn 2 (name :: nat_text (S i) :: map nat_text (map S row))) = Ok (map pid row)).
  { cbn [skipn]. rewrite to_ints, map_map. reflexivity. }
  assert (P1 : word (name :: nat_text (S i) :: map nat_text (map S row)) 1 = Ok (nat_text (S i))) by reflexivity.
  assert (P0 : word (name :: nat_text (S i) :: map nat_text (map S row)) 0 = Ok name) by reflexivity.
  destruct f.
  - change (streqb $"Z" $"G") with false. change (streqb $"Z" $"Z") with true. cbn [orb]. cbv zeta. rewrite P1. cbn [bind]. rewrite to_int_nat. cbn [bind].
    rewrite T, P0. cbn [bind]. rewrite B7. change (Z.of_nat (S i)) with (pid i). rewrite A. reflexivity.
  - change (streqb $"F" $"G") with false. change (streqb $"F" $"Z") with false. change (streqb $"F" $"F") with true. cbn [orb]. cbv zeta. rewrite P1. cbn [bind]. rewrite to_int_nat. cbn [bind].
    rewrite T, P0. cbn [bind]. rewrite B7. change (Z.of_nat (S i)) with (pid i). rewrite A. reflexivity.
Qed.
(** A stretch of points, of cells *)
Lemma points_lines ps : forall s ls r, Forall (fun ip => List.length (snd ip) = 3 /\ Forall (fun x => is_f64 x = true) (snd ip)) ps ->
  mapM text_point ps = Ok ls -> leads s (ls ++ r) (feed_points s ps) r.
Proof.
  induction ps as [|[i p] ps IH]; intros s ls r F M; cbn [mapM] in M.
  - assert (ls = []) as -> by congruence. apply leads_refl.
  - destruct (text_point (i, p)) as [l|] eqn:E; cbn [bind] in M; [|discriminate]. destruct (mapM text_point ps) as [ls'|] eqn:M'; cbn [bind] in M; [|discriminate].
    assert (ls = l :: ls') as -> by congruence. apply Forall_cons_iff in F as [[F1 F2] F]. cbn [app].
    eapply leads_trans; [apply (point_line s i p l); auto|]. apply IH; auto.
Qed.
Lemma cells_lines f rows : forall s s' ls r, mapM (text_cell f) rows = Ok ls ->
  feed_cells f s (map (fun ic => (fst ic, snd (snd ic))) rows) = Ok s' -> leads s (ls ++ r) s' r.
Proof.
  induction rows as [|[i [t row]] rows IH]; intros s s' ls r M F; cbn [mapM] in M.
  - assert (ls = []) as -> by congruence. assert (s' = s) as -> by (cbn in F; congruence). apply leads_refl.
  - destruct (text_cell f (i, (t, row))) as [l|] eqn:E; cbn [bind] in M; [|discriminate]. destruct (mapM (text_cell f) rows) as [ls'|] eqn:M'; cbn [bind] in M; [|discriminate].
    assert (ls = l :: ls') as -> by congruence. cbn [map fst snd] in F. unfold feed_cells in F. cbn [foldM fst snd] in F.
    destruct (add_cell f s (pid i) (map pid row) false) as [s1|] eqn:A; cbn [bind] in F; [|discriminate]. cbn [app].
    eapply leads_trans; [apply (cell_line f s s1 i t row l); auto|]. apply IH; auto.
Qed.
(** Groups *)
Definition stops (rest : list str) : Prop :=
  match rest with [] => True | l :: _ => exists w ws, words l = w :: ws /\ (w = $"*" \/ w = $"ZGROUP") end.
Definition table_lines (data : list nat) : list str := map (fun r => sp :: word_line (map nat_text r)) (table_rows 20 data).
Lemma table_back rows rest : Forall (fun r => r <> []) rows -> stops rest ->
  read_table (map (fun r => sp :: word_line (map nat_text r)) rows ++ rest) = Ok (map Z.of_nat (concat rows), rest).
Proof.
  intros F S. induction F as [|row rows N F IH]; cbn [map app concat].
  - destruct rest as [|l rest]; [reflexivity|]. destruct S as (w & ws & W & D). cbn [read_table]. rewrite W. destruct D as [-> | ->]; reflexivity.
  - assert (W : words (sp :: word_line (map nat_text row)) = map nat_text row).
    { rewrite words_split. change (sp :: ?x) with ([sp] ++ x). rewrite TecplotProof.split_ws_lead by reflexivity.
      unfold word_line. apply join_words; [reflexivity| | |reflexivity]; [|destruct row; [contradiction|discriminate]].
      clear. induction row; constructor; auto. apply isword_nat. }
    cbn [read_table]. rewrite W. destruct row as [|n row]; [contradiction|]. cbn [map].
    assert (NS : streqb (nat_text n) $"*" || streqb (nat_text n) $"ZGROUP" = false).
    { apply orb_false_iff. split; apply streqb_neq; intros E; pose proof (to_int_nat n) as T; rewrite E in T; discriminate T. }
    rewrite NS. change (nat_text n :: map nat_text row) with (map nat_text (n :: row)). rewrite to_ints. cbn [bind]. rewrite IH. cbn [bind fst snd].
    now rewrite map_app.
Qed.
Lemma table_concat {A} (data : list A) : concat (table_rows 20 data) = data /\ Forall (fun r => r <> []) (table_rows 20 data).
Proof.
  unfold table_rows. split.
  - transitivity (concat (np_split data (cumsum 0 (repeat 20 (List.length data / 20))))); [|apply (TimeSeriesProof.split_concat _ 0)].
    generalize (np_split data (cumsum 0 (repeat 20 (List.length data / 20)))). intros l. induction l as [|r l IH]; [reflexivity|].
    cbn [filter]. destruct r; cbn [List.length Nat.eqb negb concat app]; rewrite ?IH; reflexivity.
  - apply Forall_forall. intros r I. apply filter_In in I as [_ I]. destruct r; [discriminate|discriminate].
Qed.
Definition good_name (name : str) : Prop := no_space_str name = true /\ ~ In """"%char name.
Definition head_line (f : flag) (name : str) : str :=
  (match f with Zone => $"ZGROUP" | Face => $"FGROUP" end) ++ sp :: """"%char :: name ++ """"%char :: [nl].
Definition group_lines (f : flag) (g : str * list nat) : list str := head_line f (fst g) :: table_lines (snd g).
Lemma group_text f g : text_group f g = concat (group_lines f g).
Proof.
  unfold text_group, group_lines, head_line, table_lines. cbn [concat]. rewrite <- app_assoc. cbn [app]. do 3 f_equal. rewrite <- app_assoc. reflexivity.
Qed.
Lemma unquoted_name name : ~ In """"%char name -> unquoted (""""%char :: name ++ [""""%char]) = name.
Proof.
  intros N. unfold unquoted. cbn [filter]. change (negb (Ascii.eqb """"%char """"%char)) with false. cbv iota. rewrite filter_app. cbn [filter].
  change (negb (Ascii.eqb """"%char """"%char)) with false. cbv iota. rewrite app_nil_r. induction name as [|c name IH]; [reflexivity|]. cbn [filter].
  destruct (Ascii.eqb_spec c """"%char) as [->|NE]; [exfalso; apply N; now left|]. cbn [negb]. f_equal. apply IH. intros I. apply N. now right.
Qed.
Lemma group_line f s s' g r : good_name (fst g) -> stops r -> add_group f s (fst g) [] (map Z.of_nat (snd g)) = Ok s' ->
  leads s (group_lines f g ++ r) s' r.
Proof.
  intros [NS NQ] ST A.
  assert (W : words (head_line f (fst g)) = [match f with Zone => $"ZGROUP" | Face => $"FGROUP" end; """"%char :: fst g ++ [""""%char]]).
  { rewrite words_split. unfold head_line. rewrite TecplotProof.split_ws_word; [|destruct f; (split; [discriminate|reflexivity])|reflexivity]. f_equal.
    replace (""""%char :: fst g ++ """"%char :: [nl]) with ((""""%char :: fst g ++ [""""%char]) ++ [nl]) by (cbn [app]; now rewrite <- app_assoc).
    rewrite TecplotProof.split_ws_trail by reflexivity. apply TecplotProof.split_ws_one. split; [discriminate|]. unfold no_space_str in *.
    cbn [forallb]. rewrite forallb_app, NS. reflexivity. }
  destruct (table_concat (snd g)) as [TC TN].
  assert (RT : read_table (table_lines (snd g) ++ r) = Ok (map Z.of_nat (snd g), r)) by (unfold table_lines; rewrite table_back by auto; now rewrite TC).
  intros [|fuel] L; [cbn [List.length] in L; lia|]. exists fuel. unfold group_lines in L. cbn [app List.length] in L. rewrite app_length in L. split; [lia|].
  unfold group_lines. cbn [app text_loop]. rewrite W.
  assert (P0 : word [""""%char :: fst g ++ [""""%char]] 0 = Ok (""""%char :: fst g ++ [""""%char])) by reflexivity.
  assert (SL : forall x, existsb (streqb $"SLOT") [x; """"%char :: fst g ++ [""""%char]] = streqb $"SLOT" x).
  { intros x. cbn [existsb]. rewrite orb_false_r. change (streqb $"SLOT" (""""%char :: fst g ++ [""""%char])) with false. now rewrite ?orb_false_r. }
  destruct f.
  - change (streqb $"ZGROUP" $"G") with false. change (streqb $"ZGROUP" $"Z") with false. change (streqb $"ZGROUP" $"F") with false. change (streqb $"ZGROUP" $"ZGROUP") with true.
    cbn [orb]. cbv zeta. rewrite P0. cbn [bind]. rewrite SL. change (streqb $"SLOT" $"ZGROUP") with false. cbv iota. rewrite RT. cbn [bind fst snd].
    rewrite unquoted_name by auto. rewrite A. reflexivity.
  - change (streqb $"FGROUP" $"G") with false. change (streqb $"FGROUP" $"Z") with false. change (streqb $"FGROUP" $"F") with false. change (streqb $"FGROUP" $"ZGROUP") with false. change (streqb $"FGROUP" $"FGROUP") with true.
    cbn [orb]. cbv zeta. rewrite P0. cbn [bind]. rewrite SL. change (streqb $"SLOT" $"FGROUP") with false. cbv iota. rewrite RT. cbn [bind fst snd].
    rewrite unquoted_name by auto. rewrite A. reflexivity.
Qed.
Lemma groups_lines f gs : forall s s' r, Forall (fun g => good_name (fst g)) gs -> stops r -> (f = Face -> List.length gs <= 1) ->
  feed_groups f [] s gs = Ok s' -> leads s (concat (map (group_lines f) gs) ++ r) s' r.
Proof.
  induction gs as [|g gs IH]; intros s s' r F ST NF H.
  - assert (s' = s) as -> by (cbn in H; congruence). apply leads_refl.
  - unfold feed_groups in H. cbn [foldM] in H. destruct (add_group f s (fst g) [] (map Z.of_nat (snd g))) as [s1|] eqn:A; cbn [bind] in H; [|discriminate].
    apply Forall_cons_iff in F as [Fg F]. cbn [map concat]. rewrite <- app_assoc. eapply leads_trans; [apply (group_line f s s1 g); auto|].
    + destruct gs as [|g' gs]; [exact ST|]. destruct f; [|specialize (NF eq_refl); cbn in NF; lia].
      cbn [map concat app]. unfold group_lines at 1. cbn [app stops]. apply Forall_cons_iff in F as [[NS NQ] F].
      exists $"ZGROUP", [""""%char :: fst g' ++ [""""%char]]. split; [|auto]. rewrite words_split. unfold head_line. rewrite TecplotProof.split_ws_word; [|(split; [discriminate|reflexivity])|reflexivity]. f_equal.
      replace (""""%char :: fst g' ++ """"%char :: [nl]) with ((""""%char :: fst g' ++ [""""%char]) ++ [nl]) by (cbn [app]; now rewrite <- app_assoc).
      rewrite TecplotProof.split_ws_trail by reflexivity. apply TecplotProof.split_ws_one. split; [discriminate|]. unfold no_space_str in *.
      cbn [forallb]. rewrite forallb_app, NS. reflexivity.
    + apply IH; auto. intros E. specialize (NF E). cbn in NF. lia.
Qed.

(** ** The lines of the file *)
Definition nonl (s : str) : bool := forallb (fun c => negb (Ascii.eqb c nl)) s.
Lemma nonl_app a b : nonl (a ++ b) = nonl a && nonl b.
Proof. apply forallb_app. Qed.
Lemma nonl_word s : no_space_str s = true -> nonl s = true.
Proof.
  unfold no_space_str, nonl. rewrite !forallb_forall. intros H c I. specialize (H c I). apply negb_true_iff in H. apply negb_true_iff.
  apply Ascii.eqb_neq. intros ->. discriminate H.
Qed.
Lemma nonl_spaces n : nonl (spaces n) = true.
Proof. induction n; auto. Qed.
Lemma nonl_join c ws : nonl [c] = true -> Forall isword ws -> nonl (join [c] ws) = true.
Proof.
  intros C. induction 1 as [|w ws [_ W] F IH]; [reflexivity|]. apply nonl_word in W. destruct ws; cbn [join]; auto. rewrite !nonl_app, W, C. exact IH.
Qed.
Lemma one_word_line ws : Forall isword ws -> one_line (word_line ws).
Proof. intros F. exists (join [sp] ws). split; auto. now apply nonl_join. Qed.
Lemma one_point ip l : text_point ip = Ok l -> one_line l.
Proof.
  destruct ip as [i p]. unfold text_point. cbn [fst snd]. destruct p as [|x [|y [|z p]]]; try discriminate. intros H.
  exists ($"G" ++ tab :: rjust 8 (print_Z (Z.of_nat (S i))) ++ tab :: join [tab] [fmt_e 16 x; fmt_e 16 y; fmt_e 16 z]). split.
  - assert (l = $"G" ++ tab :: rjust 8 (print_Z (Z.of_nat (S i))) ++ tab :: join [tab] [fmt_e 16 x; fmt_e 16 y; fmt_e 16 z] ++ [nl]) as -> by congruence.
    rewrite <- !app_assoc. cbn [app]. now rewrite <- app_assoc.
  - change (nonl ($"G" ++ [tab] ++ rjust 8 (print_Z (Z.of_nat (S i))) ++ [tab] ++ join [tab] [fmt_e 16 x; fmt_e 16 y; fmt_e 16 z]) = true).
    unfold rjust. rewrite !nonl_app, nonl_spaces, (nonl_word (print_Z _)) by apply print_Z_no_space.
    rewrite nonl_join; [reflexivity|reflexivity|]. repeat (apply Forall_cons; [apply isword_fmt|]). apply Forall_nil.
Qed.
Lemma one_cell f ic l : text_cell f ic = Ok l -> one_line l.
Proof.
  destruct ic as [i [t row]]. unfold text_cell. cbn [fst snd]. destruct (assoc t short_names) as [name|] eqn:N; cbn [bind]; [|discriminate]. intros H.
  destruct (short_word _ _ N) as [Wn _].
  assert (l = word_line ((match f with Zone => $"Z" | Face => $"F" end) :: name :: nat_text (S i) :: map (fun v => nat_text (S v)) row)) as -> by congruence.
  apply one_word_line. constructor; [destruct f; (split; [discriminate|reflexivity])|]. constructor; auto. constructor; [apply isword_nat|].
  clear. induction row; constructor; auto. apply isword_nat.
Qed.
Lemma one_group f g : no_space_str (fst g) = true -> Forall one_line (group_lines f g).
Proof.
  intros NS. unfold group_lines. constructor.
  - exists ((match f with Zone => $"ZGROUP" | Face => $"FGROUP" end) ++ sp :: """"%char :: fst g ++ [""""%char]). split.
    + unfold head_line. rewrite <- app_assoc. cbn [app]. now rewrite <- app_assoc.
    + change (nonl ((match f with Zone => $"ZGROUP" | Face => $"FGROUP" end) ++ [sp; """"%char] ++ fst g ++ [""""%char]) = true).
      rewrite !nonl_app, (nonl_word (fst g)) by auto. destruct f; reflexivity.
  - unfold table_lines. apply Forall_map, Forall_forall. intros r _. exists (sp :: join [sp] (map nat_text r)). split; [reflexivity|].
    change (nonl ([sp] ++ join [sp] (map nat_text r)) = true). rewrite nonl_app, nonl_join; [reflexivity|reflexivity|].
    clear. induction r; constructor; auto. apply isword_nat.
Qed.
Lemma mapM_all {A B} (f : A -> res B) (P : B -> Prop) l ls : (forall x y, f x = Ok y -> P y) -> mapM f l = Ok ls -> Forall P ls.
Proof.
  intros H. revert ls. induction l as [|x l IH]; intros ls M; cbn [mapM] in M.
  - assert (ls = []) as -> by congruence. constructor.
  - destruct (f x) as [y|] eqn:E; cbn [bind] in M; [|discriminate]. destruct (mapM f l) as [ys|] eqn:E'; cbn [bind] in M; [|discriminate].
    assert (ls = y :: ys) as -> by congruence. constructor; eauto.
Qed.
Definition title (f : flag) : str := (match f with Zone => $"* ZONES" | Face => $"* FACES" end) ++ [nl].
Definition group_title (f : flag) : str := (match f with Zone => $"* ZONE GROUPS" | Face => $"* FACE GROUPS" end) ++ [nl].
Definition section_lines (f : flag) (rows : list str) (mat : option (list Z)) (gs : list (str * list nat)) : list str :=
  title f :: rows ++ match mat with None => [] | Some _ => group_title f :: concat (map (group_lines f) gs) end.
Lemma section_text f pts cells mat fd blocks gs s : translated f pts cells = Ok blocks -> groups_of f cells mat fd = Ok gs -> text_section f pts cells mat fd = Ok s ->
  exists rows, mapM (text_cell f) (counted (first_id f cells) blocks) = Ok rows /\ s = concat (section_lines f rows mat gs).
Proof.
  intros T G H. unfold text_section in H. rewrite T, G in H. cbn [bind] in H. destruct (mapM (text_cell f) _) as [rows|]; cbn [bind] in H; [|discriminate].
  exists rows. split; auto. unfold section_lines. cbn [concat]. rewrite concat_app.
  assert (GL : concat (map (text_group f) gs) = concat (concat (map (group_lines f) gs))).
  { clear. induction gs as [|g gs IH]; auto. cbn [map concat]. rewrite concat_app, <- IH. now rewrite group_text. }
  rewrite GL in H. unfold title. rewrite <- app_assoc. destruct mat as [m|].
  - unfold group_title. cbn [concat]. rewrite <- app_assoc. cbn [app]. congruence.
  - cbn [concat app]. congruence.
Qed.
Lemma counted_pairs a blocks : map (fun ic => (fst ic, snd (snd ic))) (counted a blocks) = combine (seq a (List.length (flat blocks))) (map snd (flat blocks)).
Proof.
  unfold counted. rewrite flat_all. generalize (flat blocks). intros l. revert a. induction l as [|x l IH]; intros a; auto. cbn [List.length seq combine map fst snd]. now rewrite IH.
Qed.
Lemma section_leads f cells blocks rows mat gs s s1 s2 r : mapM (text_cell f) (counted (first_id f cells) blocks) = Ok rows ->
  (mat = None -> gs = []) -> Forall (fun g => good_name (fst g)) gs -> stops r -> (f = Face -> List.length gs <= 1) ->
  feed_cells f s (combine (seq (first_id f cells) (List.length (flat blocks))) (map snd (flat blocks))) = Ok s1 ->
  feed_groups f [] s1 gs = Ok s2 -> leads s (section_lines f rows mat gs ++ r) s2 r.
Proof.
  intros M N F ST NF FC FG. unfold section_lines. cbn [app]. eapply leads_trans; [eapply (skip_line s _ [match f with Zone => $"ZONES" | Face => $"FACES" end]); destruct f; vm_compute; reflexivity|].
  rewrite <- app_assoc. rewrite <- counted_pairs in FC. eapply leads_trans; [eapply cells_lines; eauto|]. destruct mat as [m|].
  - cbn [app]. eapply leads_trans; [eapply (skip_line s1 _ [match f with Zone => $"ZONE" | Face => $"FACE" end; $"GROUPS"]); destruct f; vm_compute; reflexivity|].
    apply groups_lines; auto.
  - rewrite (N eq_refl) in FG. assert (s2 = s1) as -> by (cbn in FG; congruence). apply leads_refl.
Qed.
Lemma section_one f cells blocks rows mat gs : mapM (text_cell f) (counted (first_id f cells) blocks) = Ok rows ->
  Forall (fun g => good_name (fst g)) gs -> Forall one_line (section_lines f rows mat gs).
Proof.
  intros M F. unfold section_lines. constructor.
  - exists (match f with Zone => $"* ZONES" | Face => $"* FACES" end). split; [reflexivity|]. destruct f; reflexivity.
  - apply Forall_app. split; [eapply mapM_all; [|exact M]; intros; eapply one_cell; eauto|]. destruct mat; [|constructor]. constructor.
    + exists (match f with Zone => $"* ZONE GROUPS" | Face => $"* FACE GROUPS" end). split; [reflexivity|]. destruct f; reflexivity.
    + induction F as [|g gs [G _] F IH]; cbn [map concat]; [constructor|]. apply Forall_app. split; auto. now apply one_group.
Qed.
Theorem text_feed version now m file zb fb zg fg st :
  write false version now m = Ok file -> nonl version = true -> nonl now = true ->
  Forall (fun p => List.length p = 3 /\ Forall (fun x => is_f64 x = true) p) (g_points m) ->
  translated Zone (g_points m) (g_cells m) = Ok zb -> translated Face (g_points m) (g_cells m) = Ok fb ->
  groups_of Zone (g_cells m) (g_material m) (g_field m) = Ok zg -> groups_of Face (g_cells m) (g_material m) (g_field m) = Ok fg ->
  Forall (fun g => good_name (fst g)) zg -> Forall (fun g => good_name (fst g)) fg -> List.length fg <= 1 ->
  first_id Face (g_cells m) = List.length (flat zb) ->
  feed [] (g_points m) (map snd (flat zb)) zg (map snd (flat fb)) fg = Ok st ->
  read file = finish st.
Proof.
  intros W NV NN P TZ TF GZ GF NZ NF L1 FI FD. unfold write in W. destruct (guard _ ValueError); cbn [bind] in W; [|discriminate].
  destruct (concatM (Ok ($"* GRIDPOINTS" ++ [nl]) :: map text_point (numbered (g_points m)))) as [pts|] eqn:EP; cbn [bind] in W; [|discriminate].
  destruct (text_section Zone _ _ _ _) as [zones|] eqn:EZ; cbn [bind] in W; [|discriminate].
  destruct (text_section Face _ _ _ _) as [faces|] eqn:EF; cbn [bind] in W; [|discriminate].
  destruct (section_text _ _ _ _ _ _ _ _ TZ GZ EZ) as (zr & MZ & ->). destruct (section_text _ _ _ _ _ _ _ _ TF GF EF) as (fr & MF & ->).
  apply concatM_ok in EP as (ss & E & ->). apply map_Ok_cons in E as (s1 & pl & E1 & -> & E). assert (s1 = $"* GRIDPOINTS" ++ [nl]) as -> by congruence. apply map_Ok_map in E.
  set (h1 := $"* FLAC3D grid produced by toughio v" ++ version ++ [nl]). set (h2 := $"* " ++ now ++ [nl]).
  set (L := h1 :: h2 :: ($"* GRIDPOINTS" ++ [nl]) :: pl ++ section_lines Zone zr (g_material m) zg ++ section_lines Face fr (g_material m) fg).
  assert (EL : file = concat L).
  { unfold L, h1, h2. cbn [concat]. rewrite !concat_app. assert (file = ($"* FLAC3D grid produced by toughio v" ++ version ++ nl :: $"* " ++ now ++ [nl]) ++
      ((($"* GRIDPOINTS" ++ [nl]) ++ concat pl) ++ concat (section_lines Zone zr (g_material m) zg) ++ concat (section_lines Face fr (g_material m) fg))) as -> by (cbn [concat] in W; congruence).
    rewrite <- !app_assoc. cbn [app]. rewrite <- !app_assoc. reflexivity. }
  assert (OL : Forall one_line L).
  { unfold L. constructor; [|constructor; [|constructor]].
    - exists ($"* FLAC3D grid produced by toughio v" ++ version). split; [unfold h1; now rewrite <- app_assoc|]. 
      change (nonl ($"* FLAC3D grid produced by toughio v" ++ version) = true). now rewrite nonl_app, NV.
    - exists ($"* " ++ now). split; [unfold h2; now rewrite <- app_assoc|]. change (nonl ($"* " ++ now) = true). now rewrite nonl_app, NN.
    - exists $"* GRIDPOINTS". split; reflexivity.
    - apply Forall_app. split; [eapply mapM_all; [|exact E]; intros; eapply one_point; eauto|]. apply Forall_app. split; eapply section_one; eauto. }
  assert (NB : existsb (Ascii.eqb (ascii_of_nat 0)) (firstn 8 file) = false).
  { rewrite EL. unfold L, h1. reflexivity. }
  unfold read. rewrite NB. cbv zeta. unfold read_text. rewrite EL, (lines_of L OL). cbv zeta.
  enough (LD : leads start L st []) by now rewrite (leads_end _ _ _ LD).
  assert (HW : forall b r, words ($"* " ++ b ++ r) = $"*" :: split_ws (b ++ r)).
  { intros b r. rewrite words_split. change ($"* " ++ b ++ r) with ($"*" ++ sp :: b ++ r). apply TecplotProof.split_ws_word; [split; [discriminate|reflexivity]|reflexivity]. }
  unfold L. eapply leads_trans; [eapply skip_line; unfold h1; exact (HW $"FLAC3D grid produced by toughio v" (version ++ [nl]))|].
  eapply leads_trans; [eapply skip_line; unfold h2; apply HW|].
  eapply leads_trans; [eapply (skip_line _ _ [$"GRIDPOINTS"]); vm_compute; reflexivity|].
  unfold feed in FD. cbv zeta in FD. rewrite !map_length in FD.
  eapply leads_trans; [apply (points_lines (numbered (g_points m))); [|exact E]|].
  { apply Forall_forall. intros [i p] I. apply in_combine_r in I. rewrite Forall_forall in P. now apply P. }
  unfold numbered. destruct (feed_cells Zone _ _) as [st1|] eqn:F1; cbn [bind] in FD; [|discriminate].
  destruct (feed_groups Zone _ st1 zg) as [st2|] eqn:F2; cbn [bind] in FD; [|discriminate].
  destruct (feed_cells Face _ _) as [st3|] eqn:F3; cbn [bind] in FD; [|discriminate]. rewrite <- FI in F3.
  assert (NG : forall f gs, groups_of f (g_cells m) (g_material m) (g_field m) = Ok gs -> g_material m = None -> gs = []).
  { intros f gs H H0. rewrite H0 in H. cbn in H. congruence. }
  eapply leads_trans; [eapply section_leads; [exact MZ|now apply NG with (1 := GZ)|exact NZ| |discriminate|exact F1|exact F2]|].
  { unfold section_lines. cbn [stops]. exists $"*", [$"FACES"]. split; [vm_compute; reflexivity|auto]. }
  rewrite <- (app_nil_r (section_lines Face _ _ _)).
  eapply section_leads; [exact MF|now apply NG with (1 := GF)|exact NF|exact I|auto|exact F3|exact FD].
Qed.
