(** History files. *)
From Coq Require Import String Ascii Arith ZArith Bool Lia List.
From Verif Require Import Base.Str Base.Flt Base.FltText Model.Py Model.Dispatch Model.Output Model.History Spec.History Proofs.RecordLemmas Proofs.CellText Proofs.PetrasimProof Proofs.TecplotProof.
Import ListNotations.
Local Open Scope nat_scope.

Lemma Forall2_len {A B} (R : A -> B -> Prop) l l' : Forall2 R l l' -> List.length l = List.length l'.
Proof. induction 1; cbn; congruence. Qed.
Lemma blanks_lack a d : blanks a -> is_space d = false -> lacks d a.
Proof. intros H N c I ->. unfold blanks in H. rewrite forallb_forall in H. rewrite (H d I) in N. discriminate. Qed.
Lemma strip_blanks a s b : blanks a -> blanks b -> strip (a ++ s ++ b) = strip s.
Proof. intros A B. rewrite app_assoc, strip_app_space by exact B. unfold strip. now rewrite lstrip_app_space. Qed.
Lemma padded_strip c p : trimmed c = true -> padded c p -> strip p = c.
Proof. intros T (a & b & A & B & ->). now apply strip_around. Qed.
Lemma cell_lacks c p : cell_text c -> padded c p -> lacks ","%char p.
Proof. intros (_ & _ & N) (a & b & A & B & ->). rewrite !lacks_app. repeat split; try (now apply blanks_lack). intros x I ->. contradiction. Qed.

(** ** Splitting at commas *)
Lemma split_aux_trail sep b s : lacks sep b -> forall cur, exists l x, split_on_aux sep cur s = l ++ [x] /\ split_on_aux sep cur (s ++ b) = l ++ [x ++ b].
Proof.
  intros B. induction s as [|c s IH]; intros cur; cbn [app split_on_aux].
  - exists [], (rev cur). split; [reflexivity|]. cbn [app]. pose proof (split_on_aux_lacks sep cur b [] B) as E. rewrite app_nil_r in E. rewrite E. cbn [split_on_aux]. now rewrite rev_app_distr, rev_involutive.
  - destruct (Ascii.eqb c sep).
    + destruct (IH []) as (l & x & E1 & E2). exists (rev cur :: l), x. rewrite E1, E2. auto.
    + apply IH.
Qed.
Lemma split_trail b s : blanks b -> map strip (split_on ","%char (s ++ b)) = map strip (split_on ","%char s).
Proof.
  intros B. destruct (split_aux_trail ","%char b s (blanks_lack b ","%char B eq_refl) []) as (l & x & E1 & E2). unfold split_on. rewrite E1, E2, !map_app. cbn [map]. now rewrite strip_app_space.
Qed.
Lemma split_aux_lead sep s : forall cur, exists x l, split_on_aux sep [] s = x :: l /\ split_on_aux sep cur s = (rev cur ++ x) :: l.
Proof.
  induction s as [|c s IH]; intros cur; cbn [split_on_aux].
  - exists [], []. now rewrite app_nil_r.
  - destruct (Ascii.eqb c sep).
    + exists [], (split_on_aux sep [] s). now rewrite app_nil_r.
    + destruct (IH [c]) as (x & l & E1 & E2). destruct (IH (c :: cur)) as (x' & l' & E1' & E2'). rewrite E1 in E1'. injection E1' as <- <-. exists (c :: x), l. rewrite E2, E2'. split; [reflexivity|]. cbn [rev]. now rewrite <- app_assoc.
Qed.
Lemma split_lead a s : blanks a -> map strip (split_on ","%char (a ++ s)) = map strip (split_on ","%char s).
Proof.
  intros A. unfold split_on. rewrite split_on_aux_lacks by (now apply blanks_lack). rewrite app_nil_r. destruct (split_aux_lead ","%char s (rev a)) as (x & l & -> & ->). cbn [map]. rewrite rev_involutive. f_equal. rewrite <- (app_nil_r x) at 1. now apply strip_blanks.
Qed.
Lemma split_pad a s b : blanks a -> blanks b -> map strip (split_on ","%char (a ++ s ++ b)) = map strip (split_on ","%char s).
Proof. intros A B. now rewrite split_lead, split_trail. Qed.
Lemma split_strip s : map strip (split_on ","%char (strip s)) = map strip (split_on ","%char s).
Proof. destruct (strip_all s) as (a & b & A & B & E). rewrite E at 2. now rewrite split_pad. Qed.
Lemma comma_split cs l : cs <> [] -> comma_cells cs l -> map strip (split_on ","%char (strip l)) = cs.
Proof.
  intros N (T & ps & F & ->). rewrite split_strip, split_on_join.
  - clear N. induction F as [|c p cs ps P F IH]; [reflexivity|]. inversion T as [|? ? (_ & T1 & _) T2]; subst. cbn [map]. now rewrite (padded_strip _ _ T1 P), IH.
  - inversion F; subst; congruence.
  - clear N. induction F as [|c p cs ps P F IH]; constructor; inversion T; subst; [eapply cell_lacks; eauto|auto].
Qed.
Lemma mapM_strip cs : mapM to_float (map strip cs) = mapM to_float cs.
Proof. induction cs as [|c cs IH]; [reflexivity|]. cbn [map mapM]. now rewrite <- to_float_strip, IH. Qed.
Lemma mapM_numbers cs xs : Forall2 (fun c x => parse_float c = Some x) cs xs -> mapM to_float cs = Ok xs.
Proof. induction 1 as [|c x cs xs P F IH]; [reflexivity|]. cbn [mapM]. unfold to_float at 1. rewrite P. cbn [bind]. now rewrite IH. Qed.

(** ** Splitting at blanks *)
Lemma solid_is_word w : solid_word w -> word w.
Proof. intros (N & H). split; [exact N|]. unfold no_space_str. apply forallb_forall. intros c I. now rewrite (H c I). Qed.
Lemma blank_split cs l : blank_cells cs l -> split_ws l = cs.
Proof.
  induction 1 as [a A|a w A W|a w c ws l A W S B IH].
  - rewrite <- (app_nil_r a), split_ws_lead by exact A. reflexivity.
  - rewrite split_ws_lead by exact A. now apply split_ws_one, solid_is_word.
  - rewrite split_ws_lead by exact A. rewrite split_ws_word by (auto using solid_is_word). now rewrite IH.
Qed.

(** ** Lines that are not blank *)
Lemma comma_first c cs l : comma_cells (c :: cs) l -> exists a r, blanks a /\ l = a ++ c ++ r.
Proof.
  intros (_ & ps & F & ->). inversion F as [|? p ? ps' (a & b & A & B & ->) F']; subst. exists a. destruct ps' as [|q ps'].
  - exists b. auto.
  - exists (b ++ [","%char] ++ join [","%char] (q :: ps')). split; [exact A|]. cbn [join]. now rewrite <- !app_assoc.
Qed.
Lemma blank_first w ws l : blank_cells (w :: ws) l -> solid_word w /\ exists a r, blanks a /\ l = a ++ w ++ r.
Proof. intros B. inversion B; subst; (split; [assumption|]); eexists; eexists; (split; [eassumption|]); [rewrite app_nil_r; reflexivity|reflexivity]. Qed.
Lemma cells_first lay c cs l : cells_in lay (c :: cs) l -> opens c /\ exists a r, blanks a /\ l = a ++ c ++ r.
Proof.
  destruct lay; cbn [cells_in]; intros H.
  - split; [|eapply comma_first; eauto]. destruct H as (T & _). inversion T as [|? ? (N & Tr & _) _]; subst. now apply trimmed_opens.
  - apply blank_first in H as ((N & W) & H). split; [|exact H]. destruct c as [|x c]; [congruence|]. exists x, c. split; [reflexivity|]. apply W. now left.
Qed.
Lemma opens_head a c r : blanks a -> opens c -> exists t, strip (a ++ c ++ r) = hd sp c :: t.
Proof.
  intros A (x & c' & -> & S). unfold strip. rewrite lstrip_app_space by exact A. cbn [app lstrip hd]. rewrite S. unfold rstrip. cbn [rev]. destruct (lstrip_suffix (rev (c' ++ r) ++ [x])) as (p & E & P).
  assert (N : lstrip (rev (c' ++ r) ++ [x]) <> []). { apply lstrip_nonempty. rewrite existsb_app. cbn [existsb]. rewrite S. cbn. apply orb_true_r. }
  destruct (exists_last N) as (q & y & Y). rewrite Y in *. rewrite app_assoc in E. apply app_inj_tail in E as (_ & <-). rewrite rev_app_distr. cbn. eauto.
Qed.
Lemma cells_head lay c cs l : cells_in lay (c :: cs) l -> exists t, strip l = hd sp c :: t.
Proof. intros H. apply cells_first in H as (O & a & r & A & ->). now apply opens_head. Qed.
Definition commas_of (lay : layout) : bool := match lay with Commas => true | Blanks => false end.
Lemma cells_numbers lay c cs l : cells_in lay (c :: cs) l -> mapM to_float (history_cells (commas_of lay) (strip l)) = mapM to_float (c :: cs).
Proof.
  destruct lay; cbn [cells_in commas_of history_cells]; intros H.
  - rewrite <- mapM_strip. now rewrite (comma_split (c :: cs) l).
  - now rewrite split_ws_strip, (blank_split _ _ H).
Qed.
Lemma rows_read_history lay rows body rest : Forall2 (entries lay) rows body -> Forall (fun r => r <> []) rows -> (rest = [] \/ exists b r, rest = b :: r /\ blanks b) ->
  history_rows (commas_of lay) (body ++ rest) = Ok rows.
Proof.
  intros F. induction F as [|xs l rows body (cs & C & P) F IH]; intros N E; cbn [app].
  - destruct E as [-> |(b & r & -> & B)]; [reflexivity|]. cbn [history_rows]. now rewrite strip_all_space.
  - inversion N as [|? ? N1 N2]; subst. cbn [history_rows]. destruct cs as [|c cs]; [inversion P; subst; congruence|]. destruct (cells_head _ _ _ _ C) as (t & H). rewrite H.
    pose proof (cells_numbers _ _ _ _ C) as X. rewrite H in X. rewrite X, (mapM_numbers _ _ P). cbn [bind]. rewrite IH by assumption. reflexivity.
Qed.

(** ** The header *)
Lemma unquote_blanks a : blanks a -> unquote a = a.
Proof. intros A. apply unquote_lacks, blanks_lack; [exact A|reflexivity]. Qed.
Lemma unquote_strip l : map strip (split_on ","%char (unquote (strip l))) = map strip (split_on ","%char (unquote l)).
Proof. destruct (strip_all l) as (a & b & A & B & E). rewrite E at 2. rewrite !unquote_app, (unquote_blanks a A), (unquote_blanks b B). now rewrite split_pad. Qed.
Lemma unquote_lacks_other d s : lacks d s -> lacks d (unquote s).
Proof. intros H c I. unfold unquote in I. apply filter_In in I as (I & _). auto. Qed.
Lemma unquote_quotes p : unquote (""""%char :: p ++ [""""%char]) = unquote p.
Proof. change (unquote (p ++ [quote]) = unquote p). rewrite unquote_app. apply app_nil_r. Qed.
Lemma quotes_header names qs l : names <> [] -> Forall2 in_quotes names qs -> comma_cells qs l -> map strip (split_on ","%char (unquote (strip l))) = names.
Proof.
  intros N F (T & ps & P & ->). rewrite unquote_strip, unquote_join, split_on_join.
  - clear N. revert names F. induction P as [|q p qs ps PQ P IH]; intros names F; inversion F as [|h ? names' ? (NQ & TR & p0 & PH & ->) F']; subst; [reflexivity|]. inversion T; subst. cbn [map]. f_equal; [|now apply IH].
    destruct PQ as (a & b & A & B & ->). destruct PH as (a' & b' & A' & B' & ->). rewrite !unquote_app. rewrite (unquote_blanks a A), (unquote_blanks b B). rewrite unquote_quotes, !unquote_app, (unquote_blanks a' A'), (unquote_blanks b' B'), (unquote_lacks h NQ), strip_blanks by assumption. now apply strip_around.
  - inversion F; subst; [congruence|]. inversion P; subst. discriminate.
  - clear N F. induction P as [|q p qs ps PQ P IH]; cbn [map]; constructor; inversion T; subst; [apply unquote_lacks_other; eapply cell_lacks; eauto|auto].
Qed.
Lemma map_strip_words names : Forall solid_word names -> map strip names = names.
Proof.
  induction 1 as [|w ws (N & W) F IH]; [reflexivity|]. cbn [map]. rewrite IH. f_equal. rewrite <- (app_nil_r w) at 1. apply (strip_around [] []); [|reflexivity|reflexivity]. apply open_close.
  - destruct w as [|x w]; [congruence|]. exists x, w. split; [reflexivity|]. apply W. now left.
  - destruct (exists_last N) as (r & x & ->). exists r, x. split; [reflexivity|]. apply W, in_or_app. right. now left.
Qed.
Lemma blank_words cs l : blank_cells cs l -> Forall solid_word cs.
Proof. induction 1; auto. Qed.
Lemma header_read lay first names h : heading lay (first :: names) h -> startswith [quote] (strip h) = commas_of lay /\
  map strip (tl (history_cells (commas_of lay) (if commas_of lay then unquote (strip h) else strip h))) = names.
Proof.
  destruct lay; cbn [heading commas_of history_cells].
  - intros (qs & F & C). split.
    + destruct qs as [|q qs]; [inversion F|]. destruct (cells_head Commas _ _ _ C) as (t & ->). inversion F as [|? ? ? ? (_ & _ & p & _ & ->) _]; subst. reflexivity.
    + assert (X : map strip (split_on ","%char (unquote (strip h))) = first :: names) by (eapply quotes_header; [discriminate|exact F|exact C]). destruct (split_on _ _) as [|y l]; [discriminate|]. cbn [tl]. cbn [map] in X. congruence.
  - intros (B & Q). split.
    + destruct (cells_head Blanks _ _ _ B) as (t & ->). cbn [startswith]. destruct first as [|x first]; [apply blank_first in B as ((N & _) & _); congruence|]. cbn [hd]. destruct (Ascii.eqb quote x) eqn:E; rewrite ?andb_true_r; [|try reflexivity]. apply Ascii.eqb_eq in E. subst x. exfalso. exact (Q _ first eq_refl eq_refl).
    + rewrite split_ws_strip, (blank_split _ _ B). cbn [tl]. apply blank_words in B. inversion B; subst. now apply map_strip_words.
Qed.

(** ** The table *)
Lemma transpose_rows {A} (rows : list (list A)) n : rows <> [] -> Forall (fun r => List.length r = n) rows ->
  exists cols, transpose rows = Ok cols /\ List.length cols = n /\ forall j col, nth_error cols j = Some col -> List.length col = List.length rows /\ forall i row, nth_error rows i = Some row -> nth_error col i = nth_error row j.
Proof.
  intros N F. destruct rows as [|r rows]; [congruence|]. cbn [transpose]. assert (E : forallb (fun q => Nat.eqb (List.length q) (List.length r)) (r :: rows) = true).
  { apply forallb_forall. intros q I. rewrite Forall_forall in F. apply Nat.eqb_eq. rewrite (F q I). symmetry. apply F. now left. }
  rewrite E. assert (L : List.length r = n) by (now inversion F). eexists. split; [reflexivity|]. split; [now rewrite map_length, seq_length|]. intros j col H. rewrite L in H. rewrite nth_error_map in H. destruct (nth_error (seq 0 n) j) as [j'|] eqn:S; [|discriminate]. cbn in H.
  assert (j' = j /\ j < n) as (-> & LT). { assert (LT : j < n) by (rewrite <- (seq_length n 0); apply nth_error_Some; congruence). split; [|exact LT]. rewrite (nth_error_nth' _ 0) in S by (now rewrite seq_length). injection S as <-. now apply seq_nth. }
  injection H as <-. clear N E L S. change (match nth_error r j with Some x => [x] | None => [] end ++ flat_map (fun q => match nth_error q j with Some x => [x] | None => [] end) rows) with (flat_map (fun q => match nth_error q j with Some x => [x] | None => [] end) (r :: rows)).
  set (all := r :: rows) in *. clearbody all. induction F as [|q all Q F IH]; cbn [flat_map]; [split; [reflexivity|intros [|i] row H; discriminate]|]. destruct (nth_error q j) as [x|] eqn:X; [|apply nth_error_None in X; lia]. destruct IH as (IH1 & IH2). cbn [app List.length]. split; [now rewrite IH1|].
  intros [|i] row H; cbn [nth_error] in *; [injection H as <-; now rewrite X|auto].
Qed.
Lemma table_grow {A} hs (cs : list A) acc : NoDup (map fst acc ++ hs) -> List.length hs = List.length cs -> fold_left (fun acc kv => tset (fst kv) (snd kv) acc) (combine hs cs) acc = acc ++ combine hs cs.
Proof.
  revert cs acc. induction hs as [|h hs IH]; intros [|c cs] acc N L; try discriminate; cbn [combine fold_left]; [now rewrite app_nil_r|]. cbn [fst snd]. rewrite tset_new.
  - rewrite IH; [now rewrite <- app_assoc| |cbn in L; lia]. rewrite map_app, <- app_assoc. exact N.
  - intros I. apply NoDup_remove_2 in N. apply N. apply in_or_app. now left.
Qed.
Lemma combine_nth_error {A B} (l : list A) (m : list B) j a b : nth_error l j = Some a -> nth_error m j = Some b -> nth_error (combine l m) j = Some (a, b).
Proof. revert m j. induction l as [|x l IH]; intros [|y m] [|j]; cbn; try discriminate; [congruence|apply IH]. Qed.

Theorem history_read lay first names rows ls : history lay (first :: names) rows ls -> rows <> [] -> Forall (fun r => List.length r = S (List.length names)) rows -> NoDup ($"TIME" :: names) ->
  exists out, read_history ls = Ok out /\ map fst out = $"TIME" :: names /\
    forall j k, nth_error ($"TIME" :: names) j = Some k -> exists col, tget k out = Some col /\ List.length col = List.length rows /\
      forall i row, nth_error rows i = Some row -> nth_error col i = nth_error row j.
Proof.
  intros (h & body & rest & -> & H & R & E) N F ND. destruct (header_read _ _ _ _ H) as (H1 & H2). unfold read_history. cbn [readline]. rewrite H1, H2. rewrite (rows_read_history lay rows body rest R); [|eapply Forall_impl; [|exact F]; intros [|] X; [discriminate|discriminate]|exact E]. cbn [bind].
  destruct (transpose_rows rows _ N F) as (cols & T & LC & C). rewrite T. cbn [bind]. destruct cols as [|time others]; [discriminate|]. cbn [List.length] in LC. rewrite table_grow; [|exact ND|lia]. eexists. split; [reflexivity|].
  change ([($"TIME", time)] ++ combine names others) with (combine ($"TIME" :: names) (time :: others)).
  assert (K : map fst (combine ($"TIME" :: names) (time :: others)) = $"TIME" :: names).
  { clear -LC. cbn [combine map fst]. f_equal. revert others LC. induction names as [|n names IH]; intros [|o others] L; try discriminate; [reflexivity|]. cbn [combine map fst]. f_equal. apply IH. cbn in *. lia. }
  split; [exact K|]. intros j k J. assert (LJ : j < S (List.length names)) by (change (S (List.length names)) with (List.length ($"TIME" :: names)); apply nth_error_Some; congruence).
  destruct (nth_error (time :: others) j) as [col|] eqn:CJ; [|apply nth_error_None in CJ; cbn in CJ; lia]. exists col. destruct (C j col CJ) as (L & V). split; [|auto]. apply tget_in; [now rewrite K|]. eapply nth_error_In, combine_nth_error; eauto.
Qed.
(** Without rows there is no column. *)
Theorem history_empty h rest : (rest = [] \/ exists b r, rest = b :: r /\ blanks b) -> read_history (h :: rest) = Err IndexError.
Proof. intros [-> |(b & r & -> & B)]; unfold read_history; cbn [readline history_rows]; [reflexivity|]. rewrite strip_all_space by exact B. reflexivity. Qed.

(** ** Examples *)
Definition comma_file : list str := map (fun s => lit s ++ [nl])
  [" ""TIME(S)"", ""PRES"" ,""SAT_G"" "; "  1.0E+02,  2.5E5 , 0.25"; "  2.0E+02,  3.5E5 , 0.5  "; "   "; "nothing"]%string.
Definition blank_file : list str := map (fun s => lit s ++ [nl]) ["  TIME   GEN  ENTG"; " 1.0E+02  -2.5  7"; "3.0E+02 -5.0 8"]%string.
Definition float_of (s : string) : flt := match parse_float (lit s) with Some x => x | None => NaN end.
Definition numbers (l : list string) : list flt := map float_of l.
Ltac cells_text := repeat constructor; try discriminate; try reflexivity; try (intros I; cbn in I; intuition discriminate).
Lemma pad_of a c b : blanks (lit a) -> blanks (lit b) -> padded (lit c) (lit a ++ lit c ++ lit b).
Proof. intros A B. exists (lit a), (lit b). auto. Qed.
Lemma comma_history : history Commas [$"TIME(S)"; $"PRES"; $"SAT_G"] [numbers ["1.0E+02"; "2.5E5"; "0.25"]; numbers ["2.0E+02"; "3.5E5"; "0.5"]]%string comma_file.
Proof.
  exists (nth 0 comma_file []), (firstn 2 (tl comma_file)), (skipn 3 comma_file). split; [reflexivity|]. split; [|split].
  - exists [$"""TIME(S)"""; $"""PRES"""; $"""SAT_G"""]. split.
    + repeat constructor; try (intros c I; cbn in I; intuition (subst; discriminate)); eexists; (split; [exists [], []; split; [reflexivity|split; [reflexivity|reflexivity]]|reflexivity]).
    + split; [cells_text|]. exists [$" ""TIME(S)"""; $" ""PRES"" "; $"""SAT_G"" " ++ [nl]]. split; [|reflexivity]. repeat constructor; [exists $" ", []|exists $" ", $" "|exists [], ($" " ++ [nl])]; repeat split; reflexivity.
  - constructor; [|constructor; [|constructor]].
    + exists [$"1.0E+02"; $"2.5E5"; $"0.25"]. split; [|repeat constructor; vm_compute; reflexivity]. split; [cells_text|]. exists [$"  1.0E+02"; $"  2.5E5 "; $" 0.25" ++ [nl]]. split; [|reflexivity]. repeat constructor; [exists $"  ", []|exists $"  ", $" "|exists $" ", [nl]]; repeat split; reflexivity.
    + exists [$"2.0E+02"; $"3.5E5"; $"0.5"]. split; [|repeat constructor; vm_compute; reflexivity]. split; [cells_text|]. exists [$"  2.0E+02"; $"  3.5E5 "; $" 0.5  " ++ [nl]]. split; [|reflexivity]. repeat constructor; [exists $"  ", []|exists $"  ", $" "|exists $" ", ($"  " ++ [nl])]; repeat split; reflexivity.
  - right. eexists. eexists. split; [reflexivity|]. reflexivity.
Qed.
Ltac word_ok := split; [discriminate|intros c I; cbn in I; repeat (destruct I as [<-|I]; [reflexivity|]); destruct I].
Lemma blank_three a u b v c w : blanks (lit a) -> solid_word (lit u) -> is_space b = true -> solid_word (lit v) -> is_space c = true -> solid_word (lit w) ->
  forall b' c', blanks (lit b') -> blanks (lit c') -> blank_cells [lit u; lit v; lit w] (lit a ++ lit u ++ b :: lit b' ++ lit v ++ c :: lit c' ++ lit w ++ [nl]).
Proof. intros A U B V C W b' c' B' C'. apply bc_more; [assumption..|]. apply bc_more; [assumption..|]. apply bc_more; [assumption..|reflexivity|]. now apply bc_nil. Qed.
Lemma blank_history : history Blanks [$"TIME"; $"GEN"; $"ENTG"] [numbers ["1.0E+02"; "-2.5"; "7"]; numbers ["3.0E+02"; "-5.0"; "8"]]%string blank_file.
Proof.
  exists (nth 0 blank_file []), (tl blank_file), []. split; [reflexivity|]. split; [|split].
  - split; [|intros n r E; injection E as <-; discriminate]. apply (blank_three "  " "TIME" " "%char "GEN" " "%char "ENTG" eq_refl ltac:(word_ok) eq_refl ltac:(word_ok) eq_refl ltac:(word_ok) "  " " " eq_refl eq_refl).
  - constructor; [|constructor; [|constructor]].
    + exists [$"1.0E+02"; $"-2.5"; $"7"]. split; [|repeat constructor; vm_compute; reflexivity]. apply (blank_three " " "1.0E+02" " "%char "-2.5" " "%char "7" eq_refl ltac:(word_ok) eq_refl ltac:(word_ok) eq_refl ltac:(word_ok) " " " " eq_refl eq_refl).
    + exists [$"3.0E+02"; $"-5.0"; $"8"]. split; [|repeat constructor; vm_compute; reflexivity]. apply (blank_three "" "3.0E+02" " "%char "-5.0" " "%char "8" eq_refl ltac:(word_ok) eq_refl ltac:(word_ok) eq_refl ltac:(word_ok) "" "" eq_refl eq_refl).
  - now left.
Qed.
Lemma histories_ok : history Commas [$"TIME(S)"; $"PRES"; $"SAT_G"] [numbers ["1.0E+02"; "2.5E5"; "0.25"]; numbers ["2.0E+02"; "3.5E5"; "0.5"]]%string comma_file /\
  read_history comma_file = Ok [($"TIME", numbers ["1.0E+02"; "2.0E+02"]); ($"PRES", numbers ["2.5E5"; "3.5E5"]); ($"SAT_G", numbers ["0.25"; "0.5"])]%string /\
  history Blanks [$"TIME"; $"GEN"; $"ENTG"] [numbers ["1.0E+02"; "-2.5"; "7"]; numbers ["3.0E+02"; "-5.0"; "8"]]%string blank_file /\
  read_history blank_file = Ok [($"TIME", numbers ["1.0E+02"; "3.0E+02"]); ($"GEN", numbers ["-2.5"; "-5.0"]); ($"ENTG", numbers ["7"; "8"])]%string.
Proof. split; [exact comma_history|]. split; [vm_compute; reflexivity|]. split; [exact blank_history|]. vm_compute. reflexivity. Qed.
(** A comma in a name between quotes. *)
Lemma history_comma : ~ (forall names xs ls, ls = [join [","%char] (map (fun n => """"%char :: n ++ [""""%char]) names); join [","%char] xs] -> List.length xs = List.length names ->
  (forall x, In x xs -> x = $"1") -> exists out, read_history ls = Ok out /\ map fst out = $"TIME" :: tl names).
Proof.
  intros H. destruct (H [$"TIME"; $"P, PA"; $"T"] [$"1"; $"1"; $"1"] _ eq_refl eq_refl) as (out & E & F).
  - intros x [<-|[<-|[<-|[]]]]; reflexivity.
  - assert (X : map fst (match read_history [join [","%char] (map (fun n => """"%char :: n ++ [""""%char]) [$"TIME"; $"P, PA"; $"T"]); join [","%char] [$"1"; $"1"; $"1"]] with Ok o => o | Err _ => [] end) = [$"TIME"; $"P"; $"PA"]) by (vm_compute; reflexivity).
    rewrite E in X. rewrite F in X. discriminate X.
Qed.
