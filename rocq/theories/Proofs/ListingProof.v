(** Reading a TOUGH listing. *)
From Coq Require Import String Ascii ZArith Bool Lia Permutation List.
From Verif Require Import Base.Str Base.Digits Base.Flt Base.FltText Model.Py Model.Records Model.Dispatch Model.Output
  Spec.Fields Spec.Output Spec.Length Spec.Listing Proofs.DictLemmas Proofs.RecordLemmas Proofs.BlockTools Proofs.LengthProof Proofs.CellText
  Proofs.CsvProof Proofs.PetrasimProof Proofs.TecplotProof Proofs.RecognizeProof.
Import ListNotations.
Local Open Scope nat_scope.

(** ** Explicit lengths *)
Definition with_length (n : nat) (k : listing) : listing :=
  Listing (k_steps k) (k_headers k) (Some (S n)) (k_iend k) (k_first k).
Definition fresh (k : listing) : Prop :=
  k_length k = None /\ k_iend k = None /\ k_first k = true /\ Forall (fun s => snd s = []) (k_steps k).
Lemma line_fresh t n p k l p' k' : fresh k -> listing_line t p k l = Ok (p', k') ->
  (fresh k' /\ listing_line t p (with_length n k) l = Ok (p', with_length n k')) \/
  listing_line t p (with_length n k) l = Err UnboundLocalError.
Proof.
  intros (A & B & C & D). destruct k as [st hd_ ln ie fs]. cbn in A, B, C, D. subst.
  assert (R : forall k', listing_row t (Listing st hd_ None None true) l = Ok k' ->
    (fresh k' /\ listing_row t (with_length n (Listing st hd_ None None true)) l = Ok (with_length n k')) \/
    listing_row t (with_length n (Listing st hd_ None None true)) l = Err UnboundLocalError).
  { intros k1. unfold listing_row. destruct (_ && _) eqn:E.
    - intros _. right. reflexivity.
    - intros [= <-]. left. split; [repeat split; auto|reflexivity]. }
  destruct p; cbn [listing_line].
  - intros [= <- <-]. left. split; [repeat split; auto|reflexivity].
  - destruct (split_ws (strip l)); [discriminate|]. destruct (to_float s); cbn [bind]; [|discriminate].
    intros [= <- <-]. left. split; [repeat split; cbn; auto|reflexivity].
  - destruct (startswith _ _); intros [= <- <-]; left; (split; [repeat split; auto|reflexivity]).
  - destruct (nonempty _).
    + destruct (listing_row t _ l) as [k1|] eqn:E; cbn [bind]; [|discriminate]. intros [= <- <-].
      destruct (R _ eq_refl) as [[F E'] | E']; rewrite E'; [left|right]; auto.
    + intros [= <- <-]. left. split; [repeat split; auto|reflexivity].
  - destruct (startswith _ _).
    + intros [= <- <-]. left. split; [repeat split; auto|reflexivity].
    + destruct (listing_row t _ l) as [k1|] eqn:E; cbn [bind]; [|discriminate]. intros [= <- <-].
      destruct (R _ eq_refl) as [[F E'] | E']; rewrite E'; [left|right]; auto.
Qed.
Lemma loop_fresh t n p k ls k' : fresh k -> listing_loop t p k ls = Ok k' ->
  fresh k' \/ listing_loop t p (with_length n k) ls = Err UnboundLocalError.
Proof.
  revert p k. induction ls as [|l ls IH]; intros p k F; cbn [listing_loop].
  - destruct p; try discriminate. intros [= <-]. now left.
  - destruct (listing_line t p k l) as [[p1 k1]|] eqn:E; cbn [bind fst snd]; [|discriminate]. intros R.
    destruct (line_fresh t n p k l p1 k1 F E) as [[F1 E1] | E1]; rewrite E1; cbn [bind fst snd].
    + now apply IH.
    + now right.
Qed.
Theorem explicit_length t fmt order n ls outs : listing_read t fmt order None ls = Ok outs ->
  (exists o l ls', In o outs /\ o_labels o = Some (l :: ls')) ->
  listing_read t fmt order (Some (S n)) ls = Err UnboundLocalError.
Proof.
  unfold listing_read. intros R (o & l & ls' & I & L).
  destruct (listing_loop t Outside (Listing [] None None None true) ls) as [k|] eqn:E; cbn [bind] in R; [|discriminate].
  assert (FR : fresh (Listing [] None None None true)) by (unfold fresh; cbn; auto).
  destruct (loop_fresh t n Outside _ ls k FR E) as [F | F].
  - exfalso. destruct (k_headers k) as [h|]; [|discriminate]. destruct (same_shape _); [|discriminate].
    destruct F as (_ & _ & _ & F).
    assert (G : forall steps outs, mapM (step_output t fmt (skipn (if is_element t then 2 else 3) h)) steps = Ok outs ->
       Forall (fun s => snd (fst s) = Some []) steps -> Forall (fun o => o_labels o = Some []) outs).
    { induction steps as [|s steps IH]; intros outs' M FF; cbn [mapM] in M; [injection M as <-; constructor|].
      apply Forall_cons_iff in FF as [F1 F2]. destruct s as [[tm lb] rw]. cbn [fst snd] in F1. subst lb.
      unfold step_output at 1 in M. destruct (transpose rw); cbn [bind] in M; [|discriminate].
      destruct (mapM _ steps) eqn:EM; cbn [bind] in M; [|discriminate]. injection M as <-. constructor; auto. }
    set (steps := map _ (map _ (rev (k_steps k)))) in R.
    assert (FS : Forall (fun s => snd (fst s) = Some []) steps).
    { unfold steps. apply Forall_map, Forall_map. apply Forall_rev in F. eapply Forall_impl; [|exact F].
      intros s Hs. cbn. now rewrite Hs. }
    unfold to_output in R. destruct (mapM _ steps) as [os|] eqn:EM; cbn [bind] in R; [|discriminate].
    specialize (G _ _ EM FS).
    assert (NO : Forall (fun o => o_labels o = Some []) outs).
    { destruct order as [ord|]; [|now injection R as <-]. destruct (is_element t); [|now injection R as <-].
      clear - R G. revert outs R. induction G as [|o os H G IH]; intros outs R; cbn [mapM] in R; [injection R as <-; constructor|].
      destruct (reorder_labels o ord) as [o'|] eqn:ER; cbn [bind] in R; [|discriminate].
      destruct (mapM _ os) eqn:EM; cbn [bind] in R; [|discriminate]. injection R as <-. constructor; [|now apply IH].
      unfold reorder_labels in ER. rewrite H in ER. cbn [List.length] in ER. destruct ord as [|a9 ord9]; [|discriminate].
      cbn [Nat.eqb guard bind mapM pick] in ER. destruct (mapM _ (o_data o)); cbn [bind] in ER; [|discriminate].
      now injection ER as <-. }
    rewrite Forall_forall in NO. rewrite (NO o I) in L. discriminate.
  - change (Listing [] None (Some (S n)) None true) with (with_length n (Listing [] None None None true)). now rewrite F.
Qed.

(** ** One row *)
Lemma split_gap ws : Forall (fun gw => no_blank (snd gw)) ws -> split_ws (gap_words ws ++ [nl]) = map snd ws.
Proof.
  intros F. rewrite split_ws_trail by reflexivity. unfold gap_words.
  induction F as [|[g w] ws [N W] F IH]; [reflexivity|]. cbn [map concat fst snd].
  rewrite <- app_assoc, split_ws_lead by apply spaces_all_space.
  assert (WW : word w).
  { split; auto. unfold no_space_str. apply forallb_forall. intros c I. apply negb_true_iff. now apply W. }
  destruct ws as [|[g' w'] ws].
  - cbn [map concat]. rewrite app_nil_r. now apply split_ws_one.
  - cbn [map concat fst snd] in *. unfold spaces in *. cbn [repeat app] in *. rewrite split_ws_word by auto. f_equal.
    unfold split_ws in IH. cbn [split_ws_aux] in IH. exact IH.
Qed.
Definition iend_ (t : ftype) (n : nat) : nat := if is_element t then n else 2 * n + 2.
Definition any_row (l : list row) : bool := match l with [] => false | _ => true end.
Section Table.
Variables (t : ftype) (n : nat).
Definition body (r : row) : str := label_text (r_labels r) ++ gap_words ((0, r_index r) :: r_words r) ++ [nl].
Lemma body_skip r : skipn (r_lead r) (row_text r) = body r.
Proof.
  unfold row_text, body. rewrite skipn_app. unfold spaces. rewrite repeat_length, Nat.sub_diag, skipn_all2 by (rewrite repeat_length; lia).
  reflexivity.
Qed.
Definition state (set_ : bool) (steps : list (flt * list (list str * list flt))) (h : option (list str)) : listing :=
  if set_ then Listing steps h (Some n) (Some (iend_ t n)) false else Listing steps h None None true.
Lemma state_steps b st h : k_steps (state b st h) = st.
Proof. now destruct b. Qed.

Lemma label_text_length r : good_row t n r -> List.length (label_text (r_labels r)) = (iend_ t n).
Proof.
  intros (_ & L & F & _). unfold iend_, label_text. destruct (is_element t).
  - destruct (r_labels r) as [|a [|b q]]; try discriminate. apply Forall_inv in F as (A & _). exact A.
  - destruct (r_labels r) as [|a [|b [|c q]]]; try discriminate. apply Forall_cons_iff in F as [(A & _) F]. apply Forall_inv in F as (B & _).
    cbn [join]. rewrite !app_length, A, B. cbn. lia.
Qed.
Lemma label_opens r : good_row t n r -> opens (label_text (r_labels r)).
Proof.
  intros (_ & L & F & _). destruct (r_labels r) as [|a q]; [destruct (is_element t); discriminate|].
  apply Forall_inv in F as (A & N & O). destruct a as [|c a]; [cbn in A; lia|].
  apply opens_join. exists c, a. split; auto.
Qed.
Lemma index_opens r : good_row t n r -> exists c q, r_index r = c :: q /\ is_space c = false.
Proof.
  intros (_ & _ & _ & _ & _ & (N & B) & _). destruct (r_index r) as [|c q]; [congruence|]. exists c, q. split; auto. apply B. now left.
Qed.

Lemma listing_row_ok r b tm acc q h : good_row t n r -> 5 <= n ->
  (b = false -> found (body r) n) ->
  listing_row t (state b ((tm, acc) :: q) h) (row_text r) =
  Ok (state true ((tm, (r_labels r, nth 0 (map str2float_nan [r_index r]) NaN :: r_values r) :: acc) :: q) h).
Proof.
  intros G N5 FB. pose proof G as (LE & LL & FL & NE & NEND & NI & FW & FV).
  destruct (label_opens r G) as (c0 & q0 & EL & S0). destruct (index_opens r G) as (ci & qi & EI & SI).
  assert (EB : body r = c0 :: q0 ++ gap_words ((0, r_index r) :: r_words r) ++ [nl]) by (unfold body; rewrite EL; reflexivity).
  unfold listing_row.
  assert (E1 : nonempty (strip (firstn 10 (row_text r))) = true).
  { unfold row_text. fold (body r). rewrite firstn_app.
    assert (SL : List.length (spaces (r_lead r)) = r_lead r) by apply repeat_length. rewrite SL, EB.
    rewrite (firstn_all2 (spaces _)) by (rewrite SL; lia). destruct (10 - r_lead r) as [|m] eqn:EM; [lia|]. cbn [firstn].
    unfold strip. rewrite lstrip_spaces. cbn [lstrip]. rewrite S0. destruct (rstrip_keeps [] c0 (firstn m (q0 ++ gap_words ((0, r_index r) :: r_words r) ++ [nl])) S0) as (u & U).
    cbn [app] in U. rewrite U. reflexivity. }
  assert (E2 : startswith $"ELEM" (strip (row_text r)) = false).
  { unfold row_text. fold (body r). unfold strip. rewrite lstrip_spaces.
    assert (LS : lstrip (body r) = body r) by (rewrite EB; cbn [lstrip]; now rewrite S0). rewrite LS.
    assert (EQ : body r = (label_text (r_labels r) ++ [sp]) ++ ci :: qi ++ gap_words (r_words r) ++ [nl]).
    { unfold body. change (gap_words ((0, r_index r) :: r_words r)) with (([sp] ++ r_index r) ++ gap_words (r_words r)).
      rewrite EI, <- !app_assoc. reflexivity. }
    rewrite EQ. edestruct rstrip_keeps as (u & U); [exact SI|]. rewrite U. clear U. rewrite <- app_assoc.
    pose proof (label_text_length r G) as LT. set (lt := label_text (r_labels r)) in *.
    assert (5 <= List.length lt) by (rewrite LT; unfold iend_; destruct (is_element t); lia).
    clearbody lt. clear - NE H. destruct lt as [|a [|b [|c [|d lt]]]]; cbn in H; try lia. exact NE. }
  rewrite E1, E2. cbn [andb negb]. cbv zeta.
  assert (LS : lstrip (row_text r) = body r).
  { unfold row_text. fold (body r). rewrite lstrip_spaces, EB. cbn [lstrip]. now rewrite S0. }
  rewrite LS.
  set (k := state b ((tm, acc) :: q) h).
  match goal with |- context [if k_first k && no_length (k_length k) then ?x else k] =>
    assert (EK : (if k_first k && no_length (k_length k) then x else k) =
      Listing ((tm, acc) :: q) h (Some n) (Some (iend_ t n)) (negb b)) end.
  { unfold k. destruct b; cbn [state k_first k_length no_length andb negb]; [reflexivity|].
    assert (GN : get_label_length (firstn 9 (body r)) = n) by (apply (proj2 (length_found _ _)); auto). rewrite GN. reflexivity. }
  rewrite EK. cbn [k_iend k_length k_steps k_headers].
  assert (SK : skipn (iend_ t n) (body r) = gap_words ((0, r_index r) :: r_words r) ++ [nl]).
  { unfold body. rewrite <- (label_text_length r G). rewrite skipn_app, Nat.sub_diag, skipn_all. reflexivity. }
  rewrite SK, split_gap by (constructor; auto). cbn [map snd nth].
  assert (EX : map str2float_nan (map snd (r_words r)) = r_values r).
  { clear - FV. induction FV as [|gw x ws xs H F IH]; [reflexivity|]. cbn [map]. rewrite IH. f_equal.
    unfold str2float_nan, str2float. now rewrite H. }
  rewrite EX.
  assert (LB : (if is_element t then [firstn n (body r)] else [firstn n (body r); slice (n + 2) (iend_ t n) (body r)]) = r_labels r).
  { unfold iend_, body, label_text. destruct (is_element t).
    - destruct (r_labels r) as [|a [|b' q']]; try discriminate. apply Forall_inv in FL as (A & _). cbn [join].
      rewrite firstn_app, A, Nat.sub_diag, firstn_all2 by lia. cbn [firstn]. now rewrite app_nil_r.
    - destruct (r_labels r) as [|a [|b' [|c q']]]; try discriminate. apply Forall_cons_iff in FL as [(A & _) FL].
      apply Forall_inv in FL as (B & _). cbn [join]. unfold slice. f_equal; [|f_equal].
      + rewrite <- app_assoc, firstn_app, A, Nat.sub_diag, firstn_all2 by lia. cbn [firstn]. now rewrite app_nil_r.
      + rewrite <- !app_assoc. rewrite skipn_app, skipn_all2 by lia. rewrite A. replace (n + 2 - n) with 2 by lia.
        change ($"  " ++ b' ++ gap_words ((0, r_index r) :: r_words r) ++ [nl]) with (sp :: sp :: b' ++ gap_words ((0, r_index r) :: r_words r) ++ [nl]).
        cbn [skipn app]. replace (2 * n + 2 - (n + 2)) with n by lia.
        rewrite firstn_app, B, Nat.sub_diag, firstn_all2 by lia. cbn [firstn]. now rewrite app_nil_r. }
  rewrite LB. reflexivity.
Qed.
Lemma listing_skip k l : skipped l -> listing_row t k l = Ok k.
Proof.
  intros [[H|H] _]; unfold listing_row; rewrite H; [reflexivity|]. now rewrite andb_false_r.
Qed.

Definition read_row (r : row) : list str * list flt := (r_labels r, nth 0 (map str2float_nan [r_index r]) NaN :: r_values r).

Lemma inside_loop tbl b tm acc q h e rest : 5 <= n -> Forall (good_line_in t n) tbl ->
  (b = false -> forall r r', table_rows tbl = r :: r' -> found (body r) n) ->
  startswith $"@@@@@" (skipn 1 e) = true ->
  listing_loop t Inside (state b ((tm, acc) :: q) h) (map line_text tbl ++ e :: rest) =
  listing_loop t Outside (state (b || any_row (table_rows tbl)) ((tm, rev (map read_row (table_rows tbl)) ++ acc) :: q) h) rest.
Proof.
  intros N5 F. revert b acc. induction F as [|[r|l] tbl G F IH]; intros b acc FB E.
  - cbn [map app listing_loop listing_line]. rewrite E. cbn [bind fst snd table_rows map rev app any_row]. now rewrite orb_false_r.
  - cbn [map app listing_loop listing_line line_text]. pose proof G as (_ & _ & _ & _ & NEND & _). rewrite NEND.
    rewrite (listing_row_ok r b tm acc q h G N5) by (intros B; now apply (FB B r (table_rows tbl))). cbn [bind fst snd].
    fold (read_row r). rewrite IH by (auto; discriminate). cbn [table_rows any_row map rev orb]. rewrite orb_true_r, <- app_assoc. reflexivity.
  - cbn [map app listing_loop listing_line line_text]. destruct G as [G1 G2]. rewrite G2. rewrite listing_skip by now split.
    cbn [bind fst snd]. now rewrite IH.
Qed.
Lemma rows_loop_ tbl b tm acc q h e rest : 5 <= n -> Forall (good_line_in t n) tbl -> table_rows tbl <> [] ->
  (b = false -> forall r r', table_rows tbl = r :: r' -> found (body r) n) ->
  startswith $"@@@@@" (skipn 1 e) = true ->
  listing_loop t AtRows (state b ((tm, acc) :: q) h) (map line_text tbl ++ e :: rest) =
  listing_loop t Outside (state true ((tm, rev (map read_row (table_rows tbl)) ++ acc) :: q) h) rest.
Proof.
  intros N5 F. revert b acc. induction F as [|[r|l] tbl G F IH]; intros b acc NE FB E; [now destruct NE| |].
  - cbn [map app listing_loop listing_line line_text].
    assert (NS : nonempty (strip (row_text r)) = true).
    { destruct (label_opens r G) as (c0 & q0 & EL & S0). unfold row_text. rewrite EL. unfold strip. rewrite lstrip_spaces.
      cbn [app lstrip]. rewrite S0. destruct (rstrip_keeps [] c0 (q0 ++ gap_words ((0, r_index r) :: r_words r) ++ [nl]) S0) as (u & U).
      cbn [app] in U. rewrite U. reflexivity. }
    rewrite NS. rewrite (listing_row_ok r b tm acc q h G N5) by (intros B; now apply (FB B r (table_rows tbl))). cbn [bind fst snd].
    fold (read_row r). rewrite inside_loop by (auto; discriminate). cbn [table_rows map rev orb]. rewrite <- app_assoc. reflexivity.
  - cbn [map app listing_loop listing_line line_text table_rows] in *. destruct (nonempty (strip l)).
    + rewrite listing_skip by auto. cbn [bind fst snd]. rewrite inside_loop by auto.
      destruct (table_rows tbl); [now destruct NE|]. cbn [any_row]. now rewrite orb_true_r.
    + cbn [bind fst snd]. apply IH; auto.
Qed.
Lemma outside_loop k ls rest : Forall (fun l => startswith $"TOTAL TIME" (strip l) = false) ls ->
  listing_loop t Outside k (ls ++ rest) = listing_loop t Outside k rest.
Proof.
  induction 1 as [|l ls H F IH]; [reflexivity|]. cbn [app listing_loop listing_line]. rewrite H. cbn [bind fst snd]. exact IH.
Qed.
Lemma header_loop k ls rest : Forall (fun l => startswith (if is_element t then $"ELEM." else $"ELEM1") (strip l) = false) ls ->
  listing_loop t AtHeader k (ls ++ rest) = listing_loop t AtHeader k rest.
Proof.
  induction 1 as [|l ls H F IH]; [reflexivity|]. cbn [app listing_loop listing_line]. rewrite H. cbn [bind fst snd]. exact IH.
Qed.
Definition read_step (s : step) : flt * list (list str * list flt) := (s_value s, rev (map read_row (rows s))).
Lemma step_loop_ heads s b st h rest : 5 <= n -> good_step t n heads s ->
  (b = false -> forall r r', rows s = r :: r' -> found (body r) n) ->
  listing_loop t Outside (state b st h) (step_lines s ++ rest) =
  listing_loop t Outside (state true (read_step s :: st) (Some heads)) rest.
Proof.
  intros N5 G FB. unfold step_lines. rewrite <- !app_assoc. rewrite outside_loop by apply (gs_before _ _ _ _ G).
  cbn [app listing_loop listing_line]. rewrite (gs_total _ _ _ _ G). cbn [bind fst snd listing_line].
  rewrite split_ws_strip. destruct (gs_time _ _ _ _ G) as (w & wr & EW & PW). rewrite EW. unfold to_float. rewrite PW. cbn [bind fst snd].
  assert (EK : Listing ((s_value s, []) :: k_steps (state b st h)) (k_headers (state b st h)) (k_length (state b st h))
     (k_iend (state b st h)) (k_first (state b st h)) = state b ((s_value s, []) :: st) h) by (destruct b; reflexivity).
  rewrite EK. rewrite header_loop by apply (gs_between _ _ _ _ G).
  cbn [app listing_loop listing_line]. destruct (gs_header _ _ _ _ G) as [EH1 EH2]. rewrite EH1. rewrite split_ws_strip, EH2.
  cbn [bind fst snd].
  assert (EK2 : Listing (k_steps (state b ((s_value s, []) :: st) h)) (Some heads) (k_length (state b ((s_value s, []) :: st) h))
     (k_iend (state b ((s_value s, []) :: st) h)) (k_first (state b ((s_value s, []) :: st) h)) = state b ((s_value s, []) :: st) (Some heads))
    by (destruct b; reflexivity).
  rewrite EK2. cbn [app]. rewrite rows_loop_; auto.
  - unfold read_step. now rewrite app_nil_r.
  - apply (gs_table _ _ _ _ G).
  - apply (gs_rows _ _ _ _ G).
  - apply (gs_end _ _ _ _ G).
Qed.
Lemma steps_loop_ heads steps b st h rest : 5 <= n -> steps <> [] -> Forall (good_step t n heads) steps ->
  (b = false -> forall s r r', nth_error steps 0 = Some s -> rows s = r :: r' -> found (body r) n) ->
  listing_loop t Outside (state b st h) (concat (map step_lines steps) ++ rest) =
  listing_loop t Outside (state true (rev (map read_step steps) ++ st) (Some heads)) rest.
Proof.
  intros N5 NE F. revert b st h. induction F as [|s steps G F IH]; intros b st h FB; [congruence|].
  cbn [map concat]. rewrite <- app_assoc. rewrite (step_loop_ heads s) by (auto; intros; now apply (FB H s r r')).
  destruct steps as [|s' steps]; [reflexivity|]. rewrite IH by (discriminate || (intros; discriminate)).
  cbn [map rev]. now rewrite <- !app_assoc.
Qed.

Theorem listing_read_ok fmt heads steps rest : good_listing t n heads steps ->
  Forall (fun l => startswith $"TOTAL TIME" (strip l) = false) rest ->
  exists outs, listing_read t fmt None None (concat (map step_lines steps) ++ rest) = Ok outs /\
    Forall2 (step_result t fmt heads) steps outs.
Proof.
  intros (NE & F & ND & SR & FB) FR.
  assert (N5 : 5 <= n).
  { destruct steps as [|s q]; [congruence|]. apply Forall_inv in F. pose proof (gs_rows _ _ _ _ F) as R.
    destruct (rows s) as [|r q'] eqn:ER; [congruence|]. specialize (FB s r q' eq_refl ER). destruct FB as (? & _). lia. }
  unfold listing_read. change (Listing [] None None None true) with (state false [] None).
  rewrite (steps_loop_ heads) by (auto; intros _ s r r' A B; rewrite <- body_skip; eauto).
  rewrite <- (app_nil_r rest), outside_loop by auto. cbn [listing_loop bind]. rewrite state_steps.
  change (k_headers (state true (rev (map read_step steps) ++ []) (Some heads))) with (Some heads). cbn match.
  rewrite app_nil_r, rev_involutive, map_map.
  set (step' := fun s => (s_value s, map read_row (rows s))).
  assert (ES : map (fun x => (fst (read_step x), rev (snd (read_step x)))) steps = map step' steps).
  { apply map_ext. intros s. unfold read_step, step'. cbn [fst snd]. now rewrite rev_involutive. }
  rewrite ES. clear ES. set (hs := names_in t heads).
  rewrite Forall_forall in F.
  assert (WD : forall s r, In s steps -> In r (rows s) -> List.length (r_values r) = List.length hs).
  { intros s r I J. pose proof (gs_width _ _ _ _ (F s I)) as W. rewrite Forall_forall in W. now apply W. }
  assert (SS : same_shape (map step' steps) = true).
  { unfold same_shape. apply andb_true_iff. split.
    - destruct steps as [|s0 q] eqn:EQ; [congruence|]. rewrite <- EQ in *. apply (rectangular_all (List.length (rows s0))).
      rewrite map_map. apply Forall_map, Forall_forall. intros s I. cbn [snd step']. rewrite map_length. apply SR; auto. rewrite EQ. now left.
    - apply (rectangular_all (S (List.length hs))). rewrite map_map. apply Forall_concat. intros s I.
      cbn [snd step']. rewrite map_map. apply Forall_map, Forall_forall. intros r J. cbn [snd read_row List.length]. f_equal. now apply (WD s). }
  rewrite SS. fold (names_in t heads). fold hs. unfold to_output. rewrite map_map.
  set (back := fun s => Output t fmt (Some (s_value s)) (Some (map r_labels (rows s)))
        (combine hs (map (fun j => map (fun r => nth j (r_values r) NaN) (rows s)) (seq 0 (List.length hs))))).
  assert (EM : mapM (step_output t fmt hs)
     (map (fun x => (Some (fst (step' x)), Some (map fst (snd (step' x))), map (fun r => skipn 1 (snd r)) (snd (step' x)))) steps)
     = Ok (map back steps)).
  { rewrite (mapM_ok _ (fun s => Output t fmt (fst (fst s)) (snd (fst s))
        (combine hs (match transpose (snd s) with Ok c => c | Err _ => [] end)))).
    - rewrite map_map. f_equal. apply map_ext_in. intros s I. unfold back. cbn [fst snd step']. f_equal.
      + f_equal. rewrite map_map. reflexivity.
      + f_equal. rewrite map_map.
        rewrite (map_ext_in _ (fun r => map (fun j => nth j (r_values r) NaN) (seq 0 (List.length hs)))).
        * rewrite (transpose_map (fun r j => nth j (r_values r) NaN)); [reflexivity|]. apply (gs_rows _ _ _ _ (F s I)).
        * intros r J. cbn [read_row snd skipn]. symmetry. apply map_nth_seq. now apply (WD s).
    - intros x I. apply in_map_iff in I as (s & <- & I). unfold step_output. cbn [fst snd step']. rewrite map_map.
      rewrite (map_ext_in _ (fun r => map (fun j => nth j (r_values r) NaN) (seq 0 (List.length hs)))).
      + rewrite (transpose_map (fun r j => nth j (r_values r) NaN)) by apply (gs_rows _ _ _ _ (F s I)). cbn [bind].
        rewrite to_table_nodup by (auto; now rewrite map_length, seq_length). reflexivity.
      + intros r J. cbn [read_row snd skipn]. symmetry. apply map_nth_seq. now apply (WD s). }
  rewrite EM. cbn [bind]. eexists. split; [reflexivity|].
  assert (CF : forall (A B : Type) (a : list A) (b : list B), List.length a = List.length b -> map fst (combine a b) = a).
  { intros A B. induction a as [|x a IHa]; intros [|y b] E; try discriminate; auto. cbn. f_equal. apply IHa. now injection E. }
  assert (NC : forall (A B : Type) (a : list A) (b : list B) i x y, nth_error a i = Some x -> nth_error b i = Some y ->
     nth_error (combine a b) i = Some (x, y)).
  { intros A B. induction a as [|x0 a IHa]; intros [|y0 b] [|i] x y E1 E2; try discriminate; cbn in *; [congruence|auto]. }
  assert (FBK : forall s, In s steps -> step_result t fmt heads s (back s)).
  { intros s I. constructor; auto.
    - unfold names, back. cbn [o_data]. fold hs. apply CF. now rewrite map_length, seq_length.
    - intros j k J. exists (map (fun r => nth j (r_values r) NaN) (rows s)).
      assert (JL : j < List.length hs) by (apply nth_error_Some; fold hs in J; congruence). split; [|split].
      + cbn [back o_data]. apply NC; auto. rewrite nth_error_map. rewrite (nth_error_nth' _ 0) by now rewrite seq_length.
        rewrite seq_nth by auto. reflexivity.
      + apply map_length.
      + intros i r x I1 I2. rewrite nth_error_map, I1. cbn [option_map]. f_equal. now apply nth_error_nth. }
  clear - FBK. induction steps as [|s steps IH]; constructor; [apply FBK; now left|]. apply IH. intros x Hx. apply FBK. now right.
Qed.
End Table.
