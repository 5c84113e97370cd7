(** Tecplot outputs. *)
From Coq Require Import String Ascii ZArith Bool Lia Permutation List.
From Verif Require Import Base.Str Base.Digits Base.Flt Base.FltText Model.Py Model.Dispatch Model.Output
  Spec.Fields Spec.Output Proofs.DictLemmas Proofs.RecordLemmas Proofs.BlockTools Proofs.FileProof Proofs.CellText Proofs.CsvProof
  Proofs.PetrasimProof Proofs.RecognizeProof.
Import ListNotations.
Local Open Scope nat_scope.

(** ** Words *)
Definition word (w : str) : Prop := w <> [] /\ no_space_str w = true.
Lemma split_ws_grow w cur r : no_space_str w = true -> split_ws_aux cur (w ++ r) = split_ws_aux (rev w ++ cur) r.
Proof.
  revert cur. induction w as [|c w IH]; intros cur H; auto. unfold no_space_str in H. cbn [forallb] in H.
  apply andb_true_iff in H as [H1 H2]. apply negb_true_iff in H1. cbn [app split_ws_aux]. rewrite H1, IH by auto.
  cbn [rev]. now rewrite <- app_assoc.
Qed.
Lemma rev_not_nil (w : str) : w <> [] -> exists c r, rev w = c :: r.
Proof. intros N. destruct (rev w) as [|c r] eqn:E; [|eauto]. destruct N. rewrite <- (rev_involutive w), E. reflexivity. Qed.
Lemma split_ws_one w : word w -> split_ws w = [w].
Proof.
  intros [N H]. unfold split_ws. rewrite <- (app_nil_r w) at 1. rewrite split_ws_grow, app_nil_r by auto.
  destruct (rev_not_nil w N) as (c & r & E). rewrite E. cbn [split_ws_aux]. now rewrite <- E, rev_involutive.
Qed.
Lemma split_ws_word w c r : word w -> is_space c = true -> split_ws (w ++ c :: r) = w :: split_ws r.
Proof.
  intros [N H] S. unfold split_ws at 1. rewrite split_ws_grow, app_nil_r by auto.
  destruct (rev_not_nil w N) as (d & q & E). rewrite E. cbn [split_ws_aux]. now rewrite S, <- E, rev_involutive.
Qed.
Lemma split_ws_lead a s : forallb is_space a = true -> split_ws (a ++ s) = split_ws s.
Proof.
  induction a as [|c a IH]; auto. cbn [forallb]. intros H. apply andb_true_iff in H as [H1 H2].
  unfold split_ws. cbn [app split_ws_aux]. rewrite H1. now apply IH.
Qed.
Lemma split_ws_trail b s : forallb is_space b = true -> split_ws (s ++ b) = split_ws s.
Proof.
  intros B. unfold split_ws. generalize (@nil ascii) as cur. induction s as [|c s IH]; intros cur; cbn [app].
  - revert cur. induction b as [|c b IH]; auto. cbn [forallb] in B. apply andb_true_iff in B as [B1 B2]. intros cur.
    cbn [split_ws_aux]. rewrite B1. destruct cur; rewrite IH; auto.
  - cbn [split_ws_aux]. destruct (is_space c); [destruct cur|]; now rewrite IH.
Qed.
Lemma split_ws_strip s : split_ws (strip s) = split_ws s.
Proof.
  destruct (strip_all s) as (a & b & A & B & E). rewrite E at 2. rewrite split_ws_lead by auto. now rewrite split_ws_trail.
Qed.
Lemma split_ws_cells n ws t : Forall (fun w => word w /\ List.length w < n) ws -> forallb is_space t = true ->
  split_ws (concat (map (rjust n) ws) ++ t) = ws.
Proof.
  intros F T. rewrite split_ws_trail by auto. induction F as [|w ws [W L] F IH]; [reflexivity|]. cbn [map concat].
  unfold rjust at 1. rewrite <- app_assoc, split_ws_lead by apply spaces_all_space.
  destruct ws as [|v ws].
  - cbn [map concat]. rewrite app_nil_r. now apply split_ws_one.
  - cbn [map concat] in *. unfold rjust at 1. unfold rjust at 1 in IH. apply Forall_inv in F as [_ L'].
    replace (n - List.length v) with (S (n - List.length v - 1)) in * by lia.
    unfold spaces in *. cbn [repeat app] in *. rewrite split_ws_word by auto. f_equal.
    unfold split_ws in IH. cbn [split_ws_aux] in IH. exact IH.
Qed.

(** ** float() does not look at the case *)
Lemma upper_digit c : is_digit c = true -> upper_c c = c.
Proof. destruct c as [[] [] [] [] [] [] [] []]; vm_compute; congruence. Qed.
Lemma upper_is_digit c : is_digit (upper_c c) = is_digit c.
Proof. destruct c as [[] [] [] [] [] [] [] []]; reflexivity. Qed.
Lemma upper_is_space c : is_space (upper_c c) = is_space c.
Proof. destruct c as [[] [] [] [] [] [] [] []]; reflexivity. Qed.
Lemma upper_clean c : clean_c (upper_c c) = clean_c c.
Proof. destruct c as [[] [] [] [] [] [] [] []]; reflexivity. Qed.
Lemma upper_is_e c : is_e (upper_c c) = is_e c.
Proof. destruct c as [[] [] [] [] [] [] [] []]; reflexivity. Qed.
Lemma upper_eqb c d : In d ["."; "-"; "+"; ","; "="; quote]%char -> Ascii.eqb (upper_c c) d = Ascii.eqb c d.
Proof. cbn [In]. intros H. decompose [or] H; try tauto; subst d; destruct c as [[] [] [] [] [] [] [] []]; reflexivity. Qed.
Lemma lower_upper_c c : lower_c (upper_c c) = lower_c c.
Proof. destruct c as [[] [] [] [] [] [] [] []]; reflexivity. Qed.
Lemma lower_upper s : lower (upper s) = lower s.
Proof. unfold lower, upper. rewrite map_map. apply map_ext. apply lower_upper_c. Qed.
Lemma upper_digits s : forallb is_digit s = true -> upper s = s.
Proof.
  induction s as [|c s IH]; auto. cbn [forallb upper map]. intros H. apply andb_true_iff in H as [H1 H2].
  rewrite upper_digit by auto. f_equal. now apply IH.
Qed.
Lemma forallb_upper f s : (forall c, f (upper_c c) = f c) -> forallb f (upper s) = forallb f s.
Proof. intros H. unfold upper. induction s as [|c s IH]; auto. cbn [map forallb]. now rewrite H, IH. Qed.
Lemma span_upper s : span_digits (upper s) = (fst (span_digits s), upper (snd (span_digits s))).
Proof.
  induction s as [|c s IH]; auto. cbn [upper map span_digits]. fold (upper s). rewrite upper_is_digit.
  destruct (is_digit c) eqn:E; [|reflexivity]. rewrite IH. destruct (span_digits s). cbn [fst snd]. now rewrite upper_digit.
Qed.
Lemma split_sign_upper s : split_sign (upper s) = (fst (split_sign s), upper (snd (split_sign s))).
Proof.
  destruct s as [|c s]; auto. cbn [upper map split_sign]. rewrite !upper_eqb by (cbn; auto 9).
  destruct (Ascii.eqb c "-"); auto. destruct (Ascii.eqb c "+"); auto.
Qed.
Lemma parse_exp_upper s : parse_exp (upper s) = parse_exp s.
Proof.
  destruct s as [|c s]; auto. unfold parse_exp at 1. cbn [upper map]. fold (upper s). cbn [parse_exp]. rewrite upper_is_e.
  destruct (is_e c); auto. rewrite split_sign_upper. destruct (split_sign s) as [ng ds]. cbn [fst snd].
  rewrite (forallb_upper is_digit) by apply upper_is_digit. destruct (forallb is_digit ds) eqn:E.
  - now rewrite upper_digits by auto.
  - now rewrite !andb_false_r.
Qed.
Lemma parse_udec_upper s : parse_udec (upper s) = parse_udec s.
Proof.
  unfold parse_udec. rewrite span_upper. destruct (span_digits s) as [ip r]. cbn [fst snd].
  destruct r as [|c r]; [reflexivity|]. cbn [upper map]. rewrite upper_eqb by (cbn; auto 9). fold (upper r).
  destruct (Ascii.eqb c ".").
  - rewrite span_upper. destruct (span_digits r) as [fp r']. cbn [fst snd]. now rewrite parse_exp_upper.
  - rewrite app_nil_r. change (upper_c c :: upper r) with (upper (c :: r)). now rewrite parse_exp_upper.
Qed.
Lemma clean_parts s : forallb clean_c s = true -> strip s = s /\ no_underscores s = Some s.
Proof.
  intros H. split.
  - apply trimmed_strip, no_space_trimmed. now apply clean_no_space in H.
  - apply no_underscores_none. apply not_true_iff_false. intros X. apply existsb_exists in X as (c & I & E).
    rewrite forallb_forall in H. apply H in I. unfold clean_c in I. rewrite E in I. now rewrite andb_false_r in I.
Qed.
Lemma parse_float_upper s : forallb clean_c s = true -> parse_float (upper s) = parse_float s.
Proof.
  intros H. unfold parse_float. destruct (clean_parts s H) as [-> ->].
  destruct (clean_parts (upper s)) as [-> ->]; [rewrite forallb_upper; auto using upper_clean|].
  rewrite split_sign_upper. destruct (split_sign s) as [ng u]. cbn [fst snd]. unfold is_inf_name, is_nan_name.
  now rewrite lower_upper, parse_udec_upper.
Qed.

(** ** The zone *)
Lemma find_sub_at q a b : lacks q a -> find_sub [q] (a ++ q :: b) = Some (a, q :: b).
Proof.
  induction a as [|c a IH]; intros H; cbn [app find_sub startswith].
  - now rewrite Ascii.eqb_refl.
  - apply lacks_cons in H as [H1 H2]. assert (E : Ascii.eqb q c = false) by (apply Ascii.eqb_neq; congruence).
    rewrite E. cbn [andb]. now rewrite IH.
Qed.
Lemma find_sub_none c sub s : lacks c s -> find_sub (c :: sub) s = None.
Proof.
  induction s as [|d s IH]; intros H; cbn [find_sub startswith]; auto. apply lacks_cons in H as [H1 H2].
  assert (E : Ascii.eqb c d = false) by (apply Ascii.eqb_neq; congruence). rewrite E. cbn [andb]. now rewrite IH.
Qed.
Lemma replace_skip x sub by_ b : replace_sub (List.length x) sub by_ (x ++ b) = replace_sub 0 sub by_ b.
Proof. induction x as [|c x IH]; [reflexivity|]. cbn [List.length app replace_sub]. exact IH. Qed.
Lemma replace_lacks q sub by_ a b : lacks q a -> replace_sub 0 (q :: sub) by_ (a ++ b) = a ++ replace_sub 0 (q :: sub) by_ b.
Proof.
  induction a as [|c a IH]; intros H; auto. apply lacks_cons in H as [H1 H2]. cbn [app replace_sub startswith].
  assert (E : Ascii.eqb q c = false) by (apply Ascii.eqb_neq; congruence). rewrite E. cbn [andb]. now rewrite IH.
Qed.
Lemma replace_at q sub by_ b : replace_sub 0 (q :: sub) by_ ((q :: sub) ++ b) = by_ ++ replace_sub 0 (q :: sub) by_ b.
Proof.
  cbn [app replace_sub]. change (q :: sub ++ b) with ((q :: sub) ++ b). rewrite startswith_app. cbn [List.length].
  rewrite Nat.sub_succ, Nat.sub_0_r. now rewrite replace_skip.
Qed.
Lemma commas_lacks s : lacks ","%char s -> commas_out s = s.
Proof.
  unfold commas_out. induction s as [|c s IH]; auto. intros H. apply lacks_cons in H as [H1 H2]. cbn [map].
  apply Ascii.eqb_neq in H1. rewrite H1. f_equal. now apply IH.
Qed.
Lemma lacks_upper d s : upper_c d = d -> (forall c, upper_c c = d -> c = d) -> lacks d s -> lacks d (upper s).
Proof. intros E1 E2 H c I ->. apply in_map_iff in I as (x & Ex & Ix). apply E2 in Ex as ->. now apply (H d). Qed.
Lemma upper_quote c : upper_c c = quote -> c = quote.
Proof. destruct c as [[] [] [] [] [] [] [] []]; vm_compute; congruence. Qed.
Lemma no_equal_lacks s : lacks "="%char s -> no_equal s = s.
Proof.
  unfold no_equal. induction s as [|c s IH]; auto. intros H. apply lacks_cons in H as [H1 H2]. cbn [filter].
  apply Ascii.eqb_neq in H1. rewrite H1. cbn [negb]. f_equal. now apply IH.
Qed.
Lemma print_nat_digits n : forallb is_digit (print_Z (Z.of_nat n)) = true.
Proof. unfold print_Z. destruct (Z.ltb_spec (Z.of_nat n) 0); [lia|]. apply digits_all. Qed.
Lemma digits_lacks d s : is_digit d = false -> forallb is_digit s = true -> lacks d s.
Proof. intros H F c I ->. rewrite forallb_forall in F. rewrite F in H; auto. discriminate. Qed.

Definition zone_text (t : flt) (n : nat) : str :=
  $"ZONE T=" ++ (quote :: upper (rjust 14 (fmt_e 7 t)) ++ $" SEC" ++ [quote]) ++ $"  I = " ++ rjust 8 (print_Z (Z.of_nat n)).
Lemma zone_upper t n : strip (upper (tecplot_zone t n)) = zone_text t n.
Proof.
  unfold tecplot_zone, zone_text. set (ds := print_Z (Z.of_nat n)).
  assert (U : upper (rjust 8 ds) = rjust 8 ds).
  { unfold rjust, upper. rewrite map_app. f_equal; [|apply upper_digits, print_nat_digits].
    unfold spaces. generalize (8 - List.length ds). clear. induction n; cbn [repeat map]; [reflexivity|]. now rewrite IHn. }
  assert (E : upper ($" ZONE T=""" ++ rjust 14 (fmt_e 7 t) ++ $" SEC""  I = " ++ rjust 8 ds ++ [nl]) =
    [sp] ++ ($"ZONE T=" ++ (quote :: upper (rjust 14 (fmt_e 7 t)) ++ $" SEC" ++ [quote]) ++ $"  I = " ++ rjust 8 ds) ++ [nl]).
  { unfold upper at 1. rewrite !map_app. fold (upper (rjust 14 (fmt_e 7 t))). fold (upper (rjust 8 ds)). rewrite U.
    cbn [lit String.string_rect]. cbn -[rjust upper]. rewrite <- !app_assoc. cbn -[rjust upper]. reflexivity. }
  rewrite E. apply (strip_around [sp] [nl]); auto. apply open_close.
  - eexists _, _. split; reflexivity.
  - do 3 apply closes_app. apply closes_rjust, trimmed_closes; [apply print_Z_nonempty|apply print_Z_trimmed].
Qed.
Lemma zone_read t n : is_f64 t = true -> output_zone (zone_text t n) = Ok (Some (rnd_e 7 t), Z.of_nat n).
Proof.
  intros F. set (ds := print_Z (Z.of_nat n)). set (ttl := upper (rjust 14 (fmt_e 7 t)) ++ $" SEC").
  assert (LQ : lacks quote ttl).
  { apply lacks_app. split; [|intros c I ->; cbn in I; intuition discriminate].
    apply lacks_upper; [reflexivity|apply upper_quote|]. apply lacks_rjust; [discriminate|].
    apply lacks_num; [reflexivity|apply fmt_e_num]. }
  set (tail_ := $"  I = " ++ rjust 8 ds).
  assert (DS : forallb is_digit ds = true) by apply print_nat_digits.
  assert (LT : lacks quote tail_ /\ lacks "V"%char tail_ /\ lacks ","%char tail_).
  { unfold tail_. repeat split; apply lacks_app; split;
      try (intros c I ->; cbn in I; intuition discriminate); (apply lacks_rjust; [discriminate|]); apply digits_lacks; auto. }
  destruct LT as (LT1 & LT2 & LT3).
  assert (ER : read_zone (zone_text t n) = Ok [($"T", ZStr ttl); ($"I", ZInt (Z.of_nat n))]).
  { unfold read_zone. replace (skipn 5 (zone_text t n)) with ($"T=" ++ (quote :: ttl ++ [quote]) ++ tail_).
    2:{ unfold zone_text, ttl, tail_. cbn [lit String.string_rect]. cbn -[rjust upper fmt_e]. now rewrite <- !app_assoc. }
    assert (ET : zone_title ($"T=" ++ (quote :: ttl ++ [quote]) ++ tail_) = Ok (Some ttl, $"T=PLACEHOLDER" ++ tail_)).
    { unfold zone_title.
      change ((quote :: ttl ++ [quote]) ++ tail_) with (quote :: (ttl ++ [quote]) ++ tail_).
      rewrite find_sub_at by (intros c I ->; cbn in I; intuition discriminate). cbn [tl].
      rewrite <- app_assoc. cbn [app]. rewrite find_sub_at by auto. do 3 f_equal.
      rewrite replace_lacks by (intros c I ->; cbn in I; intuition discriminate).
      replace (quote :: ttl ++ quote :: tail_) with ((quote :: ttl ++ [quote]) ++ tail_) by (cbn [app]; now rewrite <- app_assoc).
      rewrite replace_at. rewrite <- (app_nil_r tail_) at 1. rewrite replace_lacks by auto. cbn [replace_sub].
      now rewrite app_nil_r, app_assoc. }
    rewrite ET. cbn [bind].
    assert (EV : zone_varlocation ($"T=PLACEHOLDER" ++ tail_) = Ok ([], $"T=PLACEHOLDER" ++ tail_)).
    { unfold zone_varlocation. rewrite (find_sub_none "V"%char $"ARLOCATION"); auto. apply lacks_app. split; auto.
      intros c I ->. cbn in I. intuition discriminate. }
    rewrite EV. cbn [bind map]. rewrite commas_lacks.
    2:{ apply lacks_app. split; auto. intros c I ->. cbn in I. intuition discriminate. }
    assert (EW : split_ws ($"T=PLACEHOLDER" ++ tail_) = [$"T=PLACEHOLDER"; $"I"; $"="; ds]).
    { unfold tail_. change ($"  I = " ++ rjust 8 ds) with (sp :: sp :: "I"%char :: sp :: "="%char :: sp :: rjust 8 ds).
      rewrite split_ws_word by (first [reflexivity | split; [discriminate|reflexivity]]). f_equal.
      change (sp :: "I"%char :: sp :: "="%char :: sp :: rjust 8 ds) with ([sp] ++ $"I" ++ sp :: $"=" ++ sp :: rjust 8 ds).
      rewrite (split_ws_lead [sp]) by reflexivity.
      rewrite (split_ws_word $"I" sp) by (first [reflexivity | split; [discriminate|reflexivity]]). f_equal.
      rewrite (split_ws_word $"=" sp) by (first [reflexivity | split; [discriminate|reflexivity]]). f_equal.
      unfold rjust. rewrite split_ws_lead by apply spaces_all_space. apply split_ws_one. split.
      - apply print_Z_nonempty.
      - apply print_Z_no_space. }
    rewrite EW. cbn [filter]. change (streqb $"T=PLACEHOLDER" $"=") with false. change (streqb $"I" $"=") with false.
    change (streqb $"=" $"=") with true. cbn [negb].
    assert (ND : streqb ds $"=" = false).
    { apply streqb_neq. intros X. rewrite X in DS. discriminate. }
    rewrite ND. cbn [negb].
    assert (EP : zone_pairs [] [$"T=PLACEHOLDER"; $"I"; ds] = Ok [($"T", ZStr $"PLACEHOLDER"); ($"I", ZInt (Z.of_nat n))]).
    { change (zone_pairs [] [$"T=PLACEHOLDER"; $"I"; ds]) with
        (let* x := zone_value $"I" (no_equal ds) in Ok [($"T", ZStr $"PLACEHOLDER"); ($"I", x)]).
      rewrite no_equal_lacks by (apply digits_lacks; auto). unfold zone_value. change (smem $"I" zone_int_keys) with true.
      cbn match. unfold ds. rewrite parse_print_Z. reflexivity. }
    rewrite EP. cbn [bind]. destruct ttl as [|c r] eqn:EN; [|reflexivity]. exfalso. apply app_eq_nil in EN as [_ EN]. discriminate. }
  unfold output_zone. rewrite ER. cbn [bind]. change (tget $"T" [($"T", ZStr ttl); ($"I", ZInt (Z.of_nat n))]) with (Some (ZStr ttl)).
  change (tget $"I" [($"T", ZStr ttl); ($"I", ZInt (Z.of_nat n))]) with (Some (ZInt (Z.of_nat n))). cbn match.
  assert (EW : split_ws ttl = [upper (fmt_e 7 t); $"SEC"]).
  { unfold ttl, rjust, upper. rewrite map_app. fold (upper (spaces (14 - List.length (fmt_e 7 t)))). fold (upper (fmt_e 7 t)).
    rewrite <- app_assoc, split_ws_lead by (rewrite forallb_upper; [apply spaces_all_space|apply upper_is_space]).
    change $" SEC" with (sp :: $"SEC"). rewrite split_ws_word; [reflexivity| |reflexivity]. split.
    - intros X. apply (fmt_e_nonempty 7 t). now apply map_eq_nil in X.
    - unfold no_space_str. rewrite (forallb_upper (fun c => negb (is_space c))) by (intros; now rewrite upper_is_space).
      apply clean_no_space, fmt_e_clean. }
  rewrite EW. unfold to_float. rewrite parse_float_upper by apply fmt_e_clean. rewrite parse_fmt_e by now apply is_f64_nonneg.
  reflexivity.
Qed.

(** ** Rows *)
Lemma row_words xs : Forall (fun x => is_f64 x = true /\ List.length (fmt_e 12 x) < 20) xs ->
  mapM to_float (split_ws (strip (tecplot_row xs))) = Ok (map (rnd_e 12) xs).
Proof.
  intros F. rewrite split_ws_strip. unfold tecplot_row. rewrite split_ws_lead by apply spaces_all_space.
  replace (map number xs) with (map (rjust 20) (map (fmt_e 12) xs)) by now rewrite map_map.
  rewrite split_ws_cells; auto.
  - rewrite (mapM_ok _ (fun s => match to_float s with Ok x => x | Err _ => NaN end)).
    + rewrite map_map. f_equal. apply map_ext_in. intros x I. rewrite Forall_forall in F. destruct (F x I) as [F1 _].
      now rewrite to_float_e.
    + intros s I. apply in_map_iff in I as (x & <- & I). rewrite Forall_forall in F. destruct (F x I) as [F1 _].
      now rewrite to_float_e.
  - apply Forall_map. eapply Forall_impl; [|exact F]. intros x [_ L]. split; auto. split; [apply fmt_e_nonempty|].
    apply clean_no_space, fmt_e_clean.
Qed.
Lemma rows_read rows rest : Forall (Forall (fun x => is_f64 x = true /\ List.length (fmt_e 12 x) < 20)) rows ->
  tecplot_rows (List.length rows) (map tecplot_row rows ++ rest) = Ok (map (map (rnd_e 12)) rows, rest).
Proof.
  induction 1 as [|r rows F FF IH]; [reflexivity|]. cbn [List.length map app tecplot_rows readline].
  rewrite row_words by auto. cbn [bind]. rewrite IH. reflexivity.
Qed.

(** ** The header *)
Lemma header_line hs : Forall tecplot_name hs -> In $"X" hs -> In $"Y" hs ->
  startswith $"VARIABLES" (upper (strip (tecplot_header hs))) = true /\
  read_variables (strip (tecplot_header hs)) = Ok hs.
Proof.
  intros F X Y. unfold tecplot_header. change (rjust 18 $"VARIABLES       =") with (sp :: $"VARIABLES       =").
  set (l := (sp :: $"VARIABLES       =") ++ concat (map (rjust 18) hs) ++ [nl]).
  assert (NE : hs <> []) by (intros ->; destruct X).
  assert (CL : closes (concat (map (rjust 18) hs))).
  { destruct (exists_last NE) as (r & k & ->). rewrite map_app, concat_app. apply closes_app. cbn [map concat]. rewrite app_nil_r.
    apply closes_rjust. apply Forall_app in F as [_ F]. apply Forall_inv in F as (K1 & _ & K2). apply trimmed_closes; auto.
    apply no_space_trimmed. unfold no_space_str. apply forallb_forall. intros c I. apply negb_true_iff. now apply K2. }
  assert (ES : strip l = $"VARIABLES       =" ++ concat (map (rjust 18) hs)).
  { unfold l. change ((sp :: $"VARIABLES       =") ++ concat (map (rjust 18) hs) ++ [nl])
      with ([sp] ++ $"VARIABLES       =" ++ concat (map (rjust 18) hs) ++ [nl]).
    rewrite (app_assoc $"VARIABLES       ="). apply (strip_around [sp] [nl]); auto. apply open_close.
    - eexists _, _. split; reflexivity.
    - now apply closes_app. }
  rewrite ES. split; [reflexivity|]. unfold read_variables.
  change ($"VARIABLES       =" ++ concat (map (rjust 18) hs)) with ($"VARIABLES       " ++ "="%char :: concat (map (rjust 18) hs)).
  rewrite split_on_cons by (intros c I ->; cbn in I; intuition discriminate).
  assert (LC : forall d, d <> sp -> Forall (lacks d) hs -> lacks d (concat (map (rjust 18) hs))).
  { intros d N G c I. apply in_concat in I as (w & J & I). apply in_map_iff in J as (k & <- & J).
    rewrite Forall_forall in G. apply (lacks_rjust d 18 k); auto. }
  rewrite split_on_lacks.
  2:{ apply LC; [discriminate|]. eapply Forall_impl; [|exact F]. intros k (_ & _ & K) c I. now apply K. }
  cbn [nth_error]. rewrite commas_lacks.
  2:{ apply LC; [discriminate|]. eapply Forall_impl; [|exact F]. intros k (_ & _ & K) c I. now apply K. }
  rewrite <- (app_nil_r (concat (map (rjust 18) hs))), split_ws_cells; auto.
  2:{ eapply Forall_impl; [|exact F]. intros k (K1 & K2 & K3). split; auto. split; auto.
      unfold no_space_str. apply forallb_forall. intros c I. apply negb_true_iff. now apply K3. }
  assert (EV : var_names hs = Ok hs).
  { clear - F. induction F as [|k hs (_ & _ & K) F IH]; [reflexivity|]. cbn [var_names].
    assert (L : lacks quote k) by (intros c I; now apply K).
    assert (C : contains quote k = false).
    { unfold contains. apply not_true_iff_false. intros E. apply existsb_exists in E as (d & I & E). apply Ascii.eqb_eq in E.
      symmetry in E. now apply (L d). }
    rewrite C. cbn [andb]. rewrite IH. cbn [bind]. now rewrite unquote_lacks. }
  rewrite EV. cbn [bind].
  assert (SM : forall k, In k hs -> smem k hs = true).
  { intros k I. apply existsb_exists. exists k. split; auto. apply streqb_refl. }
  rewrite (SM _ X), (SM _ Y). reflexivity.
Qed.

(** ** All together *)
Definition rows_of (hs : list str) (n : nat) (o : output) : list (list flt) :=
  map (fun i => map (fun k => val o i k) hs) (seq 0 n).
Definition count (o : output) : nat := List.length (column o $"X").
Definition zone_lines (hs : list str) (o : output) : list str :=
  tecplot_zone (time_of o) (count o) :: map tecplot_row (rows_of hs (count o) o).
Lemma tsheet_column o k : tecplot_sheet o -> In k (names o) -> tget k (o_data o) = Some (column o k) /\
  List.length (column o k) = count o /\ Forall (fun x => is_f64 x = true /\ List.length (fmt_e 12 x) < 20) (column o k).
Proof.
  intros (_ & _ & ND & X & _ & _ & n & _ & D) I.
  assert (G : forall k, In k (names o) -> tget k (o_data o) = Some (column o k) /\
    List.length (column o k) = n /\ Forall (fun x => is_f64 x = true /\ List.length (fmt_e 12 x) < 20) (column o k)).
  { intros k' I'. unfold column. destruct (tget_key _ _ I') as (c & E). rewrite E. split; auto. apply (D k'). now apply tget_some. }
  unfold count. destruct (G _ X) as (_ & -> & _). apply G, I.
Qed.
Lemma tsheet_count o : tecplot_sheet o -> count o <> 0.
Proof.
  intros H. destruct H as (_ & _ & ND & X & _ & _ & n & N & D). unfold count, column. destruct (tget_key _ _ X) as (c & E). rewrite E.
  apply tget_some in E. apply D in E as [-> _]. exact N.
Qed.
Lemma tsheet_rows hs o : tecplot_sheet o -> (forall k, In k hs -> In k (names o)) ->
  Forall (Forall (fun x => is_f64 x = true /\ List.length (fmt_e 12 x) < 20)) (rows_of hs (count o) o).
Proof.
  intros H HN. apply Forall_map, Forall_forall. intros i I. apply in_seq in I. apply Forall_map, Forall_forall. intros k K.
  destruct (tsheet_column o k H (HN k K)) as (_ & L & F). rewrite Forall_forall in F. apply F. unfold val. apply nth_In. lia.
Qed.
Lemma tecplot_step_ok hs o : hs <> [] -> tecplot_sheet o -> (forall k, In k hs -> In k (names o)) ->
  tecplot_step hs o = Ok (zone_lines hs o).
Proof.
  intros NE H HN. unfold tecplot_step. pose proof H as (_ & (t & ET & FT) & _ & X & _).
  unfold zone_lines, time_of. rewrite ET. destruct (tsheet_column o _ H X) as (EX & LX & _). rewrite EX, LX.
  rewrite (mapM_ok _ (fun k => map (fun i => val o i k) (seq 0 (count o)))).
  - cbn [bind]. rewrite (transpose_map (fun k i => val o i k)) by auto. reflexivity.
  - intros k K. destruct (tsheet_column o k H (HN k K)) as (E & L & _). rewrite E. f_equal.
    unfold val. symmetry. now apply map_nth_seq.
Qed.
Definition step_read (hs : list str) (o : output) : option flt * list (list flt) :=
  (Some (rnd_e 7 (time_of o)), map (map (rnd_e 12)) (rows_of hs (count o) o)).
Lemma loop_read hs os : Forall tecplot_sheet os -> (forall o k, In o os -> In k hs -> In k (names o)) ->
  forall o fuel zone, tecplot_sheet o -> (forall k, In k hs -> In k (names o)) ->
  List.length (concat (map (zone_lines hs) os)) < fuel ->
  tecplot_loop fuel zone (zone_text (time_of o) (count o)) (map tecplot_row (rows_of hs (count o) o) ++ concat (map (zone_lines hs) os)) =
  Ok (map (step_read hs) (o :: os)).
Proof.
  induction os as [|o' os IH]; intros F HN o fuel zone H HO L.
  all: destruct fuel as [|fuel]; [lia|]; cbn [tecplot_loop].
  all: change (startswith $"ZONE" (zone_text (time_of o) (count o))) with true; cbn match.
  all: assert (FT : is_f64 (time_of o) = true) by
    (destruct H as (_ & (t & ET & FT) & _); unfold time_of; now rewrite ET).
  all: rewrite zone_read by auto; cbn [bind]; rewrite Nat2Z.id.
  all: replace (tecplot_rows (count o)) with (tecplot_rows (List.length (rows_of hs (count o) o)))
    by (unfold rows_of; now rewrite map_length, seq_length).
  all: rewrite rows_read by now apply tsheet_rows.
  all: cbn [bind]; rewrite (rectangular_all (List.length hs)) by
    (unfold rows_of; rewrite map_map; apply Forall_map, Forall_forall; intros i _; now rewrite !map_length).
  all: cbn [guard bind].
  - cbn [map concat readline]. reflexivity.
  - cbn [map concat]. unfold zone_lines at 1. cbn [app readline]. rewrite zone_upper.
    apply Forall_cons_iff in F as [F1 F2].
    remember (zone_text (time_of o') (count o')) as z eqn:EZ. destruct z as [|c z]; [discriminate EZ|]. rewrite EZ.
    rewrite (IH F2 ltac:(intros; apply (HN o0); auto; now right) o' fuel _ F1 ltac:(intros; apply HN; auto; now left)).
    + reflexivity.
    + cbn [map concat] in L. unfold zone_lines at 1 in L. cbn [app List.length] in L. rewrite app_length in L. lia.
Qed.

Theorem tecplot_roundtrip outs : tecplot_sheets outs ->
  exists recs outs', tecplot_write outs = Ok recs /\ tecplot_read Element $"tecplot" None (lines (concat recs)) = Ok outs' /\
    Forall2 (comes_back $"tecplot" 7 12 false) outs outs'.
Proof.
  intros (NE & FS & IN). destruct (exists_last NE) as (front & lst & EO).
  set (hs := columns (o_data lst)). rewrite Forall_forall in FS.
  assert (LI : In lst outs) by (rewrite EO; apply in_app_iff; right; now left).
  assert (HN : forall o k, In o outs -> In k hs <-> In k (names o)).
  { intros o k I. unfold hs. rewrite columns_in. split; intros K; [now apply (IN lst o)|now apply (IN o lst)]. }
  pose proof (FS _ LI) as (_ & _ & ND & X & Y & FN & _).
  assert (NDH : NoDup hs) by now apply columns_nodup.
  assert (XH : In $"X" hs) by now apply (HN lst).
  assert (YH : In $"Y" hs) by now apply (HN lst).
  assert (FH : Forall tecplot_name hs).
  { apply Forall_forall. intros k K. rewrite Forall_forall in FN. apply FN. now apply (HN lst). }
  assert (NEH : hs <> []) by (intros E; rewrite E in XH; destruct XH).
  assert (EW : tecplot_write outs = Ok (tecplot_header hs :: concat (map (zone_lines hs) outs))).
  { unfold tecplot_write. rewrite EO, last_output_snoc, <- EO. rewrite (proj2 (has_spec _ _) X), (proj2 (has_spec _ _) Y). cbn [andb].
    fold hs. rewrite (mapM_ok _ (zone_lines hs)); [reflexivity|]. intros o I. apply tecplot_step_ok; auto. intros k. now apply HN. }
  rewrite EW. eexists _, _. split; [reflexivity|].
  assert (GL : Forall good_line (tecplot_header hs :: concat (map (zone_lines hs) outs))).
  { constructor.
    - unfold tecplot_header. eexists. rewrite app_assoc. split; [reflexivity|]. apply lacks_line, lacks_app. split.
      + intros c I ->. cbn in I. intuition discriminate.
      + intros c I. apply in_concat in I as (w & J & I). apply in_map_iff in J as (k & <- & J).
        apply (lacks_rjust nl 18 k); auto; [discriminate|]. intros d D ->. rewrite Forall_forall in FH.
        destruct (FH k J) as (_ & _ & K). destruct (K _ D) as [K1 _]. discriminate.
    - apply Forall_concat. intros o I. unfold zone_lines. constructor.
      + unfold tecplot_zone. eexists. rewrite !app_assoc. split; [reflexivity|]. apply lacks_line.
        apply lacks_app. split; [apply lacks_app; split; [apply lacks_app; split|]|];
          try (intros c J ->; cbn in J; intuition discriminate).
        * apply lacks_rjust; [discriminate|]. apply lacks_num; [reflexivity|apply fmt_e_num].
        * apply lacks_rjust; [discriminate|]. apply digits_lacks; [reflexivity|apply print_nat_digits].
      + apply Forall_map, Forall_forall. intros r _. unfold tecplot_row. eexists. rewrite app_assoc. split; [reflexivity|].
        apply lacks_line, lacks_app. split; [apply lacks_spaces; discriminate|]. intros c J. apply in_concat in J as (w & J & K).
        apply in_map_iff in J as (x & <- & _). revert c K. apply lacks_number; [discriminate|reflexivity]. }
  rewrite (lines_all _ GL). unfold tecplot_read. cbn [find_variables].
  destruct (header_line hs FH XH YH) as [E1 E2]. rewrite E1. cbn [bind]. rewrite E2. cbn [bind].
  destruct outs as [|o1 os]; [congruence|]. cbn [map concat]. unfold zone_lines at 1. cbn [app readline].
  rewrite zone_upper.
  rewrite (loop_read hs os); [|apply Forall_forall; intros; apply FS; now right|intros; apply HN; auto; now right
    |apply FS; now left|intros; apply HN; auto; now left|rewrite (app_length (map _ _)); lia].
  cbn [bind]. set (all := o1 :: os) in *. clearbody all. clear o1 os.
  set (back := fun o => Output Element $"tecplot" (Some (rnd_e 7 (time_of o))) None
        (combine hs (map (fun k => map (fun i => rnd_e 12 (val o i k)) (seq 0 (count o))) hs))).
  assert (EM : to_output Element $"tecplot" None hs
     (map (fun s : option flt * list (list flt) => (fst s, None, snd s)) (map (step_read hs) all)) = Ok (map back all)).
  { unfold to_output. rewrite map_map. rewrite (mapM_ok _ (fun s => Output Element $"tecplot" (fst (fst s)) None
        (combine hs (match transpose (snd s) with Ok c => c | Err _ => [] end)))).
    - cbn [bind]. rewrite map_map. f_equal. apply map_ext_in. intros o I. unfold step_read, back, rows_of. cbn [fst snd].
      rewrite map_map. do 2 f_equal. rewrite (map_ext _ (fun i => map (fun k => rnd_e 12 (val o i k)) hs)) by (intros; now rewrite map_map).
      rewrite (transpose_map (fun i k => rnd_e 12 (val o i k))); [reflexivity|].
      pose proof (tsheet_count o (FS o I)). destruct (count o); [congruence|discriminate].
    - intros s I. apply in_map_iff in I as (o & <- & I). unfold step_read, rows_of. cbn [fst snd step_output].
      rewrite map_map. rewrite (map_ext _ (fun i => map (fun k => rnd_e 12 (val o i k)) hs)) by (intros; now rewrite map_map).
      rewrite (transpose_map (fun i k => rnd_e 12 (val o i k))).
      + cbn [bind]. rewrite to_table_nodup by (auto; now rewrite map_length). reflexivity.
      + pose proof (tsheet_count o (FS o I)). destruct (count o); [congruence|discriminate]. }
  rewrite EM. split; [reflexivity|].
  assert (FB : forall o, In o all -> comes_back $"tecplot" 7 12 false o (back o)).
  { intros o I. pose proof (FS o I) as SH. pose proof SH as (T0 & (t & ET & _) & NDo & _).
    assert (NB : names (back o) = hs).
    { unfold names, back. cbn [o_data].
      assert (Q : forall (A B : Type) (a : list A) (b : list B), List.length a = List.length b -> map fst (combine a b) = a).
      { intros A B. induction a as [|x a IHa]; intros [|y b] E; try discriminate; auto. cbn. f_equal. apply IHa. now injection E. }
      apply Q. now rewrite map_length. }
    constructor; auto.
    - cbn [back o_time]. unfold time_of. now rewrite ET.
    - rewrite NB. apply NoDup_Permutation; [exact NDH|exact NDo|]. intros k. now apply HN.
    - intros k c K. assert (KN : In k (names o)) by now apply (in_map fst) in K.
      assert (KH : In k hs) by now apply (proj2 (HN o k I)).
      assert (EC : map (fun i => rnd_e 12 (val o i k)) (seq 0 (count o)) = map (rnd_e 12) c).
      { destruct (tsheet_column o k SH KN) as (C1 & C2 & _). rewrite (tget_in k c) in C1 by auto.
        injection C1 as ->. rewrite <- (map_nth_seq (column o k) NaN _ C2) at 1. now rewrite map_map. }
      rewrite <- EC. cbn [back o_data]. clear - KH. induction hs as [|h l IH]; [destruct KH|]. cbn [map combine].
      destruct KH as [-> | KH]; [now left|right; auto]. }
  clear - FB. induction all as [|o all IH]; constructor; [apply FB; now left|]. apply IH. intros x Hx. apply FB. now right.
Qed.

Theorem tecplot_api outs : tecplot_sheets outs ->
  exists recs outs', tecplot_write outs = Ok recs /\
    (forall b len, read_output None b len (lines (concat recs)) = Ok outs') /\
    Forall2 (comes_back $"tecplot" 7 12 false) outs outs'.
Proof.
  intros H. destruct (tecplot_roundtrip outs H) as (recs & outs' & W & R & B). exists recs, outs'. split; auto. split; auto.
  intros b len. unfold read_output. rewrite (tecplot_recognized outs recs W). exact R.
Qed.
