(** Records written by the model and read back. *)
From Coq Require Import String Ascii ZArith Bool Lia List.
From Verif Require Import Base.Str Base.Digits Base.Flt Base.FltRound Base.FltText Base.FltInt
  Model.Py Model.Records Spec.Fields.
Import ListNotations.
Local Open Scope Z_scope.

Definition col_tok (c : col) : token :=
  match c with
  | CText w | CLoose w => Tok w None "s"
  | CRaw w => Tok w None "S"
  | CInt w => Tok w None "d"
  | CSci w k => Tok w (Some k) "e"
  | CFix w => Tok w (Some 1%nat) "f"
  end.

Lemma tok_w_col c : tok_w (col_tok c) = col_width c.
Proof. destruct c; reflexivity. Qed.

Lemma str2format_nil fmt : str2format fmt [] = map spec_of fmt.
Proof.
  unfold str2format. generalize 0%nat as n. induction fmt as [|t r IH]; intros n; auto.
  cbn [List.length seq combine map fst snd existsb]. now rewrite IH.
Qed.

(** [good s]: non-empty text without newline at the ends or inside. *)
Definition txt (s : str) (w : nat) (t : str) : Prop :=
  List.length t = w /\ one_line t = true /\ strip t = s.

Lemma one_line_app a b : one_line (a ++ b) = one_line a && one_line b.
Proof. apply forallb_app. Qed.

Lemma one_line_spaces n : one_line (spaces n) = true.
Proof. induction n; auto. Qed.

Lemma no_space_one_line s : no_space_str s = true -> one_line s = true.
Proof.
  intros H. unfold one_line. rewrite forallb_forall. intros c Hc.
  unfold no_space_str in H. rewrite forallb_forall in H. apply H in Hc.
  destruct (Ascii.eqb c nl) eqn:E; auto. apply Ascii.eqb_eq in E. subst. discriminate.
Qed.

Lemma rjust_len w s : (List.length s <= w)%nat -> List.length (rjust w s) = w.
Proof. rewrite rjust_length. lia. Qed.
Lemma ljust_len w s : (List.length s <= w)%nat -> List.length (ljust w s) = w.
Proof. rewrite ljust_length. lia. Qed.

Lemma txt_rjust s w : trimmed s = true -> one_line s = true -> (List.length s <= w)%nat ->
  txt s w (rjust w s).
Proof.
  intros. split; [now apply rjust_len|]. split.
  - unfold rjust. rewrite one_line_app, one_line_spaces. auto.
  - now apply strip_rjust.
Qed.

Lemma txt_ljust s w : trimmed s = true -> one_line s = true -> (List.length s <= w)%nat ->
  txt s w (ljust w s).
Proof.
  intros. split; [now apply ljust_len|]. split.
  - unfold ljust. rewrite one_line_app, one_line_spaces. now rewrite H0.
  - now apply strip_ljust.
Qed.

Lemma firstn_all_le {A} n (l : list A) : (List.length l <= n)%nat -> firstn n l = l.
Proof. intros. now apply firstn_all2. Qed.

Lemma fmt_e_no_space k x : no_space_str (fmt_e k x) = true.
Proof. apply clean_no_space, fmt_e_clean. Qed.

Lemma parse_f1_val z : Z.abs z < 2 ^ 53 -> parse_float (fmt_f 1 (flt_of_Z z)) = Some (flt_of_Z z).
Proof.
  intros Hz. rewrite fmt_f1_int by auto.
  assert (G : forall s n, 0 <= n -> parse_float (sign_str s ++ (digits n ++ $".0")) = Some (flt_of_dec s (n * 10) (-1))).
  { intros s n Hn. destruct (zpad_S_cons (Z.to_nat (ilog 10 n)) n) as (c & r & Ez & Hc & Hr & _).
    assert (Ed : digits n = c :: r) by exact Ez.
    apply (parse_float_signed s _ _ _ c (r ++ $".0")).
    - rewrite forallb_app, digits_clean by apply digits_all. reflexivity.
    - rewrite Ed. reflexivity.
    - auto.
    - unfold parse_udec. rewrite span_digits_app; [|apply digits_all|reflexivity].
      change ($".0") with (["."%char] ++ ["0"%char]). cbn [app]. rewrite Ascii.eqb_refl.
      cbn [span_digits]. change (is_digit "0") with true. cbv iota.
      assert (Hne : nonempty (digits n ++ ["0"%char]) = true) by (rewrite Ed; reflexivity).
      rewrite Hne. cbn [parse_exp]. rewrite of_digits_app, of_digits_digits by auto.
      cbn [List.length]. f_equal. f_equal. change (10 ^ Z.of_nat 1) with 10.
      change (of_digits ["0"%char]) with 0. lia. }
  assert (R : flt_of_dec (z <? 0) (Z.abs z * 10) (-1) = flt_of_Z z).
  { unfold flt_of_dec, frac, flt_of_Z. change (0 <=? -1) with false. cbv iota.
    apply round64_ratio; simpl; lia. }
  rewrite <- R. unfold print_Z. destruct (Z.ltb_spec z 0).
  - change ("-"%char :: digits (- z)) with (sign_str true ++ digits (-z)). rewrite <- app_assoc.
    rewrite G by lia. do 2 f_equal. lia.
  - change (digits z ++ $".0") with (sign_str false ++ (digits z ++ $".0")).
    rewrite G by lia. do 2 f_equal. lia.
Qed.

Lemma is_f64_flt_of_Z_small z : Z.abs z < 2 ^ 53 -> exists s m e, flt_of_Z z = Fin s m e.
Proof.
  intros. destruct (Z.eq_dec z 0) as [->|].
  - rewrite flt_of_Z_0. unfold fzero. eauto.
  - destruct (flt_of_Z_spec z) as (m & e & E & _); auto. rewrite E. eauto.
Qed.

Lemma nonempty_match {A} (s : str) (a : A) (f : A) : s <> [] -> match s with [] => a | _ => f end = f.
Proof. destruct s; congruence. Qed.

Lemma lstrip_app_space a b : forallb is_space a = true -> lstrip (a ++ b) = lstrip b.
Proof. induction a as [|c a IH]; auto. cbn [forallb app lstrip]. intros H. apply andb_true_iff in H as [-> H]. auto. Qed.
Lemma forallb_rev {A} (f : A -> bool) l : forallb f (rev l) = forallb f l.
Proof. induction l as [|x l IH]; auto. cbn [rev forallb]. rewrite forallb_app, IH. cbn [forallb]. now rewrite andb_true_r, andb_comm. Qed.
Lemma rstrip_app_space a b : forallb is_space b = true -> rstrip (a ++ b) = rstrip a.
Proof. intros H. unfold rstrip. rewrite rev_app_distr, lstrip_app_space; auto. now rewrite forallb_rev. Qed.
Lemma strip_app_space a b : forallb is_space b = true -> strip (a ++ b) = strip a.
Proof.
  intros H. unfold strip. induction a as [|c a IH].
  - cbn [app lstrip]. now rewrite <- (app_nil_r b), lstrip_app_space.
  - cbn [app lstrip]. destruct (is_space c); auto. change (c :: a ++ b) with ((c :: a) ++ b). now apply rstrip_app_space.
Qed.

Lemma spec_text w : spec_of (col_tok (CText w)) = Spec false w (Some w) None.
Proof. reflexivity. Qed.
Lemma spec_raw w : spec_of (col_tok (CRaw w)) = Spec false w (Some w) None.
Proof. reflexivity. Qed.
Lemma spec_int w : spec_of (col_tok (CInt w)) = Spec true w None (Some "g"%char).
Proof. reflexivity. Qed.
Lemma spec_sci w k : spec_of (col_tok (CSci w k)) = Spec true w (Some k) (Some "e"%char).
Proof. reflexivity. Qed.
Lemma spec_fix w : spec_of (col_tok (CFix w)) = Spec true w (Some 1%nat) (Some "f"%char).
Proof. reflexivity. Qed.

(** One column. *)
Lemma col_rt c v : col_ok c v = true ->
  exists t, to_str v (spec_of (col_tok c)) = Ok t /\ List.length t = col_width c /\
    one_line t = true /\ read_field (col_tok c) t = Ok (col_val c v).
Proof.
  intros H. destruct c as [w|w|w|w|w k|w]; cbn [col_width].
  - (* text *)
    assert (E : exists s, v = PStr s /\ trimmed s = true /\ (List.length s <= w)%nat /\ one_line s = true
                \/ v = PNone /\ s = []).
    { cbn [col_ok] in H. destruct v; try discriminate.
      - exists []. now right.
      - exists s. left. split; auto. destruct s as [|c s]; [repeat split; simpl; lia|].
        cbn [absent orb] in H. rewrite !andb_true_iff, Nat.leb_le in H. tauto. }
    destruct E as [s E].
    assert (T : to_str v (spec_of (col_tok (CText w))) = Ok (ljust w s) /\ trimmed s = true
                /\ (List.length s <= w)%nat /\ one_line s = true).
    { destruct E as [(-> & E1 & E2 & E3)|(-> & ->)].
      - repeat split; auto. rewrite spec_text.
        cbv [to_str no_ge py_format sp_t sp_right sp_w sp_p trunc]. now rewrite firstn_all_le.
      - repeat split; auto. 2: simpl; lia. rewrite spec_text.
        cbv [to_str no_ge py_format sp_t sp_right sp_w sp_p trunc]. now rewrite firstn_nil. }
    destruct T as (T1 & T2 & T3 & T4).
    destruct (txt_ljust s w T2 T4 T3) as (L1 & L2 & L3).
    exists (ljust w s). repeat split; auto.
    unfold read_field. cbn [tok_t col_tok]. change (Ascii.eqb "s" "S") with false. cbv iota.
    rewrite L3. cbn [col_val]. destruct E as [(-> & _)|(-> & ->)]; auto.
    destruct s; auto.
  - (* loose text *)
    cbn [col_ok] in H. destruct (absent v) eqn:A.
    + exists (spaces w). rewrite spaces_length, one_line_spaces. repeat split; auto.
      * destruct v; try discriminate; [|destruct s; try discriminate];
          change (Ok (ljust w (firstn w [])) = Ok (spaces w)); rewrite firstn_nil; unfold ljust;
          cbn [List.length app]; now rewrite Nat.sub_0_r.
      * unfold read_field. cbn [tok_t col_tok]. change (Ascii.eqb "s" "S") with false. cbv iota.
        rewrite strip_spaces. destruct v; try discriminate; [|destruct s; try discriminate]; reflexivity.
    + cbn [orb] in H. destruct v; try discriminate. rewrite andb_true_iff, Nat.leb_le in H. destruct H as [H1 H2].
      exists (ljust w s). repeat split.
      * change (Ok (ljust w (firstn w s)) = Ok (ljust w s)). now rewrite firstn_all_le.
      * now apply ljust_len.
      * unfold ljust. now rewrite one_line_app, H2, one_line_spaces.
      * unfold read_field. cbn [tok_t col_tok]. change (Ascii.eqb "s" "S") with false. cbv iota.
        unfold ljust. rewrite strip_app_space by apply spaces_all_space. cbn [col_val].
        destruct (strip s); reflexivity.
  - (* raw *)
    cbn [col_ok] in H. destruct v; try discriminate.
    rewrite !andb_true_iff, Nat.leb_le, Nat.ltb_lt in H. destruct H as [[H1 H2] H3].
    exists (ljust w s). repeat split.
    + rewrite spec_raw. cbv [to_str no_ge py_format sp_t sp_right sp_w sp_p trunc]. now rewrite firstn_all_le.
    + now apply ljust_len.
    + unfold ljust. now rewrite one_line_app, H2, one_line_spaces.
    + unfold read_field. cbn [tok_t col_tok]. change (Ascii.eqb "S" "S") with true. cbv iota.
      pose proof (ljust_len w s H1). destruct (ljust w s) eqn:E; [simpl in H; lia|].
      rewrite <- E. reflexivity.
  - (* int *)
    assert (E : absent v = true \/ exists z, int_of v = Some z /\ Z.abs z < 1000000 /\
                 (List.length (print_Z z) <= w)%nat).
    { cbn [col_ok] in H. apply orb_true_iff in H as [H|H]; auto. right.
      destruct (int_of v) as [z|]; [|discriminate]. exists z.
      rewrite andb_true_iff, Z.ltb_lt, Nat.leb_le in H. tauto. }
    destruct E as [E|(z & E & Ez & Ew)].
    + exists (spaces w). rewrite spaces_length, one_line_spaces. repeat split; auto.
      * rewrite spec_int. destruct v; try discriminate; [|destruct s; try discriminate];
          unfold to_str, no_ge, py_format; cbn [sp_t sp_right sp_w sp_p trunc];
          change (Ascii.eqb "g" "g" || Ascii.eqb "g" "e") with true; cbv iota; cbn [sp_t sp_right sp_w sp_p trunc];
          unfold rjust; cbn [List.length]; rewrite Nat.sub_0_r, app_nil_r; reflexivity.
      * unfold read_field. cbn [tok_t col_tok]. change (Ascii.eqb "d" "S") with false. cbv iota.
        rewrite strip_spaces. destruct v; try discriminate; [|destruct s; try discriminate]; reflexivity.
    + destruct (txt_rjust (print_Z z) w (print_Z_trimmed z)) as (L1 & L2 & L3); auto.
      { apply no_space_one_line, print_Z_no_space. }
      exists (rjust w (print_Z z)). repeat split; auto.
      * destruct (is_f64_flt_of_Z_small z ltac:(lia)) as (s & m & e & F).
        assert (G : fmt_int (spec_of (col_tok (CInt w))) z = Ok (rjust w (print_Z z))).
        { rewrite spec_int. unfold fmt_int. cbn [sp_t]. rewrite F. unfold fmt_num. cbn [sp_t sp_p sp_w].
          change (Ascii.eqb "g" "e") with false. change (Ascii.eqb "g" "f") with false.
          change (Ascii.eqb "g" "g") with true. cbv iota.
          rewrite <- F, fmt_g_int by (simpl; lia). reflexivity. }
        destruct v; try discriminate; injection E as <-; exact G.
      * unfold read_field. cbn [tok_t col_tok]. change (Ascii.eqb "d" "S") with false. cbv iota.
        rewrite L3. rewrite nonempty_match by apply print_Z_nonempty. unfold convert. cbn.
        rewrite parse_print_Z, E. reflexivity.
  - (* scientific *)
    assert (E : absent v = true \/ exists x, num_of v = Some x /\ sci_fits w k x = true /\
        to_str v (spec_of (col_tok (CSci w k))) = Ok (rjust w (fmt_e k x))).
    { cbn [col_ok] in H. apply orb_true_iff in H as [H|H]; auto. right.
      assert (G : forall z, is_finite (flt_of_Z z) && sci_fits w k (flt_of_Z z) = true ->
          sci_fits w k (flt_of_Z z) = true /\
          fmt_int (spec_of (col_tok (CSci w k))) z = Ok (rjust w (fmt_e k (flt_of_Z z)))).
      { intros z Hz. apply andb_true_iff in Hz as [Hz Hf]. split; auto.
        unfold fmt_int. cbn. destruct (flt_of_Z z); try discriminate. reflexivity. }
      destruct v; try discriminate; cbn [int_of] in H; try (apply G in H as [? ?]); eexists;
        (split; [reflexivity|split; eauto]). }
    destruct E as [E|(x & Ex & Ef & Et)].
    + exists (spaces w). rewrite spaces_length, one_line_spaces. repeat split; auto.
      * rewrite spec_sci. destruct v; try discriminate; [|destruct s; try discriminate];
          unfold to_str, no_ge, py_format; cbn [sp_t sp_right sp_w sp_p trunc];
          change (Ascii.eqb "e" "g" || Ascii.eqb "e" "e") with true; cbv iota; cbn [sp_t sp_right sp_w sp_p trunc];
          rewrite firstn_nil; unfold rjust; cbn [List.length]; rewrite Nat.sub_0_r, app_nil_r; reflexivity.
      * unfold read_field. cbn [tok_t col_tok]. change (Ascii.eqb "e" "S") with false. cbv iota.
        rewrite strip_spaces. destruct v; try discriminate; [|destruct s; try discriminate]; reflexivity.
    + unfold sci_fits in Ef. rewrite andb_true_iff, Nat.leb_le in Ef. destruct Ef as [Ef El].
      destruct (txt_rjust (fmt_e k x) w (fmt_e_trimmed k x)) as (L1 & L2 & L3); auto.
      { apply no_space_one_line, fmt_e_no_space. }
      exists (rjust w (fmt_e k x)). repeat split; auto.
      unfold read_field. cbn [tok_t col_tok]. change (Ascii.eqb "e" "S") with false. cbv iota.
      rewrite L3. rewrite nonempty_match by apply fmt_e_nonempty. unfold convert. cbn.
      unfold str2float. rewrite parse_fmt_e by now apply is_f64_nonneg. cbn [bind].
      cbn [col_val]. now rewrite Ex.
  - (* fixed *)
    cbn [col_ok] in H. destruct (int_of v) as [z|] eqn:E; [|discriminate].
    rewrite andb_true_iff, Z.ltb_lt, Nat.leb_le in H. destruct H as [H1 H2].
    destruct (is_f64_flt_of_Z_small z ltac:(lia)) as (s & m & e & F).
    assert (Tr : no_space_str (fmt_f 1 (flt_of_Z z)) = true).
    { rewrite fmt_f1_int by lia. rewrite no_space_app. unfold no_space_str.
      rewrite print_Z_no_space. reflexivity. }
    assert (Ln : (List.length (fmt_f 1 (flt_of_Z z)) <= w)%nat).
    { pose proof (fmt_f1_int_length z ltac:(simpl; lia)). lia. }
    destruct (txt_rjust (fmt_f 1 (flt_of_Z z)) w) as (L1 & L2 & L3); auto.
    { now apply no_space_trimmed. }
    { now apply no_space_one_line. }
    exists (rjust w (fmt_f 1 (flt_of_Z z))). repeat split; auto.
    + assert (G : fmt_int (spec_of (col_tok (CFix w))) z = Ok (rjust w (fmt_f 1 (flt_of_Z z)))).
      { unfold fmt_int. cbn [spec_of col_tok tok_t tok_w tok_p]. cbn [sp_t sp_p sp_w].
        rewrite F. unfold fmt_num. reflexivity. }
      destruct v; try discriminate; injection E as <-; exact G.
    + unfold read_field. cbn [tok_t col_tok]. change (Ascii.eqb "f" "S") with false. cbv iota.
      rewrite L3. rewrite nonempty_match.
      2:{ rewrite fmt_f1_int by lia. intros X. apply app_eq_nil in X as [X _]. now apply print_Z_nonempty in X. }
      unfold convert.
      change (Ascii.eqb "f" "s" || Ascii.eqb "f" "S") with false.
      change (Ascii.eqb "f" "d") with false.
      change (Ascii.eqb "f" "f" || Ascii.eqb "f" "e") with true. cbv iota.
      unfold str2float. rewrite parse_f1_val by lia. cbn [bind col_val].
      replace (num_of v) with (Some (flt_of_Z z)); auto.
      destruct v; try discriminate; cbn; injection E as ->; reflexivity.
Qed.

(** ** Records *)

(** The text of a column and of a record, as functions. *)
Definition col_text (c : col) (v : pyval) : str :=
  match to_str v (spec_of (col_tok c)) with Ok t => t | Err _ => [] end.

Fixpoint cols_text (cs : list col) (vs : list pyval) : str :=
  match cs, vs with
  | c :: cs, v :: vs => col_text c v ++ cols_text cs vs
  | _, _ => []
  end.

Definition rec_line (cs : list col) (vs : list pyval) : str := record80 (cols_text cs vs).

Definition toks (cs : list col) : list token := map col_tok cs.
Definition specs (cs : list col) : list spec := str2format (toks cs) [].

(** A line as [readline] delivers it: no newline but the last character. *)
Definition good_line (l : str) : Prop := exists b, l = b ++ [nl] /\ one_line b = true.

Lemma col_text_ok c v : col_ok c v = true ->
  to_str v (spec_of (col_tok c)) = Ok (col_text c v) /\ List.length (col_text c v) = col_width c /\
  one_line (col_text c v) = true /\ read_field (col_tok c) (col_text c v) = Ok (col_val c v).
Proof.
  intros H. destruct (col_rt c v H) as (t & E & L & N & R). unfold col_text. rewrite E. auto.
Qed.

Lemma rec_ok_cons c cs v vs : rec_ok (c :: cs) (v :: vs) = col_ok c v && rec_ok cs vs.
Proof. destruct c; reflexivity. Qed.

Lemma rec_ok_cons_nil c cs : rec_ok (c :: cs) [] = true -> rec_ok cs [] = true.
Proof. destruct c; auto; discriminate. Qed.

Lemma rec_val_cons c cs v vs : rec_val (c :: cs) (v :: vs) = col_val c v :: rec_val cs vs.
Proof. destruct c; reflexivity. Qed.

Lemma cols_text_one_line cs vs : rec_ok cs vs = true -> one_line (cols_text cs vs) = true.
Proof.
  revert vs. induction cs as [|c cs IH]; intros [|v vs] H; auto.
  rewrite rec_ok_cons in H. apply andb_true_iff in H as [H1 H2].
  cbn [cols_text]. rewrite one_line_app, IH by auto.
  destruct (col_text_ok c v H1) as (_ & _ & -> & _). reflexivity.
Qed.

Lemma cols_text_length cs vs : rec_ok cs vs = true ->
  (List.length (cols_text cs vs) <= rec_width cs)%nat.
Proof.
  revert vs. induction cs as [|c cs IH]; intros [|v vs] H; cbn [cols_text]; try (simpl; lia).
  rewrite rec_ok_cons in H. apply andb_true_iff in H as [H1 H2].
  rewrite app_length. destruct (col_text_ok c v H1) as (_ & -> & _).
  specialize (IH vs H2). unfold rec_width in *. simpl. lia.
Qed.

Lemma write_record_cols cs vs : rec_ok cs vs = true ->
  write_record vs (specs cs) = Ok [rec_line cs vs].
Proof.
  intros H. unfold write_record, specs, toks. rewrite str2format_nil, map_map.
  assert (G : mapM (fun p => to_str (fst p) (snd p)) (combine vs (map (fun x => spec_of (col_tok x)) cs))
              = Ok (map (fun p => col_text (snd p) (fst p)) (combine vs cs))
            /\ concat (map (fun p => col_text (snd p) (fst p)) (combine vs cs)) = cols_text cs vs).
  { revert vs H. induction cs as [|c cs IH]; intros [|v vs] H; auto.
    rewrite rec_ok_cons in H. apply andb_true_iff in H as [H1 H2].
    destruct (IH vs H2) as [I1 I2].
    destruct (col_text_ok c v H1) as (E & _). cbn [map combine mapM fst snd].
    rewrite E. cbn [bind]. rewrite I1. cbn [bind concat cols_text]. rewrite I2. auto. }
  destruct G as [-> G]. cbn [bind]. rewrite G. reflexivity.
Qed.

Lemma rec_line_good cs vs : rec_ok cs vs = true -> good_line (rec_line cs vs).
Proof.
  intros H. exists (ljust 80 (cols_text cs vs)). split; auto.
  unfold ljust. now rewrite one_line_app, cols_text_one_line, one_line_spaces.
Qed.

Lemma firstn_len_app {A} n (a b : list A) : List.length a = n -> firstn n (a ++ b) = a.
Proof. intros. now apply firstn_app_exact. Qed.
Lemma skipn_len_app {A} n (a b : list A) : List.length a = n -> skipn n (a ++ b) = b.
Proof. intros. now apply skipn_app_exact. Qed.

Lemma is_space_sp : is_space sp = true. Proof. reflexivity. Qed.
Lemma is_space_nl : is_space nl = true. Proof. reflexivity. Qed.

Lemma strip_all_space s : forallb is_space s = true -> strip s = [].
Proof. intros. unfold strip. rewrite lstrip_all_space by auto. reflexivity. Qed.

Lemma read_blank_cols cs s : rec_ok cs [] = true -> forallb is_space s = true ->
  read_record s (toks cs) = Ok (rec_val cs []).
Proof.
  revert s. induction cs as [|c cs IH]; intros s H Hs; auto.
  unfold toks. cbn [map read_record]. fold (toks cs).
  pose proof (rec_ok_cons_nil _ _ H).
  assert (R : read_field (col_tok c) (firstn (tok_w (col_tok c)) s) = Ok PNone).
  { unfold read_field. destruct c; try discriminate;
      cbn [tok_t col_tok]; match goal with |- context [Ascii.eqb ?a "S"] => change (Ascii.eqb a "S") with false end;
      cbv iota; now rewrite strip_all_space by now apply forallb_firstn. }
  rewrite R. cbn [bind]. rewrite IH by (auto; now apply forallb_skipn). cbn [bind].
  destruct c; reflexivity.
Qed.

Lemma read_cols cs vs rest : rec_ok cs vs = true -> forallb is_space rest = true ->
  read_record (cols_text cs vs ++ rest) (toks cs) = Ok (rec_val cs vs).
Proof.
  revert vs. induction cs as [|c cs IH]; intros [|v vs] H Hs; auto.
  - now apply read_blank_cols.
  - rewrite rec_ok_cons in H. apply andb_true_iff in H as [H1 H2].
    destruct (col_text_ok c v H1) as (_ & L & _ & R).
    unfold toks. cbn [map read_record cols_text]. fold (toks cs).
    rewrite <- app_assoc, tok_w_col, firstn_len_app, skipn_len_app by auto.
    rewrite R. cbn [bind]. rewrite IH by auto. cbn [bind]. now rewrite rec_val_cons.
Qed.

Lemma read_record_cols cs vs : rec_ok cs vs = true ->
  read_record (rec_line cs vs) (toks cs) = Ok (rec_val cs vs).
Proof.
  intros H. unfold rec_line, record80, ljust. rewrite <- app_assoc.
  apply read_cols; auto. rewrite forallb_app. unfold spaces.
  replace (forallb is_space (repeat sp _)) with true; auto.
  symmetry. apply spaces_all_space.
Qed.

(** Lines that are not blank. *)
Lemma lstrip_nonempty s : existsb (fun c => negb (is_space c)) s = true -> lstrip s <> [].
Proof.
  induction s as [|c s IH]; simpl; [discriminate|].
  destruct (is_space c); simpl; auto. intros _ E. discriminate.
Qed.

Lemma lstrip_suffix s : exists p, s = p ++ lstrip s /\ forallb is_space p = true.
Proof.
  induction s as [|c s [p [E F]]]; [exists []; auto|]. cbn [lstrip].
  destruct (is_space c) eqn:Ec.
  - exists (c :: p). cbn [app forallb]. rewrite Ec, <- E. auto.
  - exists []. auto.
Qed.

Lemma existsb_lstrip s : existsb (fun c => negb (is_space c)) (lstrip s) = existsb (fun c => negb (is_space c)) s.
Proof.
  destruct (lstrip_suffix s) as (p & E & F). rewrite E at 2. rewrite existsb_app.
  replace (existsb _ p) with false; auto. symmetry. apply not_true_iff_false. intros X.
  apply existsb_exists in X as (c & Hc & X). rewrite forallb_forall in F. rewrite (F c Hc) in X. discriminate.
Qed.

Lemma existsb_rev {A} (f : A -> bool) l : existsb f (rev l) = existsb f l.
Proof.
  destruct (existsb f l) eqn:E.
  - apply existsb_exists in E as (x & H & F). apply existsb_exists. exists x. split; auto. now apply -> in_rev.
  - apply not_true_iff_false. intros X. apply existsb_exists in X as (x & H & F).
    apply in_rev in H. assert (existsb f l = true) by (apply existsb_exists; eauto). congruence.
Qed.

Lemma strip_nonempty s : existsb (fun c => negb (is_space c)) s = true -> nonempty (strip s) = true.
Proof.
  intros H. unfold strip, rstrip.
  assert (X : lstrip (rev (lstrip s)) <> []).
  { apply lstrip_nonempty. rewrite existsb_rev. now rewrite existsb_lstrip. }
  destruct (lstrip (rev (lstrip s))) as [|c r]; [congruence|].
  simpl. destruct (rev r); reflexivity.
Qed.

Lemma strip_empty s : forallb is_space s = true -> nonempty (strip s) = false.
Proof. intros. now rewrite strip_all_space. Qed.
