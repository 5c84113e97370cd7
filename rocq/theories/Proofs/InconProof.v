(** The INCON block. *)
From Coq Require Import String Ascii ZArith Bool Lia List.
From Verif Require Import Base.Str Base.Digits Base.Flt Base.FltText.
From Verif Require Import Model.Py Model.Records Model.Write Model.Read.
From Verif Require Import Spec.Fields Spec.Values Spec.Types Spec.Layouts Spec.Rocks Spec.Flac Spec.Simple Spec.Labels Spec.Indom Spec.Incon.
From Verif Require Import Proofs.RecordLemmas Proofs.DictLemmas Proofs.Stability Proofs.Layouts Proofs.Types Proofs.BlockTools Proofs.RocksProof Proofs.SimpleProof Proofs.TwoLines Proofs.IndomProof Proofs.LabelProof Proofs.MeshProof Proofs.WordProof.
Import ListNotations.
Local Open Scope Z_scope.

Definition cols_incon (n : nat) : list col :=
  [CText n; CInt (fst (eleme_ints n)); CInt (snd (eleme_ints n)); CSci 15 9] ++ repeat (CSci 10 3) 5.
Lemma toks_incon n : cols_INCON n = cols_incon n.
Proof. unfold cols_INCON, cols_incon. destruct (eleme_ints n). reflexivity. Qed.

Definition userx_w (e : dict) : list pyval := items (val_or (pnones 5) #"userx" e).
Definition values_w (e : dict) : list pyval := items (val_or (pnones 4) #"values" e).
Lemma userx_w_back e : trim (map (sci 3) (firstn 5 (userx_w e))) = trim (map (sci 3) (userx_of e)).
Proof. unfold userx_w, userx_of, val_or, val. destruct (dget #"userx" e); reflexivity. Qed.
Lemma userx_w_ok e : forallb (fits 3) (userx_of e) = true -> forallb (fits 3) (firstn 5 (userx_w e)) = true.
Proof. unfold userx_w, userx_of, val_or, val. destruct (dget #"userx" e); auto. Qed.
Lemma values_w_back e : trim (map (sci 13) (values_w e)) = trim (map (sci 13) (values_of e)).
Proof. unfold values_w, values_of, val_or, val. destruct (dget #"values" e); reflexivity. Qed.
Lemma values_w_long e : long (values_w e) = long (values_of e).
Proof. unfold values_w, values_of, val_or, val. destruct (dget #"values" e); reflexivity. Qed.
Lemma values_w_ok e : values_ok (values_of e) = true -> values_ok (values_w e) = true.
Proof. unfold values_w, values_of, val_or, val. destruct (dget #"values" e); auto. Qed.
Lemma seq_w k n e : absent_or_seq k e -> exists q, val_or (pnones n) k e = PSeq q (items (val_or (pnones n) k e)).
Proof.
  unfold absent_or_seq, val_or. destruct (dget k e) as [[]|]; try contradiction; intros _; eexists; reflexivity.
Qed.

Definition incon_vals (x : pyval) (e : dict) : list pyval := [x; PNone; PNone; val #"porosity" e] ++ userx_w e.
Definition incon_head (n : nat) (x : pyval) (e : dict) : str := rec_line (cols_incon n) (incon_vals x e).
Lemma incon_rec_ok n s e : label_ok s = true -> (List.length s <= n)%nat -> incon_ok e -> rec_ok (cols_incon n) (incon_vals (PStr s) e) = true.
Proof.
  intros L W (U & T & P & S1 & F & S2 & V). unfold cols_incon, incon_vals.
  rewrite rec_ok_app by reflexivity. apply andb_true_iff. split.
  - rewrite !rec_ok_cons. rewrite (label_ok_col n s), P by auto. reflexivity.
  - rewrite rec_ok_repeat. now apply userx_w_ok.
Qed.

Lemma write_initial_ok n d s e : dget (KS s) d = Some (PDict e) -> label_ok s = true -> (List.length s <= n)%nat -> incon_ok e ->
  write_initial (toks (cols_incon n)) d (PStr s) = Ok (incon_head n (PStr s) e :: value_lines (values_w e)).
Proof.
  intros G L W H. pose proof (incon_rec_ok n s e L W H) as R. destruct H as (U & T & P & S1 & F & S2 & V).
  unfold write_initial, lookup, dgetE at 1. cbn [val_key bind]. rewrite G. cbn [bind as_dict].
  rewrite dgetE_none by (auto; reflexivity). cbn [bind].
  rewrite (dgetE_or (pnones 5)) by (auto; reflexivity). cbn [bind].
  destruct (seq_w #"userx" 5 e S1) as (q1 & ->). cbn [py_iter bind]. fold (userx_w e). change (val #"porosity" e) with (val #"porosity" e).
  change ([PStr s; PNone; PNone; val #"porosity" e] ++ userx_w e) with (incon_vals (PStr s) e).
  rewrite (write_record_ok _ (cols_incon n)) by auto. cbn [bind].
  rewrite (dgetE_or (pnones 4)) by (auto; reflexivity). cbn [bind].
  destruct (seq_w #"values" 4 e S2) as (q2 & ->). fold (values_w e). cbn [py_len bind slice_to slice_from py_iter].
  apply values_w_ok in V. pose proof (values_write _ V) as X.
  change fmt_INCON_0 with fmt_INDOM_0.
  destruct (write_record (firstn (Nat.min 4 (List.length (values_w e))) (values_w e)) (str2format fmt_INDOM_0 [])) as [r2|]; [|discriminate].
  cbn [bind] in *. destruct (when _ _) as [r3|]; [|discriminate]. cbn [bind] in *. injection X as X. rewrite X. reflexivity.
Qed.

(** ** The head line does not read as numbers *)
Lemma word_head s : word s = true -> exists c r, s = c :: r /\ is_letter c = true.
Proof. unfold word. destruct s as [|c s]; [discriminate|]. rewrite andb_true_iff. intros [H _]. eauto. Qed.
Lemma plus3_first c r : Ascii.eqb c "+" = false -> plus3 (c :: r) = false.
Proof. destruct c as [[] [] [] [] [] [] [] []]; intros H; try discriminate; reflexivity. Qed.
Lemma plus3_letter c r : is_letter c = true -> plus3 (c :: r) = false.
Proof. intros H. apply plus3_first. now apply letter_facts in H. Qed.
Lemma incon_head_text n s e : (List.length s <= n)%nat -> (5 <= n <= 9)%nat -> exists w, incon_head n (PStr s) e = s ++ spaces 1 ++ w.
Proof.
  intros L B. unfold incon_head, incon_vals, cols_incon. cbn [app].
  destruct (rec_line_label n (CInt (fst (eleme_ints n)) :: CInt (snd (eleme_ints n)) :: CSci 15 9 :: repeat (CSci 10 3) 5) s
              (PNone :: PNone :: val #"porosity" e :: userx_w e) L) as [tail ->].
  cbn [cols_text]. rewrite col_text_int by reflexivity. cbn [int_of]. unfold ljust.
  rewrite <- !app_assoc.
  assert (X : forall a b t, (0 < b)%nat -> exists w, spaces a ++ spaces b ++ t = spaces 1 ++ w).
  { intros a b t Hb. destruct a as [|a]; [destruct b as [|b]; [lia|]|]; (eexists; cbn [spaces repeat app]; reflexivity). }
  destruct (X (n - List.length s)%nat (fst (eleme_ints n))
     (col_text (CInt (snd (eleme_ints n))) PNone ++ (col_text (CSci 15 9) (val #"porosity" e) ++ cols_text (repeat (CSci 10 3) 5) (userx_w e)) ++ tail)
     (eleme_ints_pos n)) as [w E].
  rewrite <- !app_assoc in E. rewrite E. exists w. reflexivity.
Qed.
Lemma incon_head_ok n s e : label_ok s = true -> word s = true -> (List.length s <= n)%nat -> (5 <= n <= 9)%nat -> incon_ok e ->
  (blank (incon_head n (PStr s) e) || plus3 (incon_head n (PStr s) e)) = false /\
  read_record (incon_head n (PStr s) e) fmt_INDOM_0 = Err ValueError.
Proof.
  intros L W LE B H. destruct (word_head s W) as (c & r & -> & Lc).
  destruct (incon_head_text n (c :: r) e LE B) as (w & E). split.
  - rewrite E. cbn [app]. rewrite plus3_letter by auto. rewrite (not_blank _ c); [reflexivity|now left|]. now apply letter_facts in Lc.
  - assert (F : firstn 20 (incon_head n (PStr (c :: r)) e) = (c :: r) ++ spaces 1 ++ firstn (19 - List.length (c :: r)) w).
    { rewrite E, firstn_app, firstn_all2 by lia. f_equal.
      replace (20 - List.length (c :: r))%nat with (S (19 - List.length (c :: r))) by lia. reflexivity. }
    unfold label_ok in L. rewrite !andb_true_iff in L. destruct L as ((_ & T) & _).
    destruct (word_not_number (c :: r) (spaces 1 ++ firstn (19 - List.length (c :: r)) w) W T) as [N1 N2]; [reflexivity|].
    apply read_not_number; rewrite F; auto.
Qed.

(** ** A record of values does not start with a plus sign *)
Definition no_plus (s : str) : Prop := match s with c :: _ => Ascii.eqb c "+" = false | [] => True end.
Lemma fmt_e_no_plus k x : no_plus (fmt_e k x).
Proof.
  assert (G : forall s t, no_plus t -> no_plus (sign_str s ++ t)) by (intros [] t H; [reflexivity|exact H]).
  assert (M : forall D t, no_plus (mantissa_str k D ++ t)).
  { intros D t. destruct (mantissa_head k D) as (c & r & -> & Hc). cbn [app no_plus].
    destruct (Ascii.eqb_spec c "+"); auto. subst. discriminate. }
  destruct x as [s m e|s|]; cbn [fmt_e]; [|apply G; reflexivity|reflexivity].
  destruct (m =? 0); [apply G, M|]. destruct (dec_round _ _ _). apply G, M.
Qed.
Lemma col_text_sci w k v : (0 < w)%nat -> col_ok (CSci w k) v = true ->
  exists c r, col_text (CSci w k) v = c :: r /\ Ascii.eqb c "+" = false.
Proof.
  intros W H. unfold col_text. destruct (num_of v) as [x|] eqn:E.
  - rewrite (to_str_sci_num _ _ _ x E H). unfold rjust. destruct (w - _)%nat; [|eexists _, _; split; reflexivity].
    pose proof (fmt_e_no_plus k x) as N. pose proof (fmt_e_nonempty k x) as NE. cbn [spaces repeat app].
    destruct (fmt_e k x); [congruence|]. eexists _, _; split; [reflexivity|exact N].
  - assert (A : v = PNone \/ v = PStr []).
    { destruct v as [| | | | |[|]| |]; try discriminate; auto. }
    destruct w as [|w]; [lia|].
    destruct A as [-> | ->];
      [|change (to_str (PStr []) (spec_of (col_tok (CSci (S w) k)))) with (to_str PNone (spec_of (col_tok (CSci (S w) k))))];
      rewrite to_str_none by exact I; eexists _, _; split; reflexivity.
Qed.
Lemma values_no_plus l : forallb (col_ok (CSci 20 13)) l = true -> plus3 (rec_line cols4 l) = false.
Proof.
  intros H. unfold rec_line, record80, ljust, cols4. destruct l as [|v l]; [reflexivity|].
  cbn [forallb] in H. apply andb_true_iff in H as [H _]. cbn [repeat cols_text].
  destruct (col_text_sci 20 13 v) as (c & r & -> & N); [lia|auto|]. cbn [app]. now apply plus3_first.
Qed.

(** ** The block *)
Lemma INCON_item p x : INCON_ok p -> In x (incons_order_of p) ->
  exists s e, x = PStr s /\ dget (KS s) (incons_of p) = Some (PDict e) /\ rock_named (incons_of p) x = e /\
    (List.length s <= label_width (incons_of p))%nat /\ label_ok s = true /\ word s = true /\ incon_ok e.
Proof.
  intros (_ & _ & _ & U & O & _ & F & _) Hx.
  destruct (labelled_item (incons_of p) _ (fun s e => label_ok s = true /\ word s = true /\ incon_ok e) U O F x Hx)
    as (s & e & -> & G & E & I & L & K).
  exists s, e. repeat (split; auto); try apply K. now apply label_width_le.
Qed.
Lemma INCON_names p : INCON_ok p -> all_names (dkeys (incons_of p)).
Proof.
  intros (_ & _ & _ & _ & _ & _ & F & _).
  exact (labelled_names _ (fun s e => label_ok s = true /\ word s = true /\ incon_ok e) F).
Qed.
Definition incon_width (p : dict) : nat := label_width (incons_of p).
Definition incon_headline (p : dict) (x : pyval) : str := incon_head (incon_width p) x (rock_named (incons_of p) x).
Definition incon_values (p : dict) (x : pyval) : list pyval := values_w (rock_named (incons_of p) x).
Definition incon_lines (p : dict) (x : pyval) : list str := entry_lines (incon_headline p) (incon_values p) x.
Definition INCON_body (p : dict) : list str := concat (map (incon_lines p) (incons_order_of p)) ++ [[nl]].
Definition incon_dict (e : dict) : dict :=
  [(#"porosity", sci 9 (val #"porosity" e));
   (#"userx", match trim (map (sci 3) (userx_of e)) with [] => PNone | l => PSeq SList l end);
   (#"values", sci_list 13 (values_of e))].
Definition incon_named (p : dict) (x : pyval) : pyval := PDict (incon_dict (rock_named (incons_of p) x)).

Lemma INCON_write p : INCON_ok p -> write_incon p = Ok (head ($"INCON") :: INCON_body p).
Proof.
  intros H. pose proof H as (G & M & NE & U & O & W & F & LF).
  unfold write_incon. rewrite (check_list_ok dt_INCON kinds_INCON #"initial_conditions" p (incons_of p) st_INCON); auto.
  2:{ intros k v Hk. rewrite Forall_forall in F. destruct (F _ Hk) as (s & e & E & _ & _ & (_ & T & _)). injection E as -> ->. exists e. auto. }
  cbn [bind]. unfold block, get_dict, dgetE at 1. rewrite G. cbn [bind as_dict].
  rewrite order_of_ok by auto. cbn [bind].
  rewrite max_key_len_ok by auto using INCON_names. cbn [bind]. rewrite f_INCON by lia. cbn [bind]. rewrite toks_incon.
  fold (incons_order_of p).
  rewrite (concatM_ok _ (incon_lines p)); [reflexivity|].
  intros x Hx. destruct (INCON_item p x H Hx) as (s & e & -> & Ge & E & Ls & L & Wd & K).
  unfold incon_lines, entry_lines, incon_headline, incon_values. rewrite E. now apply write_initial_ok.
Qed.
Lemma INCON_good p : INCON_ok p -> Forall good_line (INCON_body p).
Proof.
  intros H. unfold INCON_body. apply Forall_app. split; [|constructor; auto using good_nl].
  apply Forall_concat. intros x Hx. destruct (INCON_item p x H Hx) as (s & e & -> & Ge & E & Ls & L & Wd & K).
  unfold incon_lines, entry_lines, incon_headline, incon_values. rewrite E.
  constructor; [now apply rec_line_good, incon_rec_ok|]. apply value_lines_good, values_w_ok. apply K.
Qed.
Lemma INCON_len p ll rest : INCON_ok p -> INCON_known ll p -> incons_order_of p <> [] ->
  label_len ll (INCON_body p ++ rest) = Ok (label_width (incons_of p)).
Proof.
  intros H K NE. unfold INCON_known, first_known in K. unfold INCON_body.
  pose proof (INCON_item p) as I. destruct (incons_order_of p) as [|x xs]; [congruence|].
  destruct (I x H (or_introl eq_refl)) as (s & e & -> & Ge & E & Ls & L & Wd & EO).
  cbn [map concat app incon_lines entry_lines]. unfold incon_headline. rewrite E. cbn [name_key key_text] in K.
  pose proof H as (_ & _ & _ & _ & _ & W & _).
  destruct (incon_head_text (incon_width p) s e Ls W) as [w ET].
  apply (label_len_known ll _ s _ _ (spaces 1 ++ w) _ W K).
  - intros LE. exact ET.
  - intros D. reflexivity.
Qed.

Lemma INCON_entry_ok p x fmt : INCON_ok p -> In x (incons_order_of p) -> fmt = Ok (toks (cols_incon (incon_width p))) ->
  entry_ok (read_initial fmt) (incon_headline p) (incon_values p) (add_named (incon_named p)) (fun l => blank l || plus3 l) x.
Proof.
  intros H Hx ->. destruct (INCON_item p x H Hx) as (s & e & -> & Ge & E & Ls & L & Wd & K).
  pose proof H as (_ & _ & _ & _ & _ & W & _).
  pose proof (incon_head_ok (incon_width p) s e L Wd Ls W K) as [H1 H2].
  pose proof (incon_rec_ok (incon_width p) s e L Ls K) as R.
  pose proof K as (U & T & P & S1 & F & S2 & V). apply values_w_ok in V.
  unfold entry_ok, entry_step, incon_headline, incon_values. rewrite E. split; [|split; [auto|split; [|split; auto]]].
  - intros [d o] two tail vs two' tail' RT TR. unfold read_initial. cbn [next bind]. rewrite H1.
    unfold incon_head. rewrite (read_record_ok _ (cols_incon (incon_width p))) by auto. cbn [bind].
    unfold incon_vals, cols_incon. rewrite rec_val_app by reflexivity. cbn [app]. rewrite !rec_val_cons. cbn [rec_val app].
    change (rec_val [CText (incon_width p); CInt (fst (eleme_ints (incon_width p))); CInt (snd (eleme_ints (incon_width p))); CSci 15 9]
             [PStr s; PNone; PNone; val #"porosity" e]) with
      [col_val (CText (incon_width p)) (PStr s); PNone; PNone; sci 9 (val #"porosity" e)].
    cbn [app at_ nth skipn]. rewrite label_back by auto. cbn [val_key bind].
    change fmt_INCON_0 with fmt_INDOM_0. rewrite RT. cbn [bind].
    rewrite !prune_trim. rewrite firstn_all2 by (rewrite rec_val_length, repeat_length; lia).
    rewrite trim_rec_val. rewrite userx_w_back.
    unfold add_named, incon_named, incon_dict. cbn [fst snd name_key]. rewrite E. rewrite TR, values_w_back. now destruct (trim (map (sci 3) (userx_of e))).
  - intros Lg. pose proof (values_spec _ V) as (L8 & FF & PP).
    rewrite skipn_present_blank by auto. cbn [orb]. now apply values_no_plus, forallb_skipn.
Qed.

Lemma INCON_block p : INCON_ok p ->
  write_incon p = Ok (head ($"INCON") :: INCON_body p) /\ Forall good_line (INCON_body p) /\
  forall ll q rest, INCON_known ll p ->
    read_block ll (head ($"INCON")) q (INCON_body p ++ rest) = Ok (true, dupdate q (INCON_back p), rest).
Proof.
  intros H. split; [now apply INCON_write|]. split; [now apply INCON_good|].
  intros ll q rest K. at_block. unfold read_incon.
  assert (X : exists m, label_len ll (INCON_body p ++ rest) = Ok m /\ (incons_order_of p <> [] -> m = label_width (incons_of p))).
  { destruct (incons_order_of p) eqn:E.
    - unfold INCON_body. rewrite E. cbn [map concat app]. unfold label_len. cbn [next bind]. eexists. split; [reflexivity|congruence].
    - eexists. split; [apply INCON_len; auto; rewrite E; congruence|auto]. }
  destruct X as (m & -> & Hm). cbn [bind].
  pose proof H as (_ & _ & _ & U & O & W & F & LF).
  destruct (entries_read (A := dict * list pyval) (read_initial (fmt_INCON m)) (incon_headline p) (incon_values p)
      (add_named (incon_named p)) (fun l => blank l || plus3 l) ([nl] :: rest) rest) with
    (xs := incons_order_of p) (fuel := S (List.length (INCON_body p ++ rest))) (acc := (@nil (key * pyval), @nil pyval)) (two := true)
    as (two' & E).
  - eexists _, _. split; [reflexivity|reflexivity].
  - intros [[d o] t]. reflexivity.
  - apply Forall_forall. intros x Hx. apply INCON_entry_ok; auto.
    rewrite Hm by (intros X; rewrite X in Hx; contradiction). rewrite <- toks_incon. now apply f_INCON.
  - unfold INCON_body. rewrite !app_length. pose proof (concat_len (incon_lines p) (incons_order_of p)) as C.
    enough (List.length (incons_order_of p) <= List.length (concat (map (incon_lines p) (incons_order_of p))))%nat by lia.
    apply C. intros x. unfold incon_lines, entry_lines. congruence.
  - rewrite <- LF. f_equal. apply map_ext. intros x. apply values_w_long.
  - assert (BE : INCON_body p ++ rest = concat (map (entry_lines (incon_headline p) (incon_values p)) (incons_order_of p)) ++ [nl] :: rest).
    { unfold INCON_body. rewrite <- app_assoc. reflexivity. }
    rewrite <- BE in E.
    rewrite fold_named in E by (apply order_list_nodup; auto using INCON_names).
    match goal with |- context [iter_lines ?a ?b ?c ?d] => match type of E with _ = ?r => replace (iter_lines a b c d) with r by (symmetry; exact E) end end.
    cbn [bind]. unfold incon_named. rewrite prune_values_map. unfold INCON_back, incons_back. do 7 f_equal.
    apply map_ext. intros x. now rewrite known_prune.
Qed.
