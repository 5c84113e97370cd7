(** Labels: layout of the longest label, order of the entries, inference of the
    label length. *)
From Coq Require Import String Ascii ZArith Bool Lia FinFun List.
From Verif Require Import Base.Str Base.Digits Base.Flt Base.FltText Base.FltInt.
From Verif Require Import Model.Py Model.Records Model.Write Model.Read.
From Verif Require Import Spec.Fields Spec.Values Spec.Types Spec.Layouts Spec.Rocks Spec.Labels.
From Verif Require Import Proofs.RecordLemmas Proofs.DictLemmas Proofs.BlockTools Proofs.RocksProof.
Import ListNotations.
Local Open Scope Z_scope.

Lemma max_key_len_ok d : d <> [] -> all_names (dkeys d) -> max_key_len d = Ok (label_width d).
Proof.
  intros N A. unfold max_key_len. rewrite (mapM_ok _ (fun k => List.length (key_text k))).
  - cbn [bind]. unfold label_width. destruct d as [|kv d]; [congruence|]. reflexivity.
  - intros k Hk. unfold all_names in A. rewrite Forall_forall in A. destruct (A k Hk) as [s ->]. reflexivity.
Qed.
Lemma fold_max_in l n : In n l -> (n <= fold_right Nat.max 0 l)%nat.
Proof. induction l as [|m l IH]; cbn [In fold_right]; [tauto|]. intros [->|H]; [lia|]. specialize (IH H). lia. Qed.
Lemma label_width_le d s : In (KS s) (dkeys d) -> (List.length s <= label_width d)%nat.
Proof. intros H. apply (in_map (fun k => List.length (key_text k))) in H. now apply fold_max_in in H. Qed.

Lemma order_of_ok k p d : dmem k p = true -> subset_ok (val k p) d -> order_of k p d = Ok (order_list (val k p) d).
Proof.
  intros M O. unfold order_of. rewrite dgetE_val by auto. cbn [bind].
  destruct (val k p); cbn [subset_ok] in O; try contradiction; reflexivity.
Qed.
Lemma order_list_in o d x : all_names (dkeys d) -> subset_ok o d -> In x (order_list o d) ->
  exists s, x = PStr s /\ In (KS s) (dkeys d).
Proof.
  intros A O H. destruct o; cbn [subset_ok] in O; try contradiction; cbn [order_list] in H.
  - apply in_map_iff in H as (k & <- & Hk). unfold all_names in A. rewrite Forall_forall in A.
    destruct (A k Hk) as [s ->]. exists s. auto.
  - destruct O as [_ F]. rewrite Forall_forall in F. now apply F.
Qed.
Lemma order_list_nodup o d : all_names (dkeys d) -> keys_unique d -> subset_ok o d -> NoDup (map name_key (order_list o d)).
Proof.
  intros A U O.
  assert (E : forall x, In x (order_list o d) -> key_val (name_key x) = x).
  { intros x Hx. destruct (order_list_in _ _ _ A O Hx) as (s & -> & _). reflexivity. }
  assert (N : NoDup (order_list o d)).
  { destruct o; cbn [subset_ok] in O; try contradiction; cbn [order_list]; [|tauto].
    apply FinFun.Injective_map_NoDup; auto. intros a b. apply key_val_inj. }
  revert N E. generalize (order_list o d). clear. induction l as [|x l IH]; intros N E; cbn [map]; [constructor|].
  inversion_clear N as [|? ? N1 N2]. constructor.
  - intros X. apply in_map_iff in X as (y & Ey & Hy). apply N1.
    rewrite <- (E x (or_introl eq_refl)), <- Ey, (E y (or_intror Hy)). exact Hy.
  - apply IH; auto. intros y Hy. apply E. now right.
Qed.

(** Entry by entry, the reader builds the dictionary and the order. *)
Definition add_named (f : pyval -> pyval) (st : dict * list pyval) (x : pyval) : dict * list pyval :=
  (dset (name_key x) (f x) (fst st), snd st ++ [x]).
Lemma fold_named f xs : NoDup (map name_key xs) ->
  fold_left (add_named f) xs ([], []) = (map (fun x => (name_key x, f x)) xs, xs).
Proof.
  intros N. unfold add_named.
  rewrite (fold_pair (fun d x => dset (name_key x) (f x) d) (fun o x => o ++ [x])).
  rewrite (fold_snoc (fun x => x)), map_id. cbn [app].
  rewrite fold_dset_fresh by (auto; reflexivity). reflexivity.
Qed.

(** ** The label length *)
Lemma count_digits_app s t : forallb is_digit s = true -> count_digits (s ++ t) = (List.length s + count_digits t)%nat.
Proof.
  induction s as [|c s IH]; auto. cbn [forallb app count_digits List.length]. intros H.
  apply andb_true_iff in H as [-> H]. rewrite IH by auto. reflexivity.
Qed.
Lemma skipn_app_le {A} n (a b : list A) : (n <= List.length a)%nat -> skipn n (a ++ b) = skipn n a ++ b.
Proof. intros H. rewrite skipn_app. now replace (n - List.length a)%nat with 0%nat by lia. Qed.
Definition no_digit_first (s : str) : Prop := match s with c :: _ => is_digit c = false | [] => True end.
Lemma count_no_digit s : no_digit_first s -> count_digits s = 0%nat.
Proof. destruct s; cbn; auto. now intros ->. Qed.
Lemma label_len_known ll n s df line tail rest : (5 <= n <= 9)%nat -> length_known ll n s df ->
  (List.length s = n -> line = s ++ tail) -> (df = false -> no_digit_first tail) ->
  label_len ll (line :: rest) = Ok n.
Proof.
  intros B K E T. unfold label_len. cbn [next bind]. destruct K as [->|(L & Ls & D & F)].
  - destruct n; [lia|reflexivity].
  - rewrite (E Ls).
    assert (G : get_label_length (firstn 9 (s ++ tail)) = n).
    { unfold get_label_length. rewrite firstn_app, firstn_all2, Ls by lia.
      rewrite skipn_app_le, count_digits_app, skipn_length by (auto; lia).
      rewrite count_no_digit; [lia|]. destruct (Nat.eq_dec n 9) as [->|N9]; [exact I|].
      specialize (T (F ltac:(lia))). destruct (9 - n)%nat as [|m]; [exact I|]. destruct tail; auto. }
    rewrite G. destruct L as [-> | ->]; reflexivity.
Qed.

(** ** The first character of an integer column *)
Lemma col_text_int w v : col_ok (CInt w) v = true ->
  col_text (CInt w) v = match int_of v with Some z => rjust w (print_Z z) | None => spaces w end.
Proof.
  intros H. unfold col_text. cbn [col_ok] in H. apply orb_true_iff in H as [H|H].
  - assert (E : int_of v = None) by (destruct v; try discriminate; reflexivity). rewrite E.
    rewrite spec_int. destruct v; try discriminate; [|destruct s; try discriminate];
      unfold to_str, no_ge, py_format; cbn [sp_t sp_right sp_w sp_p trunc];
      change (Ascii.eqb "g" "g" || Ascii.eqb "g" "e") with true; cbv iota; cbn [sp_t sp_right sp_w sp_p trunc];
      unfold rjust; cbn [List.length]; rewrite Nat.sub_0_r, app_nil_r; reflexivity.
  - destruct (int_of v) as [z|] eqn:E; [|discriminate].
    rewrite andb_true_iff, Z.ltb_lt, Nat.leb_le in H. destruct H as [H1 H2].
    destruct (is_f64_flt_of_Z_small z ltac:(lia)) as (s & m & e & F).
    assert (G : fmt_int (spec_of (col_tok (CInt w))) z = Ok (rjust w (print_Z z))).
    { rewrite spec_int. unfold fmt_int. cbn [sp_t]. rewrite F. unfold fmt_num. cbn [sp_t sp_p sp_w].
      change (Ascii.eqb "g" "e") with false. change (Ascii.eqb "g" "f") with false.
      change (Ascii.eqb "g" "g") with true. cbv iota.
      rewrite <- F, fmt_g_int by (simpl; lia). reflexivity. }
    assert (T : to_str v (spec_of (col_tok (CInt w))) = Ok (rjust w (print_Z z)))
      by (destruct v; try discriminate; injection E as <-; exact G).
    now rewrite T.
Qed.
Lemma no_digit_spaces n t : no_digit_first t -> no_digit_first (spaces n ++ t).
Proof. destruct n; auto. reflexivity. Qed.
Lemma int_first w v t : (0 < w)%nat -> col_ok (CInt w) v = true -> fills w v = false ->
  no_digit_first (col_text (CInt w) v ++ t).
Proof.
  intros W H F. rewrite col_text_int by auto. cbn [col_ok] in H. unfold fills in F.
  destruct (int_of v) as [z|] eqn:E; [|destruct w; [lia|reflexivity]].
  assert (A : absent v = false) by (destruct v; try discriminate; reflexivity).
  rewrite A in H. cbn [orb] in H. rewrite andb_true_iff, Nat.leb_le in H. destruct H as [_ X].
  unfold rjust. rewrite <- app_assoc.
  destruct (w - List.length (print_Z z))%nat eqn:Ew; [|reflexivity].
  cbn [spaces repeat app]. apply andb_false_iff in F as [F|F].
  - unfold print_Z. apply Z.leb_gt in F. apply Z.ltb_lt in F. now rewrite F.
  - apply Nat.eqb_neq in F. lia.
Qed.

(** The text of a record that starts with a label. *)
Lemma label_ok_col n s : label_ok s = true -> (List.length s <= n)%nat -> col_ok (CText n) (PStr s) = true.
Proof.
  unfold label_ok. rewrite !andb_true_iff. intros ((N & T) & O) L. cbn [col_ok].
  apply Nat.leb_le in L. rewrite T, L, O. now rewrite orb_true_r.
Qed.
Lemma label_ok_nonempty s : label_ok s = true -> nonempty s = true.
Proof. unfold label_ok. rewrite !andb_true_iff. tauto. Qed.
Lemma label_back n s : label_ok s = true -> col_val (CText n) (PStr s) = PStr s.
Proof. intros H. apply label_ok_nonempty in H. destruct s; [discriminate|reflexivity]. Qed.
Lemma rec_line_label n cs s vs : (List.length s <= n)%nat ->
  exists tail, rec_line (CText n :: cs) (PStr s :: vs) = ljust n s ++ cols_text cs vs ++ tail.
Proof.
  intros L. eexists. unfold rec_line, record80. cbn [cols_text]. unfold col_text. rewrite spec_text.
  cbv [to_str no_ge py_format sp_t sp_right sp_w sp_p trunc]. rewrite (firstn_all_le n s) by auto.
  unfold ljust at 1. rewrite <- !app_assoc. reflexivity.
Qed.
Lemma ljust_full n s : List.length s = n -> ljust n s = s.
Proof. intros <-. unfold ljust. rewrite Nat.sub_diag. apply app_nil_r. Qed.
