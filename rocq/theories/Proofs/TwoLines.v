(** Entries whose values take one or two records. *)
From Coq Require Import String Ascii ZArith Bool Lia List.
From Verif Require Import Base.Str Base.Digits Base.Flt Base.FltText.
From Verif Require Import Model.Py Model.Records Model.Write Model.Read.
From Verif Require Import Spec.Fields Spec.Values Spec.Types Spec.Layouts Spec.Rocks Spec.Simple Spec.Indom.
From Verif Require Import Proofs.RecordLemmas Proofs.DictLemmas Proofs.Layouts Proofs.BlockTools Proofs.RocksProof Proofs.SimpleProof.
Import ListNotations.
Local Open Scope Z_scope.

Definition cols4 : list col := repeat (CSci 20 13) 4.
Definition value_lines (l : list pyval) : list str :=
  rec_line cols4 (firstn 4 l) :: (if long l then [rec_line cols4 (skipn 4 l)] else []).

Lemma values_spec l : values_ok l = true ->
  (List.length l <= 8)%nat /\ forallb (col_ok (CSci 20 13)) l = true /\ (long l = true -> existsb present (skipn 4 l) = true).
Proof.
  unfold values_ok. rewrite !andb_true_iff, Nat.leb_le. intros ((A & B) & C). repeat split; auto.
  intros L. now rewrite L in C.
Qed.
Lemma cols4_ok l : forallb (col_ok (CSci 20 13)) l = true -> rec_ok cols4 l = true.
Proof. intros H. unfold cols4. rewrite rec_ok_repeat. now apply forallb_firstn. Qed.
Lemma value_lines_good l : values_ok l = true -> Forall good_line (value_lines l).
Proof.
  intros H. apply values_spec in H as (L & F & _). unfold value_lines.
  constructor; [now apply rec_line_good, cols4_ok, forallb_firstn|].
  destruct (long l); auto. constructor; auto. now apply rec_line_good, cols4_ok, forallb_skipn.
Qed.
Lemma values_write l : values_ok l = true ->
  (let* rec2 := write_record (firstn (Nat.min 4 (List.length l)) l) (str2format fmt_INDOM_0 []) in
   let* rec3 := when (Nat.ltb 4 (List.length l)) (write_record (skipn 4 l) (str2format fmt_INDOM_0 [])) in
   Ok (rec2 ++ rec3)) = Ok (value_lines l).
Proof.
  intros H. apply values_spec in H as (L & F & _).
  replace (firstn (Nat.min 4 (List.length l)) l) with (firstn 4 l).
  2:{ destruct (Nat.le_gt_cases (List.length l) 4) as [L4|L4].
      - rewrite Nat.min_r by lia. now rewrite !firstn_all2 by lia.
      - now rewrite Nat.min_l by lia. }
  rewrite (write_record_ok fmt_INDOM_0 cols_INDOM_0 _ f_INDOM_0) by now apply cols4_ok, forallb_firstn. cbn [bind].
  unfold value_lines, when, long. destruct (Nat.ltb 4 (List.length l)); [|reflexivity].
  now rewrite (write_record_ok fmt_INDOM_0 cols_INDOM_0 _ f_INDOM_0) by now apply cols4_ok, forallb_skipn.
Qed.

Lemma skipn_present_blank l : forallb (col_ok (CSci 20 13)) l = true -> existsb present (skipn 4 l) = true -> (List.length l <= 8)%nat ->
  blank (rec_line cols4 (skipn 4 l)) = false.
Proof.
  intros F P L. apply rec_line_present; [reflexivity|now apply cols4_ok, forallb_skipn|].
  unfold cols4. apply row_present; auto; [rewrite skipn_length; lia|now apply forallb_skipn].
Qed.

(** Reading the one or two records of values.  The line after a single record
    must stop the attempt to read a second one. *)
Definition stops (stop : str -> bool) (tail : list str) : Prop :=
  exists l r, tail = l :: r /\ (stop l = true \/ (stop l = false /\ read_record l fmt_INDOM_0 = Err ValueError)).
Lemma read_two_long stop l tail : values_ok l = true -> long l = true ->
  stop (rec_line cols4 (skipn 4 l)) = false ->
  exists vals, read_two fmt_INDOM_0 stop true (value_lines l ++ tail) = Ok (vals, true, tail) /\
    trim vals = trim (map (sci 13) l).
Proof.
  intros V G S. pose proof V as V'. apply values_spec in V' as (L & F & P). unfold value_lines, read_two. rewrite G. cbn [app next bind].
  rewrite (read_record_ok fmt_INDOM_0 cols_INDOM_0 _ f_INDOM_0) by now apply cols4_ok, forallb_firstn. cbn [bind next].
  rewrite S. rewrite (read_record_ok fmt_INDOM_0 cols_INDOM_0 _ f_INDOM_0) by now apply cols4_ok, forallb_skipn.
  eexists; split; [reflexivity|]. unfold long in G. apply Nat.ltb_lt in G.
  unfold cols_INDOM_0. rewrite !rec_val_repeat.
  rewrite firstn_firstn, Nat.min_id. rewrite !(firstn_length), Nat.min_l by lia.
  rewrite firstn_all2 with (l := skipn 4 l) by (rewrite skipn_length; lia).
  cbn [Nat.sub repeat]. rewrite app_nil_r, app_assoc, <- map_app, firstn_skipn. apply trim_app_none.
Qed.
Lemma short_lines l : long l = false -> value_lines l = [rec_line cols4 l].
Proof. intros H. unfold value_lines. rewrite H. unfold long in H. apply Nat.ltb_ge in H. now rewrite firstn_all2. Qed.
Lemma short_val l : values_ok l = true -> long l = false -> trim (rec_val cols_INDOM_0 l) = trim (map (sci 13) l).
Proof.
  intros V H. unfold long in H. apply Nat.ltb_ge in H. unfold cols_INDOM_0. rewrite trim_rec_val.
  now rewrite !firstn_all2 by (rewrite ?firstn_length; lia).
Qed.
Lemma read_two_short stop l tail : values_ok l = true -> long l = false -> stops stop tail ->
  exists vals two, read_two fmt_INDOM_0 stop true (value_lines l ++ tail) = Ok (vals, two, tail) /\
    trim vals = trim (map (sci 13) l).
Proof.
  intros V H (x & r & -> & S). pose proof V as V'. apply values_spec in V' as (L & F & P).
  rewrite short_lines by auto. unfold read_two. cbn [app next bind].
  rewrite (read_record_ok fmt_INDOM_0 cols_INDOM_0 _ f_INDOM_0) by now apply cols4_ok. cbn [bind next].
  destruct S as [S|[S R]]; rewrite S; [|rewrite R]; eexists _, _; (split; [reflexivity|now apply short_val]).
Qed.
Lemma read_two_single stop l tail : values_ok l = true -> long l = false ->
  exists vals, read_two fmt_INDOM_0 stop false (value_lines l ++ tail) = Ok (vals, false, tail) /\
    trim vals = trim (map (sci 13) l).
Proof.
  intros V H. pose proof V as V'. apply values_spec in V' as (L & F & P).
  rewrite short_lines by auto. unfold read_two. cbn [app next bind].
  rewrite (read_record_ok fmt_INDOM_0 cols_INDOM_0 _ f_INDOM_0) by now apply cols4_ok. cbn [bind next].
  eexists; (split; [reflexivity|now apply short_val]).
Qed.

Section Entries.
Context {A X : Type}.
Variable step : A * bool -> list str -> res (bool * (A * bool) * list str).
Variable headline : X -> str.
Variable vals : X -> list pyval.
Variable upd : A -> X -> A.
Variable stop : str -> bool.
Definition entry_lines (x : X) : list str := headline x :: value_lines (vals x).

(** What the loop body does with an entry. *)
Definition entry_step (x : X) : Prop := forall acc two tail vs two' tail',
  read_two fmt_INDOM_0 stop two tail = Ok (vs, two', tail') ->
  trim vs = trim (map (sci 13) (vals x)) ->
  step (acc, two) (headline x :: tail) = Ok (true, (upd acc x, two'), tail').
Definition entry_ok (x : X) : Prop :=
  entry_step x /\ values_ok (vals x) = true /\
  (long (vals x) = true -> stop (rec_line cols4 (skipn 4 (vals x))) = false) /\
  (stop (headline x) = false /\ read_record (headline x) fmt_INDOM_0 = Err ValueError).

Lemma entries_read tail tail' : (exists l r, tail = l :: r /\ stop l = true) ->
  (forall st, step st tail = Ok (false, st, tail')) ->
  forall xs, Forall entry_ok xs ->
  forall fuel acc (two : bool), (List.length xs < fuel)%nat ->
  (if two then longs_first (map (fun x => long (vals x)) xs) else forallb negb (map (fun x => long (vals x)) xs)) = true ->
  exists two', iter_lines fuel step (acc, two) (concat (map entry_lines xs) ++ tail) = Ok ((fold_left upd xs acc, two'), tail').
Proof.
  intros T E. induction xs as [|x xs IH]; intros F fuel acc two L O.
  - destruct fuel; [simpl in L; lia|]. cbn [map concat app iter_lines fold_left]. rewrite E. eexists; reflexivity.
  - apply Forall_cons_iff in F as [(S & V & P & H1 & H2) F']. destruct fuel; [simpl in L; lia|].
    cbn [map concat app iter_lines fold_left]. rewrite <- app_assoc. unfold entry_lines at 1. cbn [app].
    assert (ST : stops stop (concat (map entry_lines xs) ++ tail)).
    { destruct xs as [|y ys].
      - destruct T as (t0 & r0 & T1 & T2). exists t0, r0. split; auto.
      - apply Forall_cons_iff in F' as [(_ & _ & _ & G1 & G2) _]. cbn [map concat entry_lines app].
        eexists _, _. split; [reflexivity|]. right. auto. }
    cbn [List.length] in L.
    destruct two.
    + cbn [map longs_first] in O. destruct (long (vals x)) eqn:G.
      * destruct (read_two_long stop (vals x) (concat (map entry_lines xs) ++ tail)) as (vs & R & TR); auto.
        rewrite (S _ _ _ _ _ _ R TR). cbn [bind]. apply IH; auto. lia.
      * destruct (read_two_short stop (vals x) (concat (map entry_lines xs) ++ tail)) as (vs & two & R & TR); auto.
        rewrite (S _ _ _ _ _ _ R TR). cbn [bind]. apply IH; auto; [lia|].
        destruct two; auto. clear -O. induction (map (fun x => long (vals x)) xs) as [|[] l IHl]; auto. discriminate.
    + cbn [map forallb] in O. apply andb_true_iff in O as [G O]. apply negb_true_iff in G.
      destruct (read_two_single stop (vals x) (concat (map entry_lines xs) ++ tail)) as (vs & R & TR); auto.
      rewrite (S _ _ _ _ _ _ R TR). cbn [bind]. apply IH; auto. lia.
Qed.
End Entries.

(** A line that starts with text that is not a number. *)
Lemma str2float_no s : not_number s = true -> str2float s = Err ValueError.
Proof.
  unfold not_number, str2float. destruct (parse_float s); [discriminate|]. now destruct (parse_float _).
Qed.
Lemma strip_prefix s t : nonempty s = true -> trimmed s = true -> exists t', strip (s ++ t) = s ++ t'.
Proof.
  intros N T. assert (N' : s <> []) by (destruct s; [discriminate|congruence]).
  unfold strip. rewrite lstrip_trimmed_app by auto.
  assert (X : exists d u, rev s = d :: u /\ is_space d = false).
  { pose proof (trimmed_rev s T) as T'. destruct (rev s) as [|d u] eqn:E.
    - apply (f_equal (@rev _)) in E. rewrite rev_involutive in E. contradiction.
    - exists d, u. split; auto. unfold trimmed in T'. apply andb_true_iff in T' as [T' _]. now apply negb_true_iff in T'. }
  destruct X as (d & u & E & Hd).
  unfold rstrip. rewrite rev_app_distr, E.
  assert (G : forall w, exists w', lstrip (w ++ d :: u) = w' ++ d :: u).
  { induction w as [|a w IH]; cbn [app lstrip].
    - rewrite Hd. now exists [].
    - destruct (is_space a); auto. now exists (a :: w). }
  destruct (G (rev t)) as (w' & ->). rewrite <- E, rev_app_distr, rev_involutive. eauto.
Qed.
