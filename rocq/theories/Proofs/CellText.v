(** Cells of comma-separated lines. *)
From Coq Require Import String Ascii ZArith Bool Lia List.
From Verif Require Import Base.Str Base.Digits Base.Flt Base.FltText Model.Py Model.Dispatch Model.Output Spec.Fields Spec.Output
  Proofs.DictLemmas Proofs.BlockTools.
Import ListNotations.
Local Open Scope nat_scope.

(** ** Characters of a number *)
Definition num_c (c : ascii) : bool := is_digit c || existsb (Ascii.eqb c) (lit "+-.einfa").
Lemma digits_num s : forallb is_digit s = true -> forallb num_c s = true.
Proof. intros H. rewrite forallb_forall in *. intros c I. unfold num_c. now rewrite H. Qed.
Lemma exp_str_num x : forallb num_c (exp_str x) = true.
Proof. unfold exp_str. cbn [forallb]. rewrite digits_num by apply zpad_digits. destruct (x <? 0)%Z; reflexivity. Qed.
Lemma mantissa_num k D : forallb num_c (mantissa_str k D) = true.
Proof.
  unfold mantissa_str. rewrite forallb_app. pose proof (zpad_digits (S k) D) as H.
  rewrite digits_num by now apply forallb_firstn. destruct (Nat.eqb k 0); auto. cbn [forallb andb].
  rewrite digits_num by now apply forallb_skipn. reflexivity.
Qed.
Lemma sign_num s : forallb num_c (sign_str s) = true.
Proof. destruct s; reflexivity. Qed.
Lemma fmt_e_num k x : forallb num_c (fmt_e k x) = true.
Proof.
  destruct x as [s m e|s|]; cbn [fmt_e].
  - destruct (m =? 0)%Z.
    + now rewrite !forallb_app, sign_num, mantissa_num, exp_str_num.
    + destruct (dec_round _ _ _). now rewrite !forallb_app, sign_num, mantissa_num, exp_str_num.
  - now destruct s.
  - reflexivity.
Qed.
(** ** Strings without given characters *)
Definition lacks (d : ascii) (s : str) : Prop := forall c, In c s -> c <> d.
Lemma lacks_app d a b : lacks d (a ++ b) <-> lacks d a /\ lacks d b.
Proof.
  unfold lacks. split.
  - intros H. split; intros c I; apply H, in_app_iff; auto.
  - intros [H1 H2] c I. apply in_app_iff in I as []; auto.
Qed.
Lemma lacks_cons d c s : lacks d (c :: s) <-> c <> d /\ lacks d s.
Proof. unfold lacks. cbn. firstorder congruence. Qed.
Lemma lacks_nil d : lacks d [].
Proof. intros c []. Qed.
Lemma lacks_spaces d n : d <> sp -> lacks d (spaces n).
Proof. intros H c I. apply repeat_spec in I. congruence. Qed.
Lemma lacks_rjust d w s : d <> sp -> lacks d s -> lacks d (rjust w s).
Proof. intros. unfold rjust. apply lacks_app. split; auto. now apply lacks_spaces. Qed.
Lemma lacks_num d s : num_c d = false -> forallb num_c s = true -> lacks d s.
Proof. intros H F c I ->. rewrite forallb_forall in F. rewrite F in H; auto. discriminate. Qed.
Lemma lacks_join d sep l : lacks d sep -> Forall (lacks d) l -> lacks d (join sep l).
Proof.
  intros HS. induction 1 as [|x l H F IH]; [apply lacks_nil|]. destruct l; auto. cbn [join].
  apply lacks_app. split; auto. apply lacks_app. auto.
Qed.
Lemma lacks_line s : lacks nl s -> one_line s = true.
Proof.
  intros H. unfold one_line. apply forallb_forall. intros c I. apply negb_true_iff, Ascii.eqb_neq. auto.
Qed.
Lemma lacks_number d x : d <> sp -> num_c d = false -> lacks d (number x).
Proof. intros. apply lacks_rjust; auto. apply lacks_num; auto. apply fmt_e_num. Qed.

(** ** split and join *)
Lemma split_on_aux_lacks sep cur s rest : lacks sep s ->
  split_on_aux sep cur (s ++ rest) = split_on_aux sep (rev s ++ cur) rest.
Proof.
  revert cur. induction s as [|c s IH]; intros cur H; cbn [app rev split_on_aux]; auto.
  apply lacks_cons in H as [H1 H2]. apply Ascii.eqb_neq in H1. rewrite H1, IH by auto.
  now rewrite <- app_assoc.
Qed.
Lemma split_on_lacks sep s : lacks sep s -> split_on sep s = [s].
Proof.
  intros H. unfold split_on. rewrite <- (app_nil_r s) at 1. rewrite split_on_aux_lacks by auto.
  cbn. now rewrite app_nil_r, rev_involutive.
Qed.
Lemma split_on_cons sep s rest : lacks sep s -> split_on sep (s ++ sep :: rest) = s :: split_on sep rest.
Proof.
  intros H. unfold split_on. rewrite split_on_aux_lacks by auto. cbn [split_on_aux].
  rewrite Ascii.eqb_refl. now rewrite app_nil_r, rev_involutive.
Qed.
Lemma split_on_join sep l : l <> [] -> Forall (lacks sep) l -> split_on sep (join [sep] l) = l.
Proof.
  induction l as [|x l IH]; [congruence|]. intros _ F. apply Forall_cons_iff in F as [F1 F2].
  destruct l as [|y l]; [now apply split_on_lacks|]. cbn [join app]. rewrite split_on_cons by auto.
  f_equal. apply IH; auto. discriminate.
Qed.
Lemma join_snoc sep l x : l <> [] -> join sep (l ++ [x]) = join sep l ++ sep ++ x.
Proof.
  induction l as [|y l IH]; [congruence|]. intros _. destruct l as [|z l]; [reflexivity|].
  change ((y :: z :: l) ++ [x]) with (y :: (z :: l) ++ [x]).
  change (join sep (y :: (z :: l) ++ [x])) with (y ++ sep ++ join sep ((z :: l) ++ [x])).
  rewrite IH by discriminate. change (join sep (y :: z :: l)) with (y ++ sep ++ join sep (z :: l)).
  now rewrite <- !app_assoc.
Qed.
(** A text after the last item belongs to the last item. *)
Lemma join_tail sep l x t : join sep (l ++ [x]) ++ t = join sep (l ++ [x ++ t]).
Proof.
  destruct l as [|y l]; [reflexivity|]. rewrite !join_snoc by discriminate. now rewrite <- !app_assoc.
Qed.

(** ** strip *)
Lemma strip_around a b s : trimmed s = true -> forallb is_space a = true -> forallb is_space b = true ->
  strip (a ++ s ++ b) = s.
Proof.
  intros H A B. unfold strip, rstrip.
  assert (L : forall t u, forallb is_space t = true -> lstrip (t ++ u) = lstrip u).
  { intros t u. induction t as [|c t IH]; cbn [forallb app lstrip]; auto. intros E.
    apply andb_true_iff in E as [-> E]. auto. }
  rewrite L by auto. destruct s as [|c s].
  - cbn [app]. rewrite <- (app_nil_r b), L by auto. reflexivity.
  - rewrite lstrip_trimmed_app by (auto; discriminate). rewrite rev_app_distr, L.
    + rewrite <- (app_nil_r (rev (c :: s))), lstrip_trimmed_app.
      * now rewrite app_nil_r, rev_involutive.
      * intros E. apply (f_equal (@rev ascii)) in E. rewrite rev_involutive in E. discriminate.
      * now apply trimmed_rev.
    + rewrite forallb_forall in *. intros x I. apply B. now apply in_rev.
Qed.
Lemma strip_rjust_nl w s : trimmed s = true -> strip (rjust w s ++ [nl]) = s.
Proof.
  intros H. unfold rjust. rewrite <- app_assoc. apply strip_around; auto. apply spaces_all_space.
Qed.
Lemma strip_nl s : trimmed s = true -> strip (s ++ [nl]) = s.
Proof. intros H. apply (strip_around [] [nl] s); auto. Qed.
(** Texts whose first, or last, character is no blank. *)
Definition opens (s : str) : Prop := exists c r, s = c :: r /\ is_space c = false.
Definition closes (s : str) : Prop := exists r c, s = r ++ [c] /\ is_space c = false.
Lemma open_close s : opens s -> closes s -> trimmed s = true.
Proof.
  intros (c & r & -> & H) (r' & c' & E & H'). unfold trimmed. rewrite H, E, last_last, H'. reflexivity.
Qed.
Lemma closes_app a b : closes b -> closes (a ++ b).
Proof. intros (r & c & -> & H). exists (a ++ r), c. now rewrite app_assoc. Qed.
Lemma opens_app a b : opens a -> opens (a ++ b).
Proof. intros (c & r & -> & H). exists c, (r ++ b). auto. Qed.
Lemma trimmed_closes s : s <> [] -> trimmed s = true -> closes s.
Proof.
  intros N H. destruct (exists_last N) as (r & c & E). exists r, c. split; auto. unfold trimmed in H.
  destruct s as [|d s]; [congruence|]. rewrite E, last_last in H. apply andb_true_iff in H as [_ H].
  now apply negb_true_iff in H.
Qed.
Lemma trimmed_opens s : s <> [] -> trimmed s = true -> opens s.
Proof.
  intros N H. destruct s as [|c s]; [congruence|]. exists c, s. split; auto. unfold trimmed in H.
  apply andb_true_iff in H as [H _]. now apply negb_true_iff in H.
Qed.
Lemma opens_rev s : opens (rev s) <-> closes s.
Proof.
  split.
  - intros (c & r & E & H). exists (rev r), c. split; auto. rewrite <- (rev_involutive s), E. reflexivity.
  - intros (r & c & -> & H). exists c, (rev r). split; auto. apply rev_unit.
Qed.
Lemma lstrip_head s : lstrip s = [] \/ opens (lstrip s).
Proof. induction s as [|c s IH]; cbn [lstrip]; auto. destruct (is_space c) eqn:E; auto. right. exists c, s. auto. Qed.
Lemma lstrip_closes s : closes s -> closes (lstrip s).
Proof.
  induction s as [|c s IH]; cbn [lstrip]; auto. intros C. destruct (is_space c) eqn:E; auto. apply IH.
  destruct C as (r & d & F & H). destruct r as [|e r]; cbn in F; injection F as -> ->.
  - congruence.
  - exists r, d. auto.
Qed.
Lemma strip_trimmed s : trimmed (strip s) = true.
Proof.
  unfold strip, rstrip. destruct (lstrip_head s) as [-> | O]; [reflexivity|].
  assert (O' : closes (rev (lstrip s))) by (apply (proj1 (opens_rev _)); now rewrite rev_involutive).
  apply lstrip_closes in O'. apply open_close; [now apply (proj2 (opens_rev _))|].
  destruct (lstrip_head (rev (lstrip s))) as [E|H]; [rewrite E in O'; destruct O' as (r & c & F & _); destruct r; discriminate|].
  apply (proj1 (opens_rev _)). now rewrite rev_involutive.
Qed.
Lemma closes_rjust w s : closes s -> closes (rjust w s).
Proof. intros. now apply closes_app. Qed.
Lemma closes_number x : closes (number x).
Proof. apply closes_rjust, trimmed_closes; [apply fmt_e_nonempty|apply fmt_e_trimmed]. Qed.
Lemma closes_quoted s : closes (quoted s).
Proof. exists (quote :: rjust 18 s), quote. split; auto. Qed.
Lemma opens_quoted s : opens (quoted s).
Proof. exists quote, (rjust 18 s ++ [quote]). split; auto. Qed.
Lemma closes_join sep l : l <> [] -> Forall closes l -> closes (join sep l).
Proof.
  intros N F. destruct (exists_last N) as (r & x & ->). apply Forall_app in F as [_ F]. apply Forall_inv in F.
  destruct r as [|y r]; [exact F|]. rewrite join_snoc by discriminate. apply closes_app. now apply closes_app.
Qed.
Lemma opens_join sep x l : opens x -> opens (join sep (x :: l)).
Proof. intros O. destruct l; auto. cbn [join]. now apply opens_app. Qed.

(** ** Quotes *)
Lemma unquote_app a b : unquote (a ++ b) = unquote a ++ unquote b.
Proof. apply filter_app. Qed.
Lemma unquote_lacks s : lacks quote s -> unquote s = s.
Proof.
  unfold unquote. induction s as [|c s IH]; auto. intros H. apply lacks_cons in H as [H1 H2]. cbn [filter].
  apply Ascii.eqb_neq in H1. rewrite H1. cbn [negb]. now rewrite IH.
Qed.
Lemma unquote_quoted s : lacks quote s -> unquote (quoted s) = rjust 18 s.
Proof.
  intros H. unfold quoted. change (quote :: rjust 18 s ++ [quote]) with ([quote] ++ rjust 18 s ++ [quote]).
  rewrite !unquote_app. change (unquote [quote]) with (@nil ascii). cbn [app]. rewrite app_nil_r.
  apply unquote_lacks. apply lacks_rjust; auto. discriminate.
Qed.
Lemma unquote_join l : unquote (join [","%char] l) = join [","%char] (map unquote l).
Proof.
  induction l as [|x l IH]; auto. destruct l as [|y l]; auto. cbn [join map]. cbn [join map] in IH.
  rewrite !unquote_app, IH. reflexivity.
Qed.
Lemma lacks_quoted d s : d <> sp -> d <> quote -> lacks d s -> lacks d (quoted s).
Proof.
  intros. unfold quoted. apply lacks_cons. split; auto. apply lacks_app. split; [now apply lacks_rjust|].
  apply lacks_cons. split; auto using lacks_nil.
Qed.
Lemma rjust_ge w s : w <= List.length (rjust w s).
Proof. unfold rjust. rewrite app_length. unfold spaces. rewrite repeat_length. lia. Qed.
Lemma plain_lacks s : plain s -> lacks nl s /\ lacks ","%char s /\ lacks quote s.
Proof. intros [_ H]. repeat split; intros c I; now apply H. Qed.

Lemma to_float_e k x : is_f64 x = true -> to_float (fmt_e k x) = Ok (rnd_e k x).
Proof. intros H. unfold to_float. now rewrite parse_fmt_e by now apply is_f64_nonneg. Qed.
Lemma strip_number x : strip (number x) = fmt_e 12 x.
Proof. apply strip_rjust, fmt_e_trimmed. Qed.
Lemma to_float_strip s : to_float s = to_float (strip s).
Proof.
  unfold to_float, parse_float. destruct (strip s) as [|c r] eqn:E.
  - reflexivity.
  - assert (T : trimmed (strip s) = true) by apply strip_trimmed.
    rewrite E in T. replace (strip (c :: r)) with (c :: r); [reflexivity|].
    symmetry. rewrite <- (app_nil_r (c :: r)) at 1. now apply (strip_around [] [] (c :: r)).
Qed.
Lemma to_float_number x : is_f64 x = true -> to_float (number x) = Ok (rnd_e 12 x).
Proof. intros. rewrite to_float_strip, strip_number. now apply to_float_e. Qed.

(** ** Tables and transposition *)
Lemma map_seq {B C} (g : nat -> C) (h : B -> C) bs : (forall j b, nth_error bs j = Some b -> g j = h b) ->
  map g (seq 0 (List.length bs)) = map h bs.
Proof.
  revert g. induction bs as [|b bs IH]; intros g H; auto. cbn [List.length seq map]. f_equal; [now apply H|].
  rewrite <- seq_shift, map_map. apply IH. intros j x E. now apply (H (S j)).
Qed.
Lemma transpose_map {A B C} (f : A -> B -> C) as_ bs : as_ <> [] ->
  transpose (map (fun a => map (f a) bs) as_) = Ok (map (fun b => map (fun a => f a b) as_) bs).
Proof.
  intros N. destruct as_ as [|a0 as_]; [congruence|]. cbn [map transpose].
  change (map (f a0) bs :: map (fun a => map (f a) bs) as_) with (map (fun a => map (f a) bs) (a0 :: as_)).
  set (l := a0 :: as_) in *. replace (forallb _ _) with true.
  - f_equal. rewrite map_length. apply map_seq. intros j b E. clear N.
    change (f a0 b :: map (fun a => f a b) as_) with (map (fun a => f a b) l). clearbody l.
    induction l as [|a l IH]; auto. cbn [map flat_map]. rewrite (map_nth_error (f a) _ _ E), IH. reflexivity.
  - symmetry. apply forallb_forall. intros q I. apply in_map_iff in I as (a & <- & _). rewrite !map_length.
    apply Nat.eqb_refl.
Qed.
Lemma rectangular_all {A} n (rows : list (list A)) : Forall (fun r => List.length r = n) rows -> rectangular rows = true.
Proof.
  unfold rectangular. destruct rows as [|r rows]; auto. intros F. apply forallb_forall. rewrite Forall_forall in F.
  intros q I. apply Nat.eqb_eq. rewrite (F q I), (F r (or_introl eq_refl)). reflexivity.
Qed.
Lemma tset_new {A} k (v : A) t : ~ In k (map fst t) -> tset k v t = t ++ [(k, v)].
Proof.
  induction t as [|[k' w] t IH]; cbn [tset map In app fst]; auto. intros N. destruct (streqb k k') eqn:E.
  - apply streqb_eq in E. exfalso. auto.
  - now rewrite IH by auto.
Qed.
Lemma to_table_nodup {A} hs (cs : list A) : NoDup hs -> List.length hs = List.length cs -> to_table hs cs = combine hs cs.
Proof.
  intros N L. unfold to_table.
  assert (G : forall hs (cs : list A) (acc : table A), NoDup (map fst acc ++ hs) -> List.length hs = List.length cs ->
     fold_left (fun acc kv => tset (fst kv) (snd kv) acc) (combine hs cs) acc = acc ++ combine hs cs).
  { clear. induction hs as [|h hs IH]; intros [|c cs] acc N L; try discriminate; cbn [combine fold_left].
    - now rewrite app_nil_r.
    - cbn [fst snd]. rewrite tset_new.
      + rewrite IH; [now rewrite <- app_assoc| |now injection L].
        rewrite map_app. cbn [map fst]. now rewrite <- app_assoc.
      + intros I. apply NoDup_remove_2 in N. apply N, in_app_iff. auto. }
  now apply (G hs cs []).
Qed.
Lemma tget_in {A} k (v : A) t : NoDup (map fst t) -> In (k, v) t -> tget k t = Some v.
Proof.
  induction t as [|[k' w] t IH]; cbn [tget map In fst]; [tauto|]. intros N I. apply NoDup_cons_iff in N as [N1 N2].
  destruct I as [[= -> ->]|I]; [now rewrite streqb_refl|]. destruct (streqb k k') eqn:E; auto.
  apply streqb_eq in E as ->. exfalso. apply N1. now apply (in_map fst) in I.
Qed.
Lemma tget_some {A} k (v : A) t : tget k t = Some v -> In (k, v) t.
Proof.
  induction t as [|[k' w] t IH]; cbn [tget In]; [discriminate|]. destruct (streqb k k') eqn:E; auto.
  apply streqb_eq in E as ->. intros [= ->]. auto.
Qed.
Lemma tget_key {A} k (t : table A) : In k (map fst t) -> exists v, tget k t = Some v.
Proof.
  induction t as [|[k' w] t IH]; cbn [tget map In fst]; [tauto|]. intros [-> | I].
  - rewrite streqb_refl. eauto.
  - destruct (streqb k k'); eauto.
Qed.
Lemma has_spec {A} k (t : table A) : has k t = true <-> In k (map fst t).
Proof.
  unfold has. split.
  - destruct (tget k t) eqn:E; [|discriminate]. intros _. apply tget_some in E. now apply (in_map fst) in E.
  - intros I. destruct (tget_key _ _ I) as (v & ->). reflexivity.
Qed.
Lemma is_xyz_in k : is_xyz k = true <-> In k [$"X"; $"Y"; $"Z"].
Proof.
  unfold is_xyz. rewrite !orb_true_iff, !streqb_eq. cbn [In]. firstorder congruence.
Qed.
Lemma columns_in {A} (t : table A) k : In k (columns t) <-> In k (map fst t).
Proof.
  unfold columns. rewrite in_app_iff, !filter_In, has_spec. split.
  - intros [[_ H]|[H _]]; auto.
  - intros H. destruct (is_xyz k) eqn:E; [left|right]; split; auto. now apply is_xyz_in.
Qed.
Lemma nodup_filter {A} (f : A -> bool) l : NoDup l -> NoDup (filter f l).
Proof.
  induction 1 as [|x l N D IH]; cbn [filter]; [constructor|]. destruct (f x); auto. constructor; auto.
  rewrite filter_In. tauto.
Qed.
Lemma nodup_app {A} (a b : list A) : NoDup a -> NoDup b -> (forall x, In x a -> ~ In x b) -> NoDup (a ++ b).
Proof.
  induction 1 as [|x a N D IH]; intros B H; cbn [app]; auto. constructor.
  - rewrite in_app_iff. intros [I|I]; auto. apply (H x); auto. now left.
  - apply IH; auto. intros y I. apply H. now right.
Qed.
Lemma columns_nodup {A} (t : table A) : NoDup (map fst t) -> NoDup (columns t).
Proof.
  intros N. unfold columns. apply nodup_app.
  - apply nodup_filter. repeat constructor; cbn; intuition discriminate.
  - now apply nodup_filter.
  - intros x I J. apply filter_In in I as [I _]. apply filter_In in J as [_ J]. apply is_xyz_in in I. now rewrite I in J.
Qed.
