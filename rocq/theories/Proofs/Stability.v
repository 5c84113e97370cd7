(** Reading a record and writing it again. *)
From Coq Require Import String Ascii ZArith QArith Qabs Bool Lia List.
From Verif Require Import Base.Str Base.Digits Base.Flt Base.QPow Base.FltRound Base.FltText Base.FltInt
  Model.Py Model.Records Spec.Fields Proofs.RecordLemmas.
Import ListNotations.
Local Open Scope Z_scope.

Lemma ljust_ljust w s : ljust w (ljust w s) = ljust w s.
Proof.
  unfold ljust at 1. rewrite ljust_length.
  replace (w - _)%nat with 0%nat by lia. apply app_nil_r.
Qed.
Lemma ljust_app_spaces n s m : (List.length s + m <= n)%nat -> ljust n (s ++ spaces m) = ljust n s.
Proof.
  intros. unfold ljust, spaces. rewrite app_length, repeat_length, <- app_assoc, <- repeat_app.
  do 2 f_equal. lia.
Qed.

Lemma rnd_e_nonfinite k x : is_finite x = false -> rnd_e k x = x.
Proof. now destruct x. Qed.

Lemma fmt_num_sci w k x : fmt_num (Spec true w (Some k) (Some "e"%char)) x = Ok (rjust w (fmt_e k x)).
Proof. reflexivity. Qed.

Lemma to_str_sci_num w k v x : num_of v = Some x -> col_ok (CSci w k) v = true ->
  to_str v (spec_of (col_tok (CSci w k))) = Ok (rjust w (fmt_e k x)).
Proof.
  rewrite spec_sci. intros E H. unfold num_of in E.
  destruct v; cbn [int_of] in E; try discriminate; injection E as <-;
    cbv [to_str py_format fmt_int sp_t]; try reflexivity;
    cbn [col_ok absent orb int_of] in H; apply andb_true_iff in H as [H _];
    match goal with |- context [flt_of_Z ?z] => destruct (flt_of_Z z); try discriminate end; reflexivity.
Qed.

Lemma to_str_none c : match c with CRaw _ | CFix _ => False | _ => True end ->
  to_str PNone (spec_of (col_tok c)) = Ok (spaces (col_width c)).
Proof.
  assert (F : forall n, firstn n (@nil ascii) = []) by (intros; apply firstn_nil).
  destruct c as [w|w|w|w|w k|w]; intros X; try tauto; cbn [col_width].
  - rewrite spec_text. cbv [to_str no_ge py_format sp_t sp_right sp_w sp_p trunc].
    rewrite F. unfold ljust. cbn [List.length app]. now rewrite Nat.sub_0_r.
  - change (Ok (ljust w (firstn w [])) = Ok (spaces w)).
    rewrite F. unfold ljust. cbn [List.length app]. now rewrite Nat.sub_0_r.
  - rewrite spec_int. cbv [to_str no_ge sp_t]. change (Ascii.eqb "g" "g") with true.
    cbv [orb py_format sp_t sp_right sp_w sp_p trunc].
    unfold rjust. cbn [List.length app]. now rewrite app_nil_r, Nat.sub_0_r.
  - rewrite spec_sci. cbv [to_str no_ge sp_t]. change (Ascii.eqb "e" "g" || Ascii.eqb "e" "e") with true.
    cbv [orb py_format sp_t sp_right sp_w sp_p trunc].
    rewrite F. unfold rjust. cbn [List.length app]. now rewrite app_nil_r, Nat.sub_0_r.
Qed.

Lemma num_of_absent v : absent v = true -> num_of v = None /\ int_of v = None.
Proof. destruct v as [| | | | |[|]| |]; auto; discriminate. Qed.

Lemma to_str_absent c v : absent v = true -> match c with CRaw _ | CFix _ => False | _ => True end ->
  to_str v (spec_of (col_tok c)) = Ok (spaces (col_width c)).
Proof.
  intros A X. rewrite <- (to_str_none c X). destruct v as [| | | | |[|]| |]; auto; discriminate.
Qed.

Lemma col_stable_str c v : col_ok c v = true -> col_stable c v = true ->
  to_str (col_val c v) (spec_of (col_tok c)) = to_str v (spec_of (col_tok c)).
Proof.
  intros H S. destruct c as [w|w|w|w|w k|w]; cbn [col_val].
  - destruct (absent v) eqn:A; auto. rewrite !to_str_absent; auto.
  - cbn [col_stable] in S. rewrite (to_str_absent _ v) by (auto; exact I).
    destruct v as [| | | | |[|]| |]; try discriminate; now rewrite to_str_none.
  - destruct v; try discriminate. rewrite spec_raw.
    cbv [to_str no_ge py_format sp_t sp_right sp_w sp_p trunc].
    cbn [col_ok] in H. rewrite !andb_true_iff, Nat.leb_le in H. destruct H as [[H _] _].
    rewrite !firstn_all_le; auto. now rewrite ljust_ljust. now rewrite ljust_len.
  - destruct (absent v) eqn:A.
    + destruct (num_of_absent v A) as [_ ->]. now rewrite (to_str_absent _ v), to_str_none.
    + cbn [col_ok] in H. rewrite A in H. destruct v; try discriminate; reflexivity.
  - destruct (absent v) eqn:A.
    + destruct (num_of_absent v A) as [-> _]. now rewrite (to_str_absent _ v), to_str_none.
    + cbn [col_stable] in S. apply andb_true_iff in S as [K S]. apply Nat.leb_le in K.
      destruct (num_of v) as [x|] eqn:E.
      * rewrite (to_str_sci_num _ _ _ x E H). rewrite spec_sci. cbv [to_str py_format].
        rewrite fmt_num_sci. apply orb_true_iff in S as [S|S].
        -- now rewrite fmt_e_rnd_e.
        -- rewrite rnd_e_nonfinite; auto. now apply negb_true_iff.
      * exfalso. cbn [col_ok] in H. rewrite A in H. unfold num_of in E.
        destruct v; try discriminate.
  - cbn [col_ok] in H. unfold num_of.
    destruct v; try discriminate H; cbn [int_of] in *; rewrite spec_fix; apply andb_true_iff in H as [H _];
      apply Z.ltb_lt in H; cbv [to_str py_format fmt_int sp_t];
      match goal with |- context [flt_of_Z ?z] =>
        destruct (is_f64_flt_of_Z_small z) as (s & m & e & E); [change (2^53) with 9007199254740992; lia|rewrite E; reflexivity] end.
Qed.

Lemma rec_val_absent cs : rec_ok cs [] = true ->
  mapM (fun p => to_str (fst p) (snd p)) (combine (rec_val cs []) (map (fun c => spec_of (col_tok c)) cs))
  = Ok (map (fun c => spaces (col_width c)) cs).
Proof.
  induction cs as [|c cs IH]; intros H; auto.
  assert (X : match c with CRaw _ | CFix _ => False | _ => True end) by (destruct c; auto; discriminate).
  cbn [map combine]. replace (rec_val (c :: cs) []) with (PNone :: rec_val cs []) by now destruct c.
  cbn [combine mapM fst snd]. rewrite to_str_none by auto. cbn [bind].
  rewrite IH by now apply rec_ok_cons_nil in H. reflexivity.
Qed.

Lemma concat_spaces cs : concat (map (fun c => spaces (col_width c)) cs) = spaces (rec_width cs).
Proof.
  unfold rec_width. induction cs as [|c cs IH]; auto. cbn [map concat fold_right].
  rewrite IH. unfold spaces. now rewrite <- repeat_app.
Qed.

Lemma rec_stable_text cs vs : rec_ok cs vs = true -> rec_stable cs vs = true ->
  exists cols n, mapM (fun p => to_str (fst p) (snd p)) (combine (rec_val cs vs) (map (fun c => spec_of (col_tok c)) cs))
    = Ok cols /\ concat cols = cols_text cs vs ++ spaces n /\ (List.length (cols_text cs vs) + n <= rec_width cs)%nat.
Proof.
  revert vs. induction cs as [|c cs IH]; intros [|v vs] H S.
  - exists [], 0%nat. simpl. auto.
  - exists [], 0%nat. simpl. auto.
  - exists (map (fun c => spaces (col_width c)) (c :: cs)), (rec_width (c :: cs)).
    split; [now apply rec_val_absent|]. split; [rewrite concat_spaces; reflexivity|simpl; lia].
  - rewrite rec_ok_cons in H. apply andb_true_iff in H as [H1 H2].
    cbn [rec_stable] in S. apply andb_true_iff in S as [S1 S2].
    destruct (IH vs H2 S2) as (cols & n & E & C & L).
    exists (col_text c v :: cols), n.
    destruct (col_text_ok c v H1) as (T & TL & _).
    split; [|split].
    + rewrite rec_val_cons. cbn [map combine mapM fst snd].
      rewrite col_stable_str, T by auto. cbn [bind]. now rewrite E.
    + cbn [concat cols_text]. now rewrite C, app_assoc.
    + cbn [cols_text]. rewrite app_length, TL. unfold rec_width in *. simpl. lia.
Qed.

Lemma write_read_write cs vs : rec_ok cs vs = true -> rec_stable cs vs = true -> (rec_width cs <= 80)%nat ->
  write_record (rec_val cs vs) (specs cs) = Ok [rec_line cs vs].
Proof.
  intros H S W. unfold write_record, specs, toks. rewrite str2format_nil, map_map.
  destruct (rec_stable_text cs vs H S) as (cols & n & E & C & L).
  rewrite E. cbn [bind]. rewrite C. unfold rec_line, record80. rewrite ljust_app_spaces; auto. lia.
Qed.

(** Accuracy. *)
Local Open Scope Q_scope.
Lemma rnd_e_acc k x : (k <= 13)%nat -> flt_rng x = true ->
  exists y, rnd_e k x = y /\ is_f64 y = true /\
    match x, y with Fin s m _, Fin s' m' _ => s = s' /\ (m = 0 <-> m' = 0)%Z | _, _ => False end /\
    Qabs (fval x - fval y) <= Qabs (fval x) * (qpow 10 (- Z.of_nat k) * (Qmake 1 2) + qpow 2 (-52)).
Proof.
  intros K R. exists (rnd_e k x). split; auto. split; [now apply rnd_e_f64|].
  destruct x as [s m e|s|]; try discriminate.
  destruct (Z.eq_dec m 0) as [->|Hm].
  - cbn [rnd_e]. change ((0 =? 0)%Z) with true. cbv iota. unfold fzero. split; [split; tauto|].
    assert (Z0 : forall t f, fval (Fin t 0 f) == 0).
    { intros t f. unfold fval, qval. generalize (qpow 2 f). intros q.
      change (inject_Z 0) with 0. destruct t; ring. }
    rewrite !Z0. generalize (qpow 10 (- Z.of_nat k) * Qmake 1 2 + qpow 2 (-52)). intros q.
    change (Qabs 0) with 0. setoid_replace (0 * q) with 0 by ring. apply Qle_refl.
  - destruct (rnd_e_spec k s m e K R Hm) as (m' & e' & E & P & F & _).
    destruct (rnd_e_accuracy k s m e K R Hm) as (m2 & e2 & E2 & A).
    rewrite E in *. injection E2 as -> ->. split; [split; auto; lia|].
    destruct (flt_rng_dec s m e R Hm) as (_ & Pm & _).
    assert (P0 : 0 <= qval 2 m e).
    { unfold qval. apply Qmult_le_0_compat.
      - change 0 with (inject_Z 0). rewrite <- Zle_Qle. lia.
      - apply Qlt_le_weak. apply qpow_pos. lia. }
    unfold fval. destruct s.
    + setoid_replace (- qval 2 m e - - qval 2 m2 e2) with (- (qval 2 m e - qval 2 m2 e2)) by ring.
      rewrite !Qabs_opp. rewrite (Qabs_pos (qval 2 m e)) by auto. exact A.
    + rewrite (Qabs_pos (qval 2 m e)) by auto. exact A.
Qed.
Local Close Scope Q_scope.

(** Which numbers fit. *)
Definition negative (x : flt) : bool := match x with Fin s _ _ => s | Inf s => s | NaN => false end.
Lemma fits_iff w k x : (1 <= k)%nat -> flt_rng x = true ->
  (sci_fits w k x = true <-> ((if negative x then 1 else 0) + k + 6 <= w)%nat).
Proof.
  intros K R. unfold sci_fits. rewrite andb_true_iff, Nat.leb_le, fmt_e_length by auto.
  assert (is_f64 x = true) by (destruct x; [unfold flt_rng in R; apply andb_true_iff in R; tauto|auto|auto]).
  destruct x as [[|] m e|s|]; try discriminate; cbn [negative]; intuition.
Qed.

(** Any number of read/write cycles of a line. *)
Fixpoint cycles (n : nat) (fmt : list token) (line : str) : res str :=
  match n with
  | O => Ok line
  | S n => let* vs := read_record line fmt in
           let* recs := write_record vs (str2format fmt []) in
           match recs with [l] => cycles n fmt l | _ => Err Unmodelled end
  end.
Lemma cycles_ok n cs vs : rec_ok cs vs = true -> rec_stable cs vs = true -> (rec_width cs <= 80)%nat ->
  write_record vs (specs cs) = Ok [rec_line cs vs] /\ cycles n (toks cs) (rec_line cs vs) = Ok (rec_line cs vs).
Proof.
  intros H S W. split; [now apply write_record_cols|].
  induction n as [|n IH]; auto. cbn [cycles].
  rewrite read_record_cols by auto. cbn [bind].
  fold (specs cs). rewrite write_read_write by auto. cbn [bind]. exact IH.
Qed.

Lemma nth_rec_val cs vs i c v : nth_error cs i = Some c -> nth_error vs i = Some v ->
  nth_error (rec_val cs vs) i = Some (col_val c v).
Proof.
  revert vs i. induction cs as [|c' cs IH]; intros [|v' vs] [|i] H1 H2; try discriminate.
  - injection H1 as ->. injection H2 as ->. now rewrite rec_val_cons.
  - rewrite rec_val_cons. cbn [nth_error] in *. now apply IH.
Qed.

Lemma record_accuracy cs vs i w k v x :
  rec_ok cs vs = true -> nth_error cs i = Some (CSci w k) -> nth_error vs i = Some v ->
  num_of v = Some x -> (k <= 13)%nat -> flt_rng x = true ->
  exists line back y, write_record vs (specs cs) = Ok [line] /\ read_record line (toks cs) = Ok back /\
    nth_error back i = Some (PFloat y) /\ is_f64 y = true /\
    match x, y with Fin s m _, Fin s' m' _ => s = s' /\ (m = 0 <-> m' = 0) | _, _ => False end /\
    (Qabs (fval x - fval y) <= Qabs (fval x) * (qpow 10 (- Z.of_nat k) * Qmake 1 2 + qpow 2 (-52)))%Q.
Proof.
  intros H C V N K R. destruct (rnd_e_acc k x K R) as (y & E & F & S & A).
  exists (rec_line cs vs), (rec_val cs vs), y.
  split; [now apply write_record_cols|]. split; [now apply read_record_cols|].
  split; [|auto]. rewrite (nth_rec_val _ _ _ _ _ C V). cbn [col_val]. now rewrite N, E.
Qed.
