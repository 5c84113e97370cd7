(** The PARAM block: what is written is what is read. *)
From Coq Require Import String Ascii ZArith QArith Bool Lia List.
From Verif Require Import Base.Str Base.Digits Base.Flt Base.QPow Base.FltRound Base.FltText Base.FltInt.
From Verif Require Import Model.Py Model.Records Model.Write Model.Read.
From Verif Require Import Spec.Fields Spec.Values Spec.Types Spec.Layouts Spec.Rocks Spec.Flac Spec.Simple Spec.Param.
From Verif Require Import Proofs.RecordLemmas Proofs.DictLemmas Proofs.Layouts Proofs.Types Proofs.BlockTools Proofs.RocksProof Proofs.FlacProof Proofs.SimpleProof.
Import ListNotations.
Local Open Scope Z_scope.

Lemma int_of_flt_of_Z z : Z.abs z < 2 ^ 53 -> int_of_flt (flt_of_Z z) = Some z.
Proof.
  intros Hz. destruct (Z.eq_dec z 0) as [->|Hz0]; [reflexivity|].
  destruct (flt_of_Z_spec z Hz Hz0) as (m & e & E & Hm & Q & _).
  rewrite E. cbn [int_of_flt].
  pose proof (frac_spec 2 m e ltac:(lia)) as F. destruct (frac 2 m e) as [a d].
  destruct F as (F1 & F2 & F3 & _). fold (qval 2 m e) in F2. rewrite Q in F2.
  assert (X : a = Z.abs z * d).
  { assert (qfrac a d == qfrac (Z.abs z) 1)%Q. { rewrite F2. unfold qfrac. change (inject_Z 1) with 1%Q. field. }
    apply (proj1 (qfrac_eq_iff _ _ _ _ F1 Z.lt_0_1)) in H. lia. }
  rewrite X, Z.div_mul by lia. destruct (Z.ltb_spec z 0); f_equal; lia.
Qed.

Lemma option_get k o : keys_unique o -> In k (dkeys d_options) -> dgetE k (dupdate d_options o) = Ok (val k o).
Proof.
  intros U H. unfold dgetE, val. rewrite dget_dupdate by auto. destruct (dget k o); auto.
  assert (E : dget k d_options = Some PNone).
  { cbn [d_options dkeys map fst In] in H. repeat (destruct H as [<-|H]; [reflexivity|]). destruct H. }
  now rewrite E.
Qed.

Definition steps_count (l : list pyval) : Z := - ((Z.of_nat (List.length l) - 1) / 8 + 1).
Definition steps_lines (l : list pyval) : list str := multi_lines (repeat (CSci 10 4) 8) l.
Definition param_1 (p : dict) : list pyval :=
  let o := options_of p in
  [val #"n_iteration" o; val #"verbosity" o; val #"n_cycle" o; val #"n_second" o; val #"n_cycle_print" o;
   PStr (map opt_text (option_vals 24 (mop_of p))); PNone; val #"temperature_dependence_gas" o;
   val #"effective_strength_vapor" o].
Definition param_2 (p : dict) : list pyval :=
  let o := options_of p in
  [val #"t_ini" o; val #"t_max" o; PInt (steps_count (steps_of p)); val #"t_step_max" o; PNone; val #"gravity" o;
   val #"t_reduce_factor" o; val #"mesh_scale_factor" o].
Definition param_3 (p : dict) : list pyval :=
  let o := options_of p in
  [val #"eps1" o; val #"eps2" o; PNone; val #"w_upstream" o; val #"w_newton" o; val #"derivative_factor" o].
Definition cond_lines (l : list pyval) : list str :=
  rec_line cols_PARAM_5 (firstn 4 l) :: (if Nat.ltb 4 (List.length l) then [rec_line cols_PARAM_5 (skipn 4 l)] else []).
Definition param_lines (p : dict) : list str :=
  rec_line cols_PARAM_1 (param_1 p) :: rec_line cols_PARAM_2 (param_2 p) ::
  steps_lines (steps_of p) ++ rec_line cols_PARAM_4 (param_3 p) :: cond_lines (conditions_of p).

Lemma chunks_count {A} n (l : list A) : (0 < n)%nat ->
  Z.of_nat (List.length (chunks n l)) = (Z.of_nat (List.length l) - 1) / Z.of_nat n + 1.
Proof.
  intros N. apply (chunks_ind n (fun l cl => Z.of_nat (List.length cl) = (Z.of_nat (List.length l) - 1) / Z.of_nat n + 1)); auto.
  - cbn [List.length]. change (Z.of_nat 0) with 0. change (0 - 1) with (-1).
    destruct (Nat.eq_dec n 1) as [->|]; [reflexivity|].
    rewrite <- (Z.div_unique (-1) (Z.of_nat n) (-1) (Z.of_nat n - 1)) by lia. lia.
  - clear l. intros l NE IH. cbn [List.length]. rewrite Nat2Z.inj_succ, IH, skipn_length.
    destruct (Nat.le_gt_cases (List.length l) n) as [L|L].
    + replace (List.length l - n)%nat with 0%nat by lia. change (Z.of_nat 0) with 0.
      assert (1 <= Z.of_nat (List.length l)) by (destruct l; [congruence|cbn [List.length]; lia]).
      rewrite (Z.div_small (Z.of_nat (List.length l) - 1)) by lia.
      assert (E : (0 - 1) / Z.of_nat n = -1).
      { destruct (Nat.eq_dec n 1) as [->|]; [reflexivity|].
        symmetry. apply (Z.div_unique (0-1) (Z.of_nat n) (-1) (Z.of_nat n - 1)); lia. }
      rewrite E. lia.
    + replace (Z.of_nat (List.length l) - 1) with ((Z.of_nat (List.length l - n) - 1) + 1 * Z.of_nat n) by lia.
      rewrite Z.div_add by lia. lia.
Qed.

Lemma steps_rec l c : steps_ok l -> In c (chunks 8 l) -> rec_ok (repeat (CSci 10 4) 8) c = true.
Proof.
  intros ([F| ->] & _) H.
  - apply nums_rec_ok. apply (chunks_forall 8 (fun v => num_fits 10 4 v = true) l); auto; lia.
  - change (chunks 8 [PNone]) with [[PNone]] in H. destruct H as [<-|[]]. reflexivity.
Qed.
Lemma steps_count_range l : steps_ok l -> -10000000 < steps_count l <= 0.
Proof.
  intros (_ & L). unfold steps_count.
  assert (0 <= (Z.of_nat (List.length l) - 1) / 8 + 1).
  { pose proof (Z.div_le_mono (-1) (Z.of_nat (List.length l) - 1) 8). change (-1 / 8) with (-1) in H. lia. }
  assert ((Z.of_nat (List.length l) - 1) / 8 + 1 < 10000000).
  { pose proof (Z.div_le_mono (Z.of_nat (List.length l) - 1) 9999998 8). change (9999998 / 8) with 1249999 in H0. lia. }
  lia.
Qed.
Lemma steps_read l rest : steps_ok l -> forall acc,
  repeat_lines (List.length (chunks 8 l))
    (fun acc line => let* data := read_record line fmt_PARAM_3 in Ok (acc ++ prune_nones_list data)) acc
    (steps_lines l ++ rest)
  = Ok (acc ++ match l with [PNone] => [] | _ => map (sci 4) l end, rest).
Proof.
  intros H acc. unfold steps_lines, multi_lines. rewrite repeat_length.
  rewrite (repeat_lines_spec _ (rec_line (repeat (CSci 10 4) 8)) (fun a c => a ++ trim (map (sci 4) c)) (chunks 8 l)).
  - do 2 f_equal. destruct H as ([F| ->] & _); [|reflexivity].
    assert (E : fold_left (fun a c => a ++ trim (map (sci 4) c)) (chunks 8 l) acc = acc ++ map (sci 4) l).
    { revert acc F. apply (chunks_ind 8 (fun l cl => forall acc, Forall (fun v => num_fits 10 4 v = true) l ->
         fold_left (fun a c => a ++ trim (map (sci 4) c)) cl acc = acc ++ map (sci 4) l)); [lia| |].
      - intros acc _. cbn. now rewrite app_nil_r.
      - intros x NE IH acc F. assert (FF := F). rewrite <- (firstn_skipn 8 x) in FF. apply Forall_app in FF as [F1 F2].
        cbn [fold_left]. rewrite IH by auto. rewrite (sci_present 10 4) by auto.
        now rewrite <- app_assoc, <- map_app, firstn_skipn. }
    rewrite E. f_equal. destruct l as [|[] [|]]; auto. inversion F. discriminate.
  - intros st c Hc. rewrite (read_record_ok fmt_PARAM_3 cols_PARAM_3 _ f_PARAM_3) by now apply (steps_rec l).
    cbn [bind]. rewrite prune_trim. unfold cols_PARAM_3. rewrite trim_rec_val, firstn_all2; auto.
    destruct H as ([F| ->] & _); [|change (chunks 8 [PNone]) with [[PNone]] in Hc; destruct Hc as [<-|[]]; simpl; lia].
    clear -Hc. revert Hc. apply (chunks_ind 8 (fun l cl => In c cl -> (List.length c <= 8)%nat)); [lia|easy|].
    intros x NE IH [<-|H]; auto. rewrite firstn_length. lia.
Qed.

Lemma cond_rec l : forallb (col_ok (CSci 20 13)) l = true -> rec_ok cols_PARAM_5 l = true.
Proof. intros H. unfold cols_PARAM_5. rewrite rec_ok_repeat. now apply forallb_firstn. Qed.

Definition param_follows (p : dict) (rest : list str) : Prop :=
  (4 < List.length (conditions_of p))%nat \/ not_numbers fmt_PARAM_5 rest.

Definition conditions_passed (n : nat) (rest rest' : list str) : Prop :=
  ((4 < n)%nat /\ rest' = rest) \/ ((n <= 4)%nat /\ passed fmt_PARAM_5 rest rest').
Lemma spaces_sub b n : forallb is_space b = true -> forallb is_space (firstn n b) = true /\ forallb is_space (skipn n b) = true.
Proof. intros H. rewrite <- (firstn_skipn n b), forallb_app in H. apply andb_true_iff in H. exact H. Qed.
Lemma spaces_conditions b : forallb is_space b = true -> read_record b fmt_PARAM_5 = Ok [PNone; PNone; PNone; PNone].
Proof.
  intros H. assert (X : forall fmt b, forallb (fun t => negb (Ascii.eqb (tok_t t) "S"%char)) fmt = true -> forallb is_space b = true ->
    read_record b fmt = Ok (map (fun _ => PNone) fmt)).
  { clear. induction fmt as [|t fmt IH]; intros b T H; auto. cbn [forallb] in T. apply andb_true_iff in T as [T1 T2].
    destruct (spaces_sub b (tok_w t) H) as [H1 H2]. cbn [map read_record]. unfold read_field.
    apply negb_true_iff in T1. rewrite T1, spaces_strip by exact H1. cbn [bind]. rewrite IH by assumption. reflexivity. }
  exact (X fmt_PARAM_5 b eq_refl H).
Qed.
Lemma cond_read l rest rest' : (List.length l <= 8)%nat -> forallb (col_ok (CSci 20 13)) l = true ->
  conditions_passed (List.length l) rest rest' ->
  (let* (line, ls) := next (cond_lines l ++ rest) in
   let* data := read_record line fmt_PARAM_5 in
   let* (line, ls') := next ls in
   let* (data, ls) :=
    (match read_record line fmt_PARAM_5 with
     | Ok more => Ok (data ++ more, ls')
     | Err ValueError => Ok (data, ls)
     | Err e => Err e
     end) in
   Ok (if existsb not_none data then [(#"initial_condition", PSeq SList (prune_nones_list data))] else [], ls))
  = Ok (match trim (map (sci 13) l) with [] => [] | t => [(#"initial_condition", PSeq SList t)] end, rest').
Proof.
  intros L F N. unfold cond_lines. cbn [app next bind].
  rewrite (read_record_ok fmt_PARAM_5 cols_PARAM_5 _ f_PARAM_5) by now apply cond_rec, forallb_firstn. cbn [bind].
  assert (X : exists data, trim data = trim (map (sci 13) l) /\
     (let* (line, ls') := next ((if Nat.ltb 4 (List.length l) then [rec_line cols_PARAM_5 (skipn 4 l)] else []) ++ rest) in
      match read_record line fmt_PARAM_5 with
      | Ok more => Ok (rec_val cols_PARAM_5 (firstn 4 l) ++ more, ls')
      | Err ValueError => Ok (rec_val cols_PARAM_5 (firstn 4 l), (if Nat.ltb 4 (List.length l) then [rec_line cols_PARAM_5 (skipn 4 l)] else []) ++ rest)
      | Err e => Err e
      end) = Ok (data, rest')).
  { destruct (Nat.ltb_spec 4 (List.length l)) as [L4|L4].
    - cbn [app next bind]. rewrite (read_record_ok fmt_PARAM_5 cols_PARAM_5 _ f_PARAM_5) by now apply cond_rec, forallb_skipn.
      destruct N as [(_ & ->)|(N & _)]; [|lia].
      eexists; split; [|reflexivity]. unfold cols_PARAM_5. rewrite !rec_val_repeat.
      rewrite firstn_firstn, Nat.min_id. rewrite !(firstn_length), Nat.min_l by lia.
      rewrite firstn_all2 with (l := skipn 4 l) by (rewrite skipn_length; lia).
      cbn [Nat.sub repeat]. rewrite app_nil_r, app_assoc, <- map_app, firstn_skipn.
      apply trim_app_none.
    - cbn [app]. destruct N as [(N & _)|(_ & [((x & r & -> & _ & R) & ->)|(b & -> & B)])]; [lia| |]; cbn [next bind].
      + rewrite R. eexists; split; [|reflexivity]. unfold cols_PARAM_5. rewrite trim_rec_val. now rewrite !firstn_all2 by (rewrite ?firstn_length; lia).
      + rewrite spaces_conditions by exact B. eexists; split; [|reflexivity]. change [PNone; PNone; PNone; PNone] with (repeat PNone 4).
        rewrite trim_app_none. unfold cols_PARAM_5. rewrite trim_rec_val. now rewrite !firstn_all2 by (rewrite ?firstn_length; lia). }
  destruct X as (data & T & X).
  destruct (next _) as [[line ls']|]; [|discriminate]. cbn [bind] in *.
  destruct (match read_record line fmt_PARAM_5 with Ok _ => _ | Err _ => _ end) as [[d r]|]; [|discriminate].
  injection X as -> ->. cbn [bind]. rewrite prune_trim, T, <- T.
  destruct (trim data) eqn:E.
  - apply trim_nil_iff in E as ->. reflexivity.
  - assert (E' : existsb not_none data = true).
    { destruct (existsb not_none data) eqn:Z; auto. apply trim_nil_iff in Z. congruence. }
    now rewrite E'.
Qed.

Lemma opt_in l k : In k l -> In k (dkeys d_options) -> In k (dkeys d_options). Proof. auto. Qed.

Lemma param_recs p : PARAM_ok p ->
  rec_ok cols_PARAM_1 (param_1 p) = true /\ rec_ok cols_PARAM_2 (param_2 p) = true /\ rec_ok cols_PARAM_4 (param_3 p) = true.
Proof.
  intros (G & U & T & GX & OX & (def & sk & GD & GI) & LI & FI & II & NN & S).
  destruct (option_raw 24 (mop_of p)) as (R1 & _); auto; [lia|].
  cbn [int_options num_options forallb fst snd] in II, NN. repeat rewrite andb_true_iff in II. repeat rewrite andb_true_iff in NN.
  unfold fits in NN.
  pose proof (steps_count_range _ S) as SC.
  unfold cols_PARAM_1, cols_PARAM_2, cols_PARAM_4, param_1, param_2, param_3. cbn zeta.
  repeat split; repeat rewrite rec_ok_cons; repeat rewrite andb_true_iff; repeat split; try tauto; try exact R1; try reflexivity.
  cbn [col_ok int_of]. rewrite andb_true_iff, Z.ltb_lt. split; [lia|reflexivity].
Qed.

Lemma PARAM_write p : PARAM_ok p -> write_param p = Ok (head ($"PARAM") :: param_lines p).
Proof.
  intros H. destruct (param_recs p H) as (R1 & R2 & R3).
  destruct H as (G & U & T & GX & OX & (def & sk & GD & GI) & LI & FI & II & NN & S).
  unfold write_param. rewrite (check_at_ok dt_PARAM kinds_PARAM _ p (options_of p) st_PARAM) by auto. cbn [bind].
  rewrite (check_at_ok dt_MOP (numbered 24) _ p (mop_of p) st_MOP) by auto using option_typed. cbn [bind].
  unfold block, get_dict. unfold dgetE at 1. rewrite G. cbn [bind as_dict].
  rewrite !(option_get _ (options_of p) U) by (cbn [d_options dkeys map fst In]; tauto). cbn [bind].
  unfold dgetE at 1. rewrite GX. cbn [bind as_dict].
  change d_extra_options with (none_dict 24). rewrite option_string_ok by auto. cbn [bind].
  fold (param_1 p). rewrite (write_record_ok fmt_PARAM_1 cols_PARAM_1 _ f_PARAM_1) by exact R1. cbn [bind].
  assert (TS : forall ts, match ts with PSeq _ l => l | v => [v] end = times_list ts) by reflexivity.
  rewrite (TS (val #"t_steps" (options_of p))). fold (steps_of p). clear TS.
  fold (steps_count (steps_of p)). fold (param_2 p).
  rewrite (write_record_ok fmt_PARAM_2 cols_PARAM_2 _ f_PARAM_2) by exact R2. cbn [bind].
  rewrite (write_multi_ok fmt_PARAM_3 cols_PARAM_3 _ f_PARAM_3) by (intros c; apply (steps_rec _ c S)). cbn [bind].
  fold (param_3 p). rewrite (write_record_ok fmt_PARAM_4 cols_PARAM_4 _ f_PARAM_4) by exact R3. cbn [bind].
  unfold dgetE at 1. rewrite GD. cbn [bind as_dict]. unfold dgetE. rewrite GI. cbn [bind py_len slice_to slice_from py_iter].
  replace (firstn (Nat.min 4 (List.length (conditions_of p))) (conditions_of p)) with (firstn 4 (conditions_of p)).
  2:{ destruct (Nat.le_gt_cases (List.length (conditions_of p)) 4) as [L|L].
      - rewrite Nat.min_r by lia. now rewrite !firstn_all2 by lia.
      - now rewrite Nat.min_l by lia. }
  rewrite (write_record_ok fmt_PARAM_5 cols_PARAM_5 _ f_PARAM_5) by now apply cond_rec, forallb_firstn. cbn [bind].
  assert (W : when (Nat.ltb 4 (List.length (conditions_of p)))
      (write_record (skipn (Nat.min 4 (List.length (conditions_of p))) (conditions_of p)) (str2format fmt_PARAM_5 []))
      = Ok (if Nat.ltb 4 (List.length (conditions_of p)) then [rec_line cols_PARAM_5 (skipn 4 (conditions_of p))] else [])).
  { unfold when. destruct (Nat.ltb_spec 4 (List.length (conditions_of p))); auto.
    rewrite Nat.min_l by lia.
    now rewrite (write_record_ok fmt_PARAM_5 cols_PARAM_5 _ f_PARAM_5) by now apply cond_rec, forallb_skipn. }
  rewrite W. cbn [bind]. unfold param_lines, cond_lines, steps_lines, cols_PARAM_3. cbn [app].
  rewrite <- !app_assoc. cbn [app]. now rewrite app_nil_r.
Qed.

Lemma PARAM_good p : PARAM_ok p -> Forall good_line (param_lines p).
Proof.
  intros H. destruct (param_recs p H) as (R1 & R2 & R3).
  destruct H as (G & U & T & GX & OX & (def & sk & GD & GI) & LI & FI & II & NN & S).
  unfold param_lines. constructor; [now apply rec_line_good|]. constructor; [now apply rec_line_good|].
  apply Forall_app. split.
  - apply Forall_forall. intros x Hx. unfold steps_lines, multi_lines in Hx. apply in_map_iff in Hx as (c & <- & Hc).
    apply rec_line_good. rewrite repeat_length in Hc. now apply (steps_rec (steps_of p)).
  - constructor; [now apply rec_line_good|]. unfold cond_lines. constructor; [now apply rec_line_good, cond_rec, forallb_firstn|].
    destruct (Nat.ltb 4 _); auto. constructor; auto. now apply rec_line_good, cond_rec, forallb_skipn.
Qed.

Lemma PARAM_read p rest rest' : PARAM_ok p -> conditions_passed (List.length (conditions_of p)) rest rest' ->
  read_param (param_lines p ++ rest) = Ok (PARAM_options p, options_back 24 (mop_of p), conditions_back p, rest').
Proof.
  intros H N. destruct (param_recs p H) as (R1 & R2 & R3).
  destruct H as (G & U & T & GX & OX & (def & sk & GD & GI) & LI & FI & II & NN & S).
  destruct (option_raw 24 (mop_of p)) as (_ & RV); auto; [lia|].
  unfold read_param, param_lines. cbn [app next bind].
  rewrite (read_record_ok fmt_PARAM_1 cols_PARAM_1 _ f_PARAM_1) by exact R1. cbn [bind].
  assert (V1 : rec_val cols_PARAM_1 (param_1 p) =
    [col_val (CInt 4) (val #"n_iteration" (options_of p)); col_val (CInt 4) (val #"verbosity" (options_of p));
     col_val (CInt 4) (val #"n_cycle" (options_of p)); col_val (CInt 4) (val #"n_second" (options_of p));
     col_val (CInt 4) (val #"n_cycle_print" (options_of p)); PStr (map opt_text (option_vals 24 (mop_of p)));
     PNone; sci 4 (val #"temperature_dependence_gas" (options_of p)); sci 4 (val #"effective_strength_vapor" (options_of p))]).
  { unfold cols_PARAM_1, param_1. cbn zeta. repeat rewrite rec_val_cons. rewrite RV. reflexivity. }
  rewrite V1. cbn [at_ nth option_digits bind]. rewrite option_digits_ok by auto.
  rewrite (read_record_ok fmt_PARAM_2 cols_PARAM_2 _ f_PARAM_2) by exact R2. cbn [bind].
  assert (V2 : rec_val cols_PARAM_2 (param_2 p) =
    [sci 4 (val #"t_ini" (options_of p)); sci 4 (val #"t_max" (options_of p));
     PFloat (flt_of_Z (steps_count (steps_of p))); sci 4 (val #"t_step_max" (options_of p)); PNone;
     sci 4 (val #"gravity" (options_of p)); sci 4 (val #"t_reduce_factor" (options_of p)); sci 4 (val #"mesh_scale_factor" (options_of p))]).
  { reflexivity. }
  rewrite V2. cbn [at_ nth]. unfold py_int.
  pose proof (steps_count_range _ S) as SC.
  rewrite int_of_flt_of_Z by (change (2 ^ 53) with 9007199254740992; lia). cbn [bind].
  assert (TS : forall rest, (if 0 <=? steps_count (steps_of p) then Ok (PInt (steps_count (steps_of p)), steps_lines (steps_of p) ++ rest)
     else
       let* (l, ls) := repeat_lines (Z.to_nat (- steps_count (steps_of p)))
         (fun acc line => let* data := read_record line fmt_PARAM_3 in
                          Ok (acc ++ prune_nones_list data)) [] (steps_lines (steps_of p) ++ rest) in
       Ok (match l with [x] => x | _ => PSeq SList l end, ls)) = Ok (steps_back (steps_of p), rest)).
  { intros r.
    assert (C : Z.to_nat (- steps_count (steps_of p)) = List.length (chunks 8 (steps_of p))).
    { unfold steps_count. pose proof (chunks_count 8 (steps_of p) ltac:(lia)) as C.
      change (Z.of_nat 8) with 8 in C. lia. }
    destruct (steps_of p) as [|a l] eqn:E.
    - reflexivity.
    - assert (C0 : steps_count (a :: l) < 0).
      { unfold steps_count. cbn [List.length]. pose proof (Z.div_pos (Z.of_nat (Datatypes.S (List.length l)) - 1) 8). lia. }
      replace (0 <=? steps_count (a :: l)) with false by (symmetry; apply Z.leb_gt; lia).
      rewrite C, steps_read by auto. cbn [bind app].
      destruct l as [|b l]; [destruct a; reflexivity|]. destruct a; reflexivity. }
  rewrite <- app_assoc. rewrite TS. cbn [bind app next].
  rewrite (read_record_ok fmt_PARAM_4 cols_PARAM_4 _ f_PARAM_4) by exact R3. cbn [bind].
  assert (V3 : rec_val cols_PARAM_4 (param_3 p) =
    [sci 4 (val #"eps1" (options_of p)); sci 4 (val #"eps2" (options_of p)); PNone;
     sci 4 (val #"w_upstream" (options_of p)); sci 4 (val #"w_newton" (options_of p)); sci 4 (val #"derivative_factor" (options_of p))])
    by reflexivity.
  rewrite V3. cbn [at_ nth].
  pose proof (cond_read (conditions_of p) rest rest' LI FI N) as CR.
  destruct (next (cond_lines (conditions_of p) ++ rest)) as [[line ls]|]; [|discriminate]. cbn [bind] in *.
  destruct (read_record line fmt_PARAM_5) as [data|]; [|discriminate]. cbn [bind] in *.
  destruct (next ls) as [[line' ls']|]; [|discriminate]. cbn [bind] in *.
  destruct (match read_record line' fmt_PARAM_5 with Ok _ => _ | Err _ => _ end) as [[d r]|]; [|discriminate].
  cbn [bind] in *. fold (conditions_back p) in CR.
  pose proof (f_equal (fun r => match r with Ok x => fst x | Err _ => [] end) CR) as C1.
  pose proof (f_equal (fun r => match r with Ok x => snd x | Err _ => [] end) CR) as C2.
  cbn [fst snd] in C1, C2. rewrite C1, C2. clear C1 C2 CR.
  unfold PARAM_options. cbn zeta. rewrite !known_prune.
  rewrite (known_some (options_back 24 (mop_of p))).
  - clear. repeat match goal with |- context [sci 4 ?v] => generalize (sci 4 v); intro end.
    repeat match goal with |- context [col_val (CInt 4) ?v] => generalize (col_val (CInt 4) v); intro end.
    generalize (steps_back (steps_of p)). intro. reflexivity.
  - unfold options_back. generalize (map (fun i => (KI i, col_val (CInt 1) (val (KI i) (mop_of p)))) (option_nums 24)).
    clear. induction l as [|[k v] l IH]; auto. cbn [known]. destruct (is_none v) eqn:E; auto. cbn [forallb snd].
    unfold not_none. now rewrite E.
Qed.

Lemma conditions_unique p : keys_unique (conditions_back p).
Proof. unfold conditions_back. destruct (trim _); unfold keys_unique; cbn; repeat constructor. auto. Qed.

Lemma PARAM_passed p ll q rest rest' : PARAM_ok p -> default_readable q -> conditions_passed (List.length (conditions_of p)) rest rest' ->
  read_block ll (head ($"PARAM")) q (param_lines p ++ rest) = Ok (true, PARAM_upd p q, rest').
Proof.
  intros H D N. at_block. rewrite (PARAM_read p rest rest') by auto. cbn [bind].
  assert (D' : default_readable (dset #"extra_options" (PDict (options_back 24 (mop_of p)))
             (dset #"options" (PDict (PARAM_options p)) q))).
  { unfold default_readable. rewrite !dget_dset_other by discriminate. exact D. }
  rewrite update_default_ok by auto using conditions_unique. reflexivity.
Qed.
Lemma PARAM_block p : PARAM_ok p ->
  write_param p = Ok (head ($"PARAM") :: param_lines p) /\ Forall good_line (param_lines p) /\
  reads_if (fun _ q rest => default_readable q /\ param_follows p rest) (head ($"PARAM")) (param_lines p) (PARAM_upd p).
Proof.
  intros H. split; [now apply PARAM_write|]. split; [now apply PARAM_good|].
  intros ll q rest (D & N). apply PARAM_passed; auto. unfold conditions_passed. destruct N as [N|N]; [now left|].
  destruct (Nat.le_gt_cases (List.length (conditions_of p)) 4) as [L|L]; [right|left]; auto. split; auto. left. auto.
Qed.
Lemma PARAM_next p : PARAM_ok p ->
  exists body, write_param p = Ok (head ($"PARAM") :: body) /\ Forall good_line body /\
    forall ll q rest, default_readable q ->
      ((4 < List.length (conditions_of p))%nat \/ block_follows head head_noend rest) ->
      read_block ll (head ($"PARAM")) q (body ++ rest) = Ok (true, PARAM_upd p q, rest).
Proof.
  intros H. destruct (PARAM_block p H) as (W & G & R). eexists. split; [exact W|]. split; [exact G|].
  intros ll q rest D N. apply R. split; auto. destruct N as [N|N]; [now left|right].
  apply header_not_numbers; [right; now left|exact N].
Qed.
