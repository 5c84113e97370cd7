(** The OUTPU block. *)
From Coq Require Import String Ascii ZArith Bool Lia List.
From Verif Require Import Base.Str Base.Digits Base.Flt Base.FltText.
From Verif Require Import Model.Py Model.Records Model.Write Model.Read.
From Verif Require Import Spec.Fields Spec.Values Spec.Types Spec.Layouts Spec.Rocks Spec.Simple Spec.Outpu.
From Verif Require Import Proofs.RecordLemmas Proofs.DictLemmas Proofs.Layouts Proofs.Types Proofs.BlockTools Proofs.RocksProof Proofs.SimpleProof Proofs.IndomProof.
Import ListNotations.
Local Open Scope Z_scope.

Lemma lower_upper s : lower (upper s) = lower s.
Proof.
  unfold lower, upper. rewrite map_map. apply map_ext.
  intros [[] [] [] [] [] [] [] []]; reflexivity.
Qed.

Definition row_rec (s : str) (r : list pyval) : str := rec_line cols_OUTPU_3 (PStr (upper s) :: r).
Definition var_name (k : key) : str := match k with KS s => s | _ => [] end.
Definition var_lines (kv : key * pyval) : list str := map (row_rec (var_name (fst kv))) (index_rows (snd kv)).

Lemma row_rec_ok s r : name_ok 20 (upper s) = true -> indices_ok r = true -> rec_ok cols_OUTPU_3 (PStr (upper s) :: r) = true.
Proof.
  intros N R. apply name_ok_spec in N as (_ & _ & N). unfold cols_OUTPU_3. rewrite rec_ok_cons, N. cbn [andb].
  unfold indices_ok in R. destruct r as [|a [|b r]]; [reflexivity| |]; cbn [forallb] in R.
  - rewrite andb_true_r in R. rewrite rec_ok_cons, R. reflexivity.
  - apply andb_true_iff in R as [Ra R]. apply andb_true_iff in R as [Rb _].
    rewrite !rec_ok_cons, Ra, Rb. reflexivity.
Qed.

Lemma index_scalar v : col_ok (CInt 5) v = true -> scalar v.
Proof. destruct v; simpl; auto. discriminate. Qed.
Lemma indices_scalar l : indices_ok l = true -> Forall scalar l.
Proof. unfold indices_ok. rewrite forallb_forall, Forall_forall. intros H x Hx. now apply index_scalar, H. Qed.

Lemma write_variable_ok s v : name_ok 20 (upper s) = true -> variable_ok v ->
  write_variable (KS s, v) = Ok (map (row_rec s) (index_rows v), List.length (index_rows v)).
Proof.
  intros N [R V]. unfold write_variable, key_upper, py_ndim. cbv zeta. cbn [fst snd bind].
  assert (W : forall r, indices_ok r = true -> write_record (PStr (upper s) :: r) (str2format fmt_OUTPU_3 []) = Ok [row_rec s r]).
  { intros r Hr. now rewrite (write_record_ok fmt_OUTPU_3 cols_OUTPU_3 _ f_OUTPU_3) by now apply row_rec_ok. }
  destruct v as [| | | | | |k l|]; try contradiction;
    try (cbn [py_shape bind List.length]; rewrite W by (exact (Forall_inv R)); reflexivity).
  assert (FL : l <> [] -> Forall scalar l -> indices_ok l = true ->
    (let* nd := (let* s0 := py_shape (PSeq k l) in Ok (List.length s0)) in
     match nd with
     | O => let* r := write_record [PStr (upper s); PSeq k l] (str2format fmt_OUTPU_3 []) in Ok (r, 1%nat)
     | _ =>
      let* v0 := index (PSeq k l) 0 in
      let* nd0 := (let* s0 := py_shape v0 in Ok (List.length s0)) in
      match nd0 with
      | O => let* l := py_iter (PSeq k l) in
             let* r := write_record (PStr (upper s) :: l) (str2format fmt_OUTPU_3 []) in Ok (r, 1%nat)
      | _ => let* l := py_iter (PSeq k l) in
             let* r := concatM (fun vv => let* x := py_iter vv in
                                          write_record (PStr (upper s) :: x) (str2format fmt_OUTPU_3 [])) l in
             Ok (r, List.length l)
      end end) = Ok ([row_rec s l], 1%nat)).
  { intros E F R'. rewrite flat_shape by auto. destruct l as [|x l]; [congruence|]. cbn [bind List.length index nth_error].
    rewrite scalar_shape by now inversion F. cbn [bind List.length py_iter]. now rewrite W. }
  destruct l as [|[| | | | | |k' x|] l]; try congruence;
    try (pose proof (Forall_inv R : indices_ok (_ :: l) = true) as R1; exact (FL V (indices_scalar _ R1) R1)).
  cbn [index_rows] in *. clear FL.
  assert (S : py_shape (PSeq k (PSeq k' x :: l)) = Ok [List.length (PSeq k' x :: l); List.length x]).
  { rewrite shape_seq. rewrite (shape_go_same _ [List.length x]); [reflexivity|congruence|].
    intros y Hy. cbn [map] in R. apply Forall_cons_iff in R as [R1 R2].
    destruct Hy as [<-|Hy]; [apply flat_shape; now apply indices_scalar|].
    rewrite Forall_forall in V. destruct (V y Hy) as [V1 V2]. destruct y as [| | | | | |k2 y|]; try discriminate.
    cbn [items] in V2. rewrite <- V2. apply flat_shape, indices_scalar.
    rewrite Forall_forall in R2. apply R2. change y with (items (PSeq k2 y)). now apply in_map. }
  rewrite S. cbn [bind List.length index nth_error].
  assert (S' : py_shape (PSeq k' x) = Ok [List.length x]).
  { apply flat_shape, indices_scalar. now inversion R. }
  rewrite S'. cbn [bind List.length py_iter].
  rewrite (concatM_ok _ (fun y => [row_rec s (items y)])).
  - cbn [bind]. rewrite map_length. f_equal. f_equal.
    generalize (PSeq k' x :: l). clear. induction l as [|y l IH]; auto. cbn [map concat app]. now rewrite IH.
  - intros y Hy. assert (Q : is_seq y = true).
    { destruct Hy as [<-|Hy]; auto. rewrite Forall_forall in V. now apply V. }
    destruct y as [| | | | | |k2 y|]; try discriminate. cbn [py_iter bind items]. apply W.
    rewrite Forall_forall in R. apply R. change y with (items (PSeq k2 y)). now apply in_map.
Qed.

(** Reading the rows of the variables. *)
Definition row_tmp (r : list pyval) : pyval := PSeq SList (indices_back r).
Lemma read_row st s r : name_ok 20 (upper s) = true -> indices_ok r = true ->
  read_variable st (row_rec s r) =
  match dget (KS (lower s)) (fst st) with
  | None => Ok (dset (KS (lower s)) (PInt 1) (fst st), dset (KS (lower s)) (row_tmp r) (snd st))
  | Some (PInt c) =>
      let* old := dgetE (KS (lower s)) (snd st) in
      let* new := (if c =? 1 then Ok (PSeq SList [old; row_tmp r])
                   else match old with
                        | PSeq k l => Ok (PSeq k (l ++ [row_tmp r]))
                        | _ => Err Unmodelled
                        end) in
      Ok (dset (KS (lower s)) (PInt (c + 1)) (fst st), dset (KS (lower s)) new (snd st))
  | Some _ => Err Unmodelled
  end.
Proof.
  intros N R. unfold read_variable, row_rec.
  rewrite (read_record_ok fmt_OUTPU_3 cols_OUTPU_3 _ f_OUTPU_3) by now apply row_rec_ok. cbn [bind].
  unfold cols_OUTPU_3. rewrite rec_val_cons. cbn [at_ nth skipn].
  replace (col_val (CText 20) (PStr (upper s))) with (PStr (upper s)).
  2:{ apply name_ok_spec in N as (N & _). destruct (upper s); [discriminate|reflexivity]. }
  rewrite lower_upper.
  replace (prune_nones_list (rec_val [CInt 5; CInt 5] r)) with (indices_back r); [reflexivity|].
  rewrite prune_trim. unfold indices_back. destruct r as [|a [|b r]]; [reflexivity| |reflexivity].
  unfold rec_val. cbn [map firstn]. symmetry. apply (trim_app_none [col_val (CInt 5) a] 1).
Qed.

Definition collect (rows : list (list pyval)) : pyval :=
  match rows with
  | [r] => row_tmp r
  | rs => PSeq SList (map row_tmp rs)
  end.

Lemma fold_rows s rows : name_ok 20 (upper s) = true -> forall done N V rest,
  done <> [] -> Forall (fun r => indices_ok r = true) rows ->
  dget (KS (lower s)) N = None -> dget (KS (lower s)) V = None ->
  repeat_lines (List.length rows) read_variable
    (N ++ [(KS (lower s), PInt (Z.of_nat (List.length done)))], V ++ [(KS (lower s), collect done)])
    (map (row_rec s) rows ++ rest)
  = Ok ((N ++ [(KS (lower s), PInt (Z.of_nat (List.length (done ++ rows))))], V ++ [(KS (lower s), collect (done ++ rows))]), rest).
Proof.
  intros NM. induction rows as [|r rows IH]; intros done N V rest D F GN GV.
  - now rewrite app_nil_r.
  - apply Forall_cons_iff in F as [F1 F2]. cbn [List.length repeat_lines map app next bind].
    rewrite read_row by auto. cbn [fst snd].
    assert (X : forall (d : dict) v, dget (KS (lower s)) d = None -> dget (KS (lower s)) (d ++ [(KS (lower s), v)]) = Some v).
    { intros d v G. rewrite dget_app, G. cbn [dget]. now rewrite key_eqb_refl. }
    assert (Y : forall (d : dict) v w, dget (KS (lower s)) d = None ->
      dset (KS (lower s)) w (d ++ [(KS (lower s), v)]) = d ++ [(KS (lower s), w)]).
    { intros d v w. induction d as [|[a b] d IHd]; intros G; cbn [app dset].
      - now rewrite key_eqb_refl.
      - cbn [dget] in G. rewrite key_eqb_sym. destruct (key_eqb (KS (lower s)) a) eqn:E; [discriminate|]. rewrite key_eqb_sym, E. now rewrite IHd. }
    rewrite X by auto. unfold dgetE. rewrite X by auto. cbn [bind].
    assert (Z1 : (if Z.of_nat (List.length done) =? 1 then Ok (PSeq SList [collect done; row_tmp r])
       else match collect done with PSeq k l => Ok (PSeq k (l ++ [row_tmp r])) | _ => Err Unmodelled end)
       = Ok (collect (done ++ [r]))).
    { destruct done as [|d0 [|d1 done]]; [congruence|reflexivity|].
      replace (Z.of_nat (List.length (d0 :: d1 :: done)) =? 1) with false.
      2:{ symmetry. apply Z.eqb_neq. cbn [List.length]. lia. }
      cbn [collect app]. now rewrite !map_cons, !map_app. }
    rewrite Z1. cbn [bind]. rewrite !Y by auto.
    specialize (IH (done ++ [r]) N V rest). rewrite <- app_assoc in IH. cbn [app] in IH.
    rewrite app_length in IH at 1. cbn [List.length] in IH.
    replace (Z.of_nat (List.length done) + 1) with (Z.of_nat (List.length done + 1)) by lia.
    apply IH; auto. destruct done; discriminate.
Qed.

Lemma index_rows_nonempty v : index_rows v <> [].
Proof. destruct v as [| | | | | |k [|[] l]|]; simpl; discriminate. Qed.

Lemma repeat_lines_app {St} n m (step : St -> str -> res St) st ls st' ls' :
  repeat_lines n step st ls = Ok (st', ls') -> repeat_lines (n + m) step st ls = repeat_lines m step st' ls'.
Proof.
  revert st ls. induction n as [|n IH]; intros st ls E; cbn [Nat.add repeat_lines] in *.
  - now injection E as -> ->.
  - destruct (next ls) as [[l t]|]; [|discriminate]. cbn [bind] in *.
    destruct (step st l); [|discriminate]. cbn [bind] in *. now apply IH.
Qed.

Definition vars_names (vars : dict) : dict :=
  map (fun kv => (key_lower (fst kv), PInt (Z.of_nat (List.length (index_rows (snd kv)))))) vars.
Definition vars_rows (vars : dict) : dict :=
  map (fun kv => (key_lower (fst kv), collect (index_rows (snd kv)))) vars.
Definition count_rows (vars : dict) : nat :=
  fold_right Nat.add 0%nat (map (fun kv => List.length (index_rows (snd kv))) vars).

Lemma read_variables vars : forall N V rest,
  Forall (fun kv => exists s, fst kv = KS s /\ name_ok 20 (upper s) = true /\ variable_ok (snd kv)) vars ->
  NoDup (map key_lower (dkeys vars)) ->
  (forall k, In k (map key_lower (dkeys vars)) -> dget k N = None /\ dget k V = None) ->
  repeat_lines (count_rows vars) read_variable (N, V) (concat (map var_lines vars) ++ rest)
  = Ok ((N ++ vars_names vars, V ++ vars_rows vars), rest).
Proof.
  induction vars as [|[k v] vars IH]; intros N V rest F D G.
  - cbn. now rewrite !app_nil_r.
  - apply Forall_cons_iff in F as [(s & E & NM & VO) F]. cbn [fst snd] in *. subst k.
    cbn [dkeys map fst key_lower] in D, G. apply NoDup_cons_iff in D as [D1 D2].
    destruct (G (KS (lower s)) (or_introl eq_refl)) as [GN GV].
    cbn [map concat count_rows fold_right]. rewrite <- app_assoc. unfold var_lines at 1. cbn [fst snd var_name].
    pose proof VO as [VR _].
    destruct (index_rows v) as [|r rows] eqn:ER; [now apply index_rows_nonempty in ER|].
    apply Forall_cons_iff in VR as [R1 R2].
    rewrite (repeat_lines_app _ _ _ _ _ (N ++ [(KS (lower s), PInt (Z.of_nat (List.length (r :: rows))))], V ++ [(KS (lower s), collect (r :: rows))]) (concat (map var_lines vars) ++ rest)).
    + fold (count_rows vars). rewrite IH; auto.
      * cbn [vars_names vars_rows map fst snd key_lower]. rewrite ER, <- !app_assoc. reflexivity.
      * intros k Hk. rewrite !dget_app. destruct (G k (or_intror Hk)) as [-> ->]. cbn [dget].
        assert (X : key_eqb k (KS (lower s)) = false).
        { apply key_eqb_neq. intros ->. contradiction. }
        now rewrite X.
    + cbn [List.length repeat_lines map app next bind]. rewrite read_row by auto. cbn [fst snd]. rewrite GN. cbn [bind].
      rewrite (dset_fresh _ _ N), (dset_fresh _ _ V) by auto.
      apply (fold_rows s rows NM [r] N V); auto. discriminate.
Qed.

Lemma tidy_collect v : tidy_variable (collect (index_rows v)) = variable_back v.
Proof.
  unfold variable_back. destruct (index_rows v) as [|r [|r2 rows]] eqn:E; [now apply index_rows_nonempty in E| |].
  - cbn [collect map]. unfold row_tmp, tidy_variable. now destruct (indices_back r) as [|a [|b l]].
  - cbn [collect map]. unfold tidy_variable. cbn [map]. unfold row_tmp. rewrite map_map.
    now destruct (indices_back r) as [|? [|? ?]].
Qed.

Lemma digits_all z : 0 <= z -> all_digits (print_Z z) = true.
Proof.
  intros H. unfold all_digits. pose proof (print_Z_nonempty z) as N.
  assert (D : forallb is_digit (print_Z z) = true).
  { unfold print_Z. destruct (z <? 0) eqn:E; [apply Z.ltb_lt in E; lia|]. apply zpad_digits. }
  rewrite D, andb_true_r. destruct (print_Z z); [congruence|reflexivity].
Qed.

Definition format_lines (v : pyval) : list str :=
  match v with
  | PStr (c :: s) => [rec_line cols_OUTPU_1 [PStr (upper (c :: s))]]
  | _ => []
  end.
Definition count_text (p : dict) : str := print_Z (Z.of_nat (n_variables p)).
Definition OUTPU_body (p : dict) : list str :=
  format_lines (val #"format" (output_of p)) ++ rec_line cols_OUTPU_2 [PStr (count_text p)]
  :: concat (map var_lines (variables_of p)).

Lemma strip_head w s : name_ok w s = true -> (w <= 79)%nat -> strip (rec_line [CText w] [PStr s]) = s.
Proof.
  intros N W. unfold name_ok in N. rewrite !andb_true_iff, Nat.leb_le in N. destruct N as (((NE & T) & L) & OL).
  unfold rec_line, record80. cbn [cols_text]. unfold col_text. rewrite spec_text.
  cbv [to_str no_ge py_format sp_t sp_right sp_w sp_p trunc]. rewrite (firstn_all_le w s) by auto. rewrite app_nil_r.
  unfold ljust. rewrite <- !app_assoc. 
  assert (X : forall t, forallb is_space t = true -> strip (s ++ t) = s).
  { intros t Ht. unfold strip. rewrite lstrip_trimmed_app by (first [assumption | destruct s; [discriminate|congruence]]).
    unfold rstrip. rewrite rev_app_distr. 
    assert (Y : forall a b, forallb is_space a = true -> lstrip (a ++ b) = lstrip b).
    { clear. induction a as [|c a IH]; auto. cbn [forallb app lstrip]. intros b H. apply andb_true_iff in H as [-> H]. auto. }
    rewrite Y by now rewrite forallb_rev.
    rewrite <- (app_nil_r (rev s)), lstrip_trimmed_app.
    - now rewrite app_nil_r, rev_involutive.
    - intros E. apply (f_equal (@rev _)) in E. rewrite rev_involutive in E. subst. discriminate.
    - now apply trimmed_rev. }
  apply X. rewrite !forallb_app, !spaces_all_space. reflexivity.
Qed.

Lemma count_name p : OUTPU_ok p -> name_ok 15 (count_text p) = true.
Proof.
  intros (_ & _ & _ & _ & _ & _ & _ & _ & L). unfold name_ok, count_text.
  pose proof (print_Z_nonempty (Z.of_nat (n_variables p))) as N.
  rewrite print_Z_trimmed. rewrite (proj2 (Nat.leb_le _ _) L). rewrite no_space_one_line by apply print_Z_no_space.
  destruct (print_Z (Z.of_nat (n_variables p))); [congruence|reflexivity].
Qed.
Lemma name_rec w s : name_ok w s = true -> rec_ok [CText w] [PStr s] = true.
Proof. intros N. apply name_ok_spec in N as (_ & _ & N). now rewrite rec_ok_cons, N. Qed.

Lemma OUTPU_write p : OUTPU_ok p -> write_outpu p = Ok (head ($"OUTPU") :: OUTPU_body p).
Proof.
  intros H. pose proof (count_name p H) as CN. destruct H as (G & U & T & FO & GV & NE & F & D & L).
  unfold write_outpu. rewrite (check_at_ok dt_OUTPU kinds_OUTPU #"output" p (output_of p) st_OUTPU) by auto. cbn [bind].
  unfold block, get_dict. unfold dgetE at 1. rewrite G. cbn [bind as_dict]. cbv zeta.
  rewrite (dgetE_or PNone #"format" _ d_output) by auto. cbn [bind].
  change (val_or PNone #"format" (output_of p)) with (val #"format" (output_of p)).
  assert (V : dgetE #"variables" (dupdate d_output (output_of p)) = Ok (PDict (variables_of p))).
  { unfold dgetE. now rewrite dget_dupdate, GV by auto. }
  assert (R : mapM write_variable (variables_of p) = Ok (map (fun kv => (var_lines kv, List.length (index_rows (snd kv)))) (variables_of p))).
  { apply mapM_ok. intros [k v] Hkv. rewrite Forall_forall in F. destruct (F _ Hkv) as (s & E & N & W). cbn [fst snd] in *.
    subst k. now apply write_variable_ok. }
  assert (TR : truthy (PDict (variables_of p)) = Ok true).
  { destruct (variables_of p); [congruence|reflexivity]. }
  assert (M1 : map snd (map (fun kv => (var_lines kv, List.length (index_rows (snd kv)))) (variables_of p)) =
               map (fun kv => List.length (index_rows (snd kv))) (variables_of p)).
  { rewrite map_map. now apply map_ext. }
  assert (M2 : map fst (map (fun kv => (var_lines kv, List.length (index_rows (snd kv)))) (variables_of p)) = map var_lines (variables_of p)).
  { rewrite map_map. now apply map_ext. }
  assert (C : write_record [PStr (print_Z (Z.of_nat (fold_right Nat.add 0%nat (map (fun kv => List.length (index_rows (snd kv))) (variables_of p)))))] (str2format fmt_OUTPU_2 []) = Ok [rec_line cols_OUTPU_2 [PStr (count_text p)]]).
  { apply (write_record_ok fmt_OUTPU_2 cols_OUTPU_2 _ f_OUTPU_2). now apply name_rec. }
  unfold OUTPU_body. unfold format_ok in FO. destruct (val #"format" (output_of p)) as [| | | | |[|c s]| |]; try contradiction.
  - cbn [truthy bind when]. rewrite V. cbn [bind]. rewrite TR. cbn [bind when as_dict]. rewrite R. cbn [bind].
    rewrite M1, M2, C. cbn [bind format_lines app]. now rewrite app_nil_r.
  - cbn [truthy bind when nonempty]. rewrite V. cbn [bind]. rewrite TR. cbn [bind when as_dict]. rewrite R. cbn [bind].
    rewrite M1, M2, C. cbn [bind format_lines app]. now rewrite app_nil_r.
  - destruct FO as [FN _]. cbn [truthy bind when nonempty].
    rewrite (write_record_ok fmt_OUTPU_1 cols_OUTPU_1 _ f_OUTPU_1) by now apply name_rec. cbn [bind].
    rewrite V. cbn [bind]. rewrite TR. cbn [bind when as_dict]. rewrite R. cbn [bind].
    rewrite M1, M2, C. cbn [bind format_lines app]. now rewrite app_nil_r.
Qed.

Lemma OUTPU_good p : OUTPU_ok p -> Forall good_line (OUTPU_body p).
Proof.
  intros H. pose proof (count_name p H) as CN. destruct H as (G & U & T & FO & GV & NE & F & D & L).
  unfold OUTPU_body. apply Forall_app. split.
  - unfold format_ok in FO. destruct (val #"format" (output_of p)) as [| | | | |[|c s]| |]; try contradiction; try constructor; auto.
    apply rec_line_good, name_rec. tauto.
  - constructor; [now apply rec_line_good, name_rec|]. apply Forall_concat. intros [k v] Hkv.
    rewrite Forall_forall in F. destruct (F _ Hkv) as (s & E & N & W & _). cbn [fst snd] in *. subst k.
    unfold var_lines. cbn [fst snd var_name]. apply Forall_forall. intros l Hl. apply in_map_iff in Hl as (r & <- & Hr).
    apply rec_line_good, row_rec_ok; auto. rewrite Forall_forall in W. auto.
Qed.

Lemma OUTPU_read p rest : OUTPU_ok p -> read_outpu (OUTPU_body p ++ rest) = Ok (OUTPU_back p, rest).
Proof.
  intros H. pose proof (count_name p H) as CN. destruct H as (G & U & T & FO & GV & NE & F & D & L).
  pose proof (read_variables (variables_of p) [] [] rest F D (fun _ _ => conj eq_refl eq_refl)) as RV.
  cbn [app] in RV. change (count_rows (variables_of p)) with (n_variables p) in RV.
  assert (AD : all_digits (count_text p) = true) by (apply digits_all; lia).
  assert (NEC : nonempty (count_text p) = true).
  { unfold all_digits in AD. now apply andb_true_iff in AD as [AD _]. }
  assert (TV : map (fun kv : key * pyval => (fst kv, tidy_variable (snd kv))) (vars_rows (variables_of p))
               = map (fun kv => (key_lower (fst kv), variable_back (snd kv))) (variables_of p)).
  { unfold vars_rows. rewrite map_map. apply map_ext. intros [k v]. cbn [fst snd]. now rewrite tidy_collect. }
  assert (K : forall f, (if all_digits (count_text p) then
    let* n := (match parse_int (count_text p) with Some z => Ok z | None => Err ValueError end) in
    let* (st, ls) := repeat_lines (Z.to_nat n) read_variable ([], []) (concat (map var_lines (variables_of p)) ++ rest) in
    Ok ([(#"output", PDict (f ++ [(#"variables", PDict (map (fun kv => (fst kv, tidy_variable (snd kv))) (snd st)))]))], ls)
    else Ok ([(#"output", PDict f)], concat (map var_lines (variables_of p)) ++ rest))
    = Ok ([(#"output", PDict (f ++ [(#"variables", PDict (map (fun kv => (key_lower (fst kv), variable_back (snd kv))) (variables_of p)))]))], rest)).
  { intros f. rewrite AD. unfold count_text at 1. rewrite parse_print_Z. cbn [bind]. rewrite Nat2Z.id.
    match goal with |- context [repeat_lines ?a ?b ?c ?d] =>
      replace (repeat_lines a b c d) with (Ok (vars_names (variables_of p), vars_rows (variables_of p), rest) : res (dict * dict * list str))
        by (symmetry; exact RV) end.
    cbn [bind snd].
    now rewrite TV. }
  unfold OUTPU_back, OUTPU_body, read_outpu. unfold format_ok in FO.
  destruct (val #"format" (output_of p)) as [| | | | |[|c s]| |]; try contradiction; cbn [format_lines format_back app next bind]; cbv zeta.
  - unfold cols_OUTPU_2. rewrite strip_head by (auto; lia). rewrite NEC, AD. cbn [andb negb bind]. exact (K []).
  - unfold cols_OUTPU_2. rewrite strip_head by (auto; lia). rewrite NEC, AD. cbn [andb negb bind]. exact (K []).
  - destruct FO as [FN FD]. unfold cols_OUTPU_1. rewrite strip_head by (auto; lia).
    unfold all_digits at 1. rewrite FD, andb_false_r. cbn [negb].
    pose proof (name_ok_spec _ _ FN) as (FE & _). rewrite FE. cbn [andb next bind].
    unfold cols_OUTPU_2. rewrite strip_head by (auto; lia). exact (K _).
Qed.

Lemma OUTPU_block p : OUTPU_ok p ->
  write_outpu p = Ok (head ($"OUTPU") :: OUTPU_body p) /\
  Forall good_line (OUTPU_body p) /\
  forall ll q rest, read_block ll (head ($"OUTPU")) q (OUTPU_body p ++ rest) = Ok (true, dupdate q (OUTPU_back p), rest).
Proof.
  intros H. split; [now apply OUTPU_write|]. split; [now apply OUTPU_good|].
  intros ll q rest. at_block. rewrite OUTPU_read by auto. reflexivity.
Qed.
