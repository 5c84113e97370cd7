(** OUTPU written a second time. *)
From Coq Require Import String Ascii ZArith Bool Lia List.
From Verif Require Import Base.Str Base.Digits Base.Flt Base.FltText Base.FltInt.
From Verif Require Import Model.Py Model.Records Model.Write Model.Read.
From Verif Require Import Spec.Fields Spec.Values Spec.Types Spec.Layouts Spec.Rocks Spec.Flac Spec.Simple Spec.Param
  Spec.Indom Spec.Outpu Spec.Labels Spec.Mesh Spec.Incon Spec.Gener Spec.File Spec.Again.
From Verif Require Import Proofs.RecordLemmas Proofs.DictLemmas Proofs.BlockTools Proofs.Stability Proofs.RocksProof Proofs.FlacProof Proofs.SimpleProof Proofs.TwoLines
  Proofs.OutpuProof
  Proofs.FileProof Proofs.FileKeys Proofs.AgainCols Proofs.AgainPrep Proofs.AgainRocks Proofs.AgainBlocks Proofs.AgainSimple.
Import ListNotations.
Local Open Scope Z_scope.

Lemma upper_lower s : upper (lower s) = upper s.
Proof. unfold lower, upper. rewrite map_map. apply map_ext. intros [[] [] [] [] [] [] [] []]; reflexivity. Qed.
Lemma upper_upper s : upper (upper s) = upper s.
Proof. unfold upper. rewrite map_map. apply map_ext. intros [[] [] [] [] [] [] [] []]; reflexivity. Qed.
Lemma lower_lower s : lower (lower s) = lower s.
Proof. unfold lower. rewrite map_map. apply map_ext. intros [[] [] [] [] [] [] [] []]; reflexivity. Qed.

(** ** The rows of a variable *)
Definition row_like (r r' : list pyval) : Prop := r' = indices_back r \/ (indices_back r = [] /\ r' = [PNone]).
Lemma nth_map_int l i : nth i (map (col_val (CInt 5)) l) PNone = col_val (CInt 5) (nth i l PNone).
Proof. change PNone with (col_val (CInt 5) PNone) at 1. apply map_nth. Qed.
Lemma row_like_nth r r' i : (i < 2)%nat -> row_like r r' -> nth i r' PNone = col_val (CInt 5) (nth i r PNone).
Proof.
  intros L R. assert (E : nth i (indices_back r) PNone = col_val (CInt 5) (nth i r PNone)).
  { unfold indices_back. rewrite nth_trim, nth_map_int. now rewrite nth_firstn_lt. }
  destruct R as [-> | [I ->]]; [exact E|]. rewrite <- E, I. destruct i as [|[]]; reflexivity.
Qed.
Lemma int_ok v : col_ok (CInt 5) v = true -> col_ok (CInt 5) (col_val (CInt 5) v) = true.
Proof. intros H. exact (proj1 (same_int0 5 5 v H)). Qed.
Lemma row_like_ok r r' : indices_ok r = true -> row_like r r' -> indices_ok r' = true.
Proof.
  intros H [-> | [_ ->]]; [|reflexivity]. unfold indices_back, indices_ok in *. apply trim_forallb. apply forallb_forall. intros x I.
  apply in_map_iff in I as (v & <- & I). apply int_ok. rewrite forallb_forall in H. apply H. rewrite <- (firstn_skipn 2 r). apply in_or_app. now left.
Qed.
Lemma row_again s r r' : name_ok 20 (upper s) = true -> indices_ok r = true -> row_like r r' -> row_rec (lower s) r' = row_rec s r.
Proof.
  intros N H R. unfold row_rec. rewrite upper_lower. apply same_line; [cbv; lia|now apply row_rec_ok|].
  unfold cols_OUTPU_3. apply same_rec_cons; [apply same_refl; now apply name_ok_spec in N|].
  intros i c E. assert (L : (i < 2)%nat) by (destruct i as [|[|i]]; [lia|lia|destruct i; discriminate]).
  assert (EC : c = CInt 5) by (destruct i as [|[|i]]; [injection E as <-|injection E as <-|lia]; reflexivity). subst c.
  rewrite (row_like_nth r r') by auto. apply same_int0.
  destruct (nth_in_or_default i r PNone) as [J| ->]; [|reflexivity]. unfold indices_ok in H. rewrite forallb_forall in H. auto.
Qed.

Lemma back_ints r x : In x (indices_back r) -> is_seq x = false /\ is_dict x = false.
Proof.
  intros I. assert (J : In x (map (col_val (CInt 5)) (firstn 2 r))).
  { unfold indices_back in I. revert I. generalize (map (col_val (CInt 5)) (firstn 2 r)). clear. induction l as [|a l IH]; auto. cbn [trim].
    destruct (trim l) as [|y t]; destruct (is_none a); cbn [In] in *; intuition. }
  apply in_map_iff in J as (v & <- & _). cbn [col_val]. destruct (int_of v); auto.
Qed.
Lemma rows_cons v rs : rs = map indices_back (index_rows v) -> exists a l, rs = a :: l /\ exists r q, index_rows v = r :: q /\ a = indices_back r /\ l = map indices_back q.
Proof. intros ->. destruct (index_rows v) as [|r q] eqn:E; [now apply index_rows_nonempty in E|]. exists (indices_back r), (map indices_back q). split; [reflexivity|]. exists r, q. auto. Qed.
Lemma variable_again v : variable_ok v -> rows_steady v = true ->
  variable_ok (variable_back v) /\ Forall2 row_like (index_rows v) (index_rows (variable_back v)).
Proof.
  intros [R V] S. unfold rows_steady in S. cbv zeta in S. unfold variable_back.
  destruct (rows_cons v _ eq_refl) as (a & l & E & r & q & EI & Ea & El). rewrite EI in R. rewrite E in *. rewrite EI. apply Forall_cons_iff in R as [R1 R2].
  assert (B : forall x, In x a -> is_seq x = false /\ is_dict x = false) by (intros x I; rewrite Ea in I; now apply back_ints in I).
  assert (OK : indices_ok a = true) by (apply (row_like_ok r); auto; left; auto).
  destruct l as [|b l].
  - destruct q as [|r2 q]; [|discriminate]. clear El. destruct a as [|x [|y a]].
    + split; [split; [repeat constructor|exact I]|]. constructor; [|constructor]. right. auto.
    + destruct (B x (or_introl eq_refl)) as [B1 B2]. destruct x; try discriminate;
        (split; [split; [constructor; [exact OK|constructor]|exact I]|]; constructor; [|constructor]; left; exact Ea).
    + destruct (B x (or_introl eq_refl)) as [B1 B2]. destruct x; try discriminate;
        (split; [split; [constructor; [exact OK|constructor]|discriminate]|]; constructor; [|constructor]; left; exact Ea).
  - cbn [map]. assert (IR : index_rows (PSeq SList (PSeq SList a :: PSeq SList b :: map (PSeq SList) l)) = a :: b :: l).
    { cbn [index_rows map items]. rewrite map_map. cbn [items]. now rewrite map_id. }
    assert (RB : Forall2 row_like (r :: q) (a :: b :: l)).
    { rewrite El, Ea. change (indices_back r :: map indices_back q) with (map indices_back (r :: q)). generalize (r :: q). clear. induction l; cbn [map]; constructor; auto. now left. }
    assert (X : variable_ok (PSeq SList (PSeq SList a :: PSeq SList b :: map (PSeq SList) l))).
    { split.
      - rewrite IR. assert (RR : Forall (fun r => indices_ok r = true) (r :: q)) by now constructor. clear - RB RR.
        induction RB as [|x y m n R F IH]; constructor; inversion RR; subst; auto. eapply row_like_ok; eauto.
      - cbn [hd forallb] in S. rewrite !andb_true_iff in S. destruct S as (_ & S2 & S3).
        constructor; [split; [reflexivity|now apply Nat.eqb_eq in S2]|]. apply Forall_forall. intros y I. apply in_map_iff in I as (z & <- & I).
        split; [reflexivity|]. cbn [items]. rewrite forallb_forall in S3. apply Nat.eqb_eq. auto. }
    rewrite <- IR in RB. destruct a as [|? [|? ?]]; split; first [exact X | exact RB].
Qed.

Section Top.
Variables p p' : dict.
Hypothesis A : again p p'.
Lemma OUTPU_again :
  (filled (val #"output" p) = true -> OUTPU_ok p /\ forallb (fun kv => rows_steady (snd kv)) (variables_of p) = true) ->
  filled (val #"output" p') = filled (val #"output" p) /\
  (filled (val #"output" p) = true -> OUTPU_ok p' /\ write_outpu p' = write_outpu p).
Proof.
  intros H. destruct (filled (val #"output" p)) eqn:F.
  - destruct (H eq_refl) as [O ST]. pose proof O as (G0 & U & T & FO & GV & NE & FA & ND & LN).
    set (vb := map (fun kv => (key_lower (fst kv), variable_back (snd kv))) (variables_of p)).
    set (ob := format_back (val #"format" (output_of p)) ++ [(#"variables", PDict vb)]).
    assert (GE : dget #"output" p' = Some (PDict ob)).
    { apply (top_some p p' A); [reflexivity|]. change (FILE_entry p #"output") with (if filled (val #"output" p) then dget #"output" (OUTPU_back p) else None). rewrite F. reflexivity. }
    assert (EO : output_of p' = ob) by (unfold output_of at 1; now rewrite (val_some _ _ _ GE)).
    assert (GVB : dget #"variables" ob = Some (PDict vb)).
    { unfold ob, format_back. destruct (val #"format" (output_of p)) as [| | | | |[]| |]; reflexivity. }
    assert (EV : variables_of p' = vb) by (unfold variables_of at 1; rewrite EO; now rewrite (val_some _ _ _ GVB)).
    assert (EF : val #"format" ob = match val #"format" (output_of p) with PStr (c :: s) => PStr (upper (c :: s)) | _ => PNone end).
    { unfold ob, format_back. destruct (val #"format" (output_of p)) as [| | | | |[]| |]; reflexivity. }
    assert (X : forall kv, In kv (variables_of p) -> exists s, fst kv = KS s /\ name_ok 20 (upper s) = true /\ variable_ok (variable_back (snd kv)) /\
       Forall2 row_like (index_rows (snd kv)) (index_rows (variable_back (snd kv))) /\ Forall (fun r => indices_ok r = true) (index_rows (snd kv))).
    { intros kv I. rewrite Forall_forall in FA. destruct (FA _ I) as (s & E & N & V). exists s. rewrite forallb_forall in ST.
      destruct (variable_again _ V (ST _ I)) as [V1 V2]. destruct V as [V _]. auto. }
    assert (NV : n_variables p' = n_variables p).
    { unfold n_variables. rewrite EV. unfold vb. rewrite map_map. cbn [snd]. f_equal. apply map_ext_in. intros kv I.
      destruct (X kv I) as (s & _ & _ & _ & V2 & _). symmetry. clear - V2. induction V2; cbn [List.length]; auto. }
    assert (NB : vb <> []) by (unfold vb; destruct (variables_of p); [congruence|discriminate]).
    split; [rewrite (val_some _ _ _ GE); unfold filled, ob; destruct (format_back _); reflexivity|]. intros _.
    assert (OK : OUTPU_ok p').
    { unfold OUTPU_ok. rewrite EO, EV, NV. split; [exact GE|]. split.
      { unfold ob, format_back. destruct (val #"format" (output_of p)) as [| | | | |[]| |]; apply no_dup_keys_ok; reflexivity. }
      split; [unfold ob, format_back; destruct (val #"format" (output_of p)) as [| | | | |[]| |]; reflexivity|].
      split; [rewrite EF; unfold format_ok in FO |- *; destruct (val #"format" (output_of p)) as [| | | | |[|c s]| |]; try contradiction; try exact I|].
      { pose proof (upper_upper (c :: s)) as UU. destruct (upper (c :: s)) as [|c' s'] eqn:EU; [discriminate|].
        now rewrite UU. }
      split; [exact GVB|]. split; [exact NB|]. split.
      { apply Forall_forall. intros kv I. unfold vb in I. apply in_map_iff in I as (kv0 & <- & I). destruct (X _ I) as (s & E & N & V & _).
        exists (lower s). cbn [fst snd]. rewrite E. cbn [key_lower]. rewrite upper_lower. auto. }
      split; [|exact LN]. unfold vb, dkeys. rewrite !map_map. cbn [fst]. unfold dkeys in ND. rewrite map_map in ND.
      erewrite map_ext; [exact ND|]. intros kv. cbv beta. destruct (fst kv); cbn [key_lower]; auto. now rewrite lower_lower. }
    split; [exact OK|]. rewrite (OUTPU_write p O), (OUTPU_write p' OK). do 2 f_equal. unfold OUTPU_body, count_text. rewrite EO, EV, NV.
    f_equal; [|f_equal].
    + rewrite EF. unfold format_lines. destruct (val #"format" (output_of p)) as [| | | | |[|c s]| |]; auto.
      pose proof (upper_upper (c :: s)) as UU. destruct (upper (c :: s)) as [|c' s'] eqn:EU; [discriminate|]. now rewrite UU.
    + unfold vb. rewrite map_map. f_equal. apply map_ext_in. intros kv I. destruct (X kv I) as (s & E & N & _ & V2 & V3).
      unfold var_lines. cbn [fst snd]. rewrite E. cbn [key_lower var_name]. clear - N V2 V3.
      induction V2 as [|r r' m m' R F2 IH]; auto. inversion V3; subst. cbn [map]. rewrite IH by auto. f_equal. now apply row_again.
  - split; [|discriminate].
    assert (G : dget #"output" p' = dget #"output" top_defaults).
    { apply (top_none p p' A); [reflexivity|]. change (FILE_entry p #"output") with (if filled (val #"output" p) then dget #"output" (OUTPU_back p) else None). now rewrite F. }
    unfold val. rewrite G. reflexivity.
Qed.
End Top.
