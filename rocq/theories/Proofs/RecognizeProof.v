(** Recognition of output files. *)
From Coq Require Import String Ascii ZArith Bool Lia Permutation Sorted List.
From Verif Require Import Base.Str Base.Digits Base.Flt Base.FltText Model.Py Model.Dispatch Model.Output
  Spec.Fields Spec.Output Proofs.DictLemmas Proofs.RecordLemmas Proofs.BlockTools Proofs.FileProof Proofs.CellText Proofs.CsvProof
  Proofs.PetrasimProof.
Import ListNotations.
Local Open Scope nat_scope.

Lemma first_line l r : good_line l -> readline (lines (concat (l :: r))) = (l, lines (concat r)).
Proof. intros (b & -> & O). cbn [concat]. rewrite <- app_assoc. cbn [app]. rewrite lines_line by auto. reflexivity. Qed.
Lemma lacks_contains c s : lacks c s -> contains c s = false.
Proof.
  intros H. unfold contains. apply not_true_iff_false. intros X. apply existsb_exists in X as (d & I & E).
  apply Ascii.eqb_eq in E. symmetry in E. now apply (H d).
Qed.
Lemma contains_app c a b : contains c (a ++ b) = contains c a || contains c b.
Proof. apply existsb_app. Qed.

Lemma rstrip_keeps p c q : is_space c = false -> exists t, rstrip (p ++ c :: q) = p ++ c :: t.
Proof.
  intros Hc. unfold rstrip. rewrite rev_app_distr. cbn [rev].
  assert (L : forall v w, exists z, lstrip (v ++ c :: w) = z ++ c :: w).
  { induction v as [|x v IH]; intros w; cbn [app lstrip]; [rewrite Hc; now exists []|]. destruct (is_space x); auto. now exists (x :: v). }
  rewrite <- app_assoc. cbn [app]. destruct (L (rev q) (rev p)) as (z & ->). exists (rev z).
  rewrite rev_app_distr. cbn [rev]. now rewrite rev_involutive, <- app_assoc.
Qed.

Lemma not_in_lacks c s : ~ In c s -> lacks c s.
Proof. intros H d I ->. auto. Qed.
Lemma recognize_header h hs : In h [$"ELEM"; $"ELEM1"] -> Forall (lacks "="%char) hs -> Forall (lacks nl) hs -> forall r,
  get_output_type (lines (concat (comma_line (map quoted (h :: hs)) :: r))) =
  Ok (if streqb h $"ELEM" then (Element, FCsv) else (Connection, FCsv)).
Proof.
  intros H E N r. assert (HP : lacks "="%char h /\ lacks nl h /\ lacks ","%char h /\ lacks quote h /\ trimmed h = true).
  { destruct H as [<- | [<- | []]]; repeat split; intros c I ->; cbn in I; intuition discriminate. }
  destruct HP as (A1 & A2 & A3 & A4 & A5).
  unfold get_output_type. rewrite first_line.
  2:{ apply comma_good, Forall_map. constructor; [now apply lacks_quoted; try discriminate|].
      eapply Forall_impl; [|exact N]. intros s Hs. now apply lacks_quoted; try discriminate. }
  unfold comma_line. rewrite strip_nl.
  2:{ apply open_close; [apply opens_join, opens_quoted|]. apply closes_join; [discriminate|].
      apply Forall_map, Forall_forall. intros. apply closes_quoted. }
  assert (EJ : exists t, join [","%char] (map quoted (h :: hs)) = quote :: t).
  { cbn [map]. destruct (map quoted hs); cbn [join]; unfold quoted; eexists; reflexivity. }
  destruct EJ as (t & EJ).
  assert (EC : contains "=" (join [","%char] (map quoted (h :: hs))) = false).
  { apply lacks_contains, lacks_join; [intros c [<-|[]]; discriminate|]. apply Forall_map. constructor.
    - now apply lacks_quoted; try discriminate.
    - eapply Forall_impl; [|exact E]. intros s Hs. now apply lacks_quoted; try discriminate. }
  assert (EH : hd [] (split_on "," (join [","%char] (map quoted (h :: hs)))) = quoted h).
  { cbn [map]. destruct (map quoted hs) as [|x l].
    - cbn [join]. rewrite split_on_lacks; auto. now apply lacks_quoted; try discriminate.
    - cbn [join]. cbn [app]. rewrite split_on_cons; auto. now apply lacks_quoted; try discriminate. }
  rewrite EJ in *. change (startswith $"1      @@@@@" (quote :: t)) with false. change (startswith $"INCON" (quote :: t)) with false.
  change (startswith $"TIME" (quote :: t)) with false. cbn match. rewrite EC, EH, unquote_quoted, strip_rjust by auto.
  destruct H as [<- | [<- | []]]; reflexivity.
Qed.

Theorem csv_recognized outs front o recs : outs = front ++ [o] -> csv_write outs = Ok recs ->
  Forall (fun k => ~ In "="%char k /\ ~ In nl k) (names o) ->
  get_output_type (lines (concat recs)) = Ok (o_type o, FCsv).
Proof.
  intros -> W F. unfold csv_write in W. rewrite last_output_snoc in W.
  destruct (mapM _ _) as [steps|] eqn:M; cbn [bind] in W; [|discriminate]. injection W as <-.
  assert (FC : Forall (fun k => lacks "="%char k /\ lacks nl k) (columns (o_data o))).
  { apply Forall_forall. intros k K. rewrite Forall_forall in F. apply (proj1 (columns_in _ _)) in K.
    destruct (F k K). split; now apply not_in_lacks. }
  unfold csv_headers.
  assert (F1 : Forall (lacks "="%char) (columns (o_data o))) by (eapply Forall_impl; [|exact FC]; now intros k []).
  assert (F2 : Forall (lacks nl) (columns (o_data o))) by (eapply Forall_impl; [|exact FC]; now intros k []).
  destruct (o_type o); cbn [is_element app].
  - rewrite recognize_header; auto. now left.
  - rewrite recognize_header; auto.
    + right. now left.
    + constructor; auto. intros c I ->. cbn in I. intuition discriminate.
    + constructor; auto. intros c I ->. cbn in I. intuition discriminate.
Qed.

Theorem petrasim_recognized outs front o recs : outs = front ++ [o] -> petrasim_write outs = Ok recs ->
  Forall (fun k => ~ In "="%char k /\ ~ In nl k) (names o) ->
  get_output_type (lines (concat recs)) = Ok (Element, FPetrasim).
Proof.
  intros -> W F. unfold petrasim_write in W. rewrite last_output_snoc in W.
  destruct (mapM _ _) as [steps|] eqn:M; cbn [bind] in W; [|discriminate]. injection W as <-.
  set (hs := columns (o_data o)). set (cells := map (rjust 18) ([$"TIME [sec]"; $"ELEM"; $"INDEX"] ++ hs)).
  assert (FC : forall d, d <> sp -> Forall (lacks d) ([$"TIME [sec]"; $"ELEM"; $"INDEX"] ++ hs) -> Forall (lacks d) cells).
  { intros d D G. apply Forall_map. eapply Forall_impl; [|exact G]. intros s Hs. now apply lacks_rjust. }
  assert (FH : Forall (fun k => lacks "="%char k /\ lacks nl k) hs).
  { apply Forall_forall. intros k K. rewrite Forall_forall in F. apply (proj1 (columns_in _ _)) in K.
    destruct (F k K). split; now apply not_in_lacks. }
  assert (E1 : Forall (lacks "="%char) cells).
  { apply FC; [discriminate|]. apply Forall_app. split; [|eapply Forall_impl; [|exact FH]; now intros k []].
    repeat constructor; intros c I ->; cbn in I; intuition discriminate. }
  assert (E2 : Forall (lacks nl) cells).
  { apply FC; [discriminate|]. apply Forall_app. split; [|eapply Forall_impl; [|exact FH]; now intros k []].
    repeat constructor; intros c I ->; cbn in I; intuition discriminate. }
  unfold get_output_type. rewrite first_line by now apply comma_good.
  destruct (strip_all (comma_line cells)) as (a & b & A & B & E).
  (* the first eight blanks are stripped *)
  assert (EL : exists t, strip (comma_line cells) = $"TIME [sec]" ++ "," %char :: t).
  { unfold comma_line, cells. cbn [map app]. set (rest := rjust 18 $"ELEM" :: rjust 18 $"INDEX" :: map (rjust 18) hs).
    change (join [","%char] (rjust 18 $"TIME [sec]" :: rest)) with (rjust 18 $"TIME [sec]" ++ ","%char :: join [","%char] rest).
    change (rjust 18 $"TIME [sec]") with (spaces 8 ++ $"TIME [sec]"). rewrite <- !app_assoc. unfold strip.
    rewrite lstrip_spaces. set (u := $"TIME [sec]" ++ (","%char :: join [","%char] rest) ++ [nl]).
    change (lstrip u) with u. unfold u. cbn [app]. clear.
    apply (rstrip_keeps $"TIME [sec]" ","%char). reflexivity. }
  destruct EL as (t & EL).
  assert (EC : contains "=" (strip (comma_line cells)) = false).
  { apply lacks_contains. assert (L : lacks "="%char (comma_line cells)).
    { apply lacks_app. split; [|intros c [<-|[]]; discriminate]. apply lacks_join; auto. intros c [<-|[]]; discriminate. }
    rewrite E in L. apply lacks_app in L as [_ L]. now apply lacks_app in L as [L _]. }
  rewrite EL in EC. cbv zeta. match goal with |- context [strip ?x] => change x with (comma_line cells) end. rewrite EL.
  transitivity (if contains "=" ($"TIME [sec]" ++ ","%char :: t) then Ok (Element, FTecplot) else Ok (Element, FPetrasim)); [reflexivity|].
  now rewrite EC.
Qed.

Theorem tecplot_recognized outs recs : tecplot_write outs = Ok recs ->
  get_output_type (lines (concat recs)) = Ok (Element, FTecplot).
Proof.
  intros W. unfold tecplot_write in W. destruct (last_output outs) as [o|]; [|discriminate].
  destruct (_ && _); [|discriminate]. destruct (mapM _ _) as [steps|]; cbn [bind] in W; [|discriminate].
  injection W as <-. unfold get_output_type.
  assert (EL : exists u rest, readline (lines (concat (tecplot_header (columns (o_data o)) :: concat steps))) =
                    ($" VARIABLES       =" ++ u, rest)).
  { cbn [concat]. unfold tecplot_header. set (v := concat (map (rjust 18) _)). clearbody v. generalize (concat (concat steps)) as w.
    intros w. change (rjust 18 $"VARIABLES       =") with ($" VARIABLES       =").
    replace (($" VARIABLES       =" ++ v ++ [nl]) ++ w) with ($" VARIABLES       =" ++ (v ++ [nl] ++ w))
      by (now rewrite <- !app_assoc). set (z := v ++ [nl] ++ w).
    assert (Z : exists x y, z = x ++ nl :: y /\ lacks nl x).
    { subst z. clear. induction v as [|c v (x & y & E & L)]; [exists [], w; split; auto; intros c []|].
      destruct (ascii_dec c nl) as [-> |N]; [exists [], (v ++ [nl] ++ w); split; auto; intros c []|].
      exists (c :: x), y. split; [cbn [app] in *; now rewrite E|]. intros d [<-|I]; auto. }
    destruct Z as (x & y & -> & L). exists (x ++ [nl]), (lines y).
    replace ($" VARIABLES       =" ++ x ++ nl :: y) with (concat [($" VARIABLES       =" ++ x) ++ [nl]; y]).
    2:{ cbn [concat]. rewrite app_nil_r, <- !app_assoc. reflexivity. }
    rewrite first_line.
    - rewrite app_assoc. cbn [concat]. now rewrite app_nil_r.
    - eexists. split; [reflexivity|]. unfold one_line. apply forallb_forall. intros c I.
      apply negb_true_iff, Ascii.eqb_neq. apply in_app_or in I as [I|I]; [|now apply L]. intros ->. cbn in I. intuition discriminate. }
  destruct EL as (u & rest & ->).
  assert (ES : exists t, strip ($" VARIABLES       =" ++ u) = $"VARIABLES       =" ++ t).
  { unfold strip. change (lstrip ($" VARIABLES       =" ++ u)) with ($"VARIABLES       " ++ "="%char :: u).
    clear. destruct (rstrip_keeps $"VARIABLES       " "="%char u eq_refl) as (t & ->). now exists t. }
  destruct ES as (t & ->).
  transitivity (if contains "=" ($"VARIABLES       =" ++ t) then Ok (Element, FTecplot) else
     let header := strip (unquote (hd [] (split_on "," ($"VARIABLES       =" ++ t)))) in
                if streqb header $"ELEM" then Ok (Element, FCsv)
                else if streqb header $"ELEM1" then Ok (Connection, FCsv)
                else Err ValueError); [reflexivity|].
  rewrite contains_app. reflexivity.
Qed.

(** ** Reading back without naming the format *)

Theorem csv_api t n outs : csv_sheets t n outs -> no_equal_sign outs ->
  exists recs outs', csv_write outs = Ok recs /\
    (forall b len, read_output None b len (lines (concat recs)) = Ok outs') /\ Forall2 (comes_back $"csv" 8 12 true) outs outs'.
Proof.
  intros H NE. destruct (csv_roundtrip t n outs H) as (recs & outs' & W & R & B). exists recs, outs'. split; auto. split; auto.
  intros b len. destruct H as (N & _ & _ & F & _). destruct (exists_last N) as (front & o & E).
  assert (I : In o outs) by (rewrite E; apply in_app_iff; right; now left).
  rewrite Forall_forall in F. destruct (F o I) as [T C].
  unfold read_output. rewrite (csv_recognized outs front o recs E W).
  - cbn [bind]. now rewrite T.
  - unfold no_equal_sign in NE. rewrite Forall_forall in NE. specialize (NE o I). rewrite Forall_forall in NE, C.
    apply Forall_forall. intros k K. split; auto. destruct (C k K) as [P _]. apply plain_lacks in P as (P & _). intros X. now apply (P nl).
Qed.
Theorem petrasim_api outs sorted : petrasim_sheets outs -> Forall (finite_time 12) outs ->
  Permutation outs sorted -> StronglySorted (earlier 12) sorted -> no_equal_sign outs ->
  exists recs outs', petrasim_write outs = Ok recs /\
    (forall b len, read_output None b len (lines (concat recs)) = Ok outs') /\ Forall2 (comes_back $"petrasim" 12 12 true) sorted outs'.
Proof.
  intros H FT P S NE. destruct (petrasim_roundtrip outs sorted H FT P S) as (recs & outs' & W & R & B). exists recs, outs'.
  split; auto. split; auto. intros b len. destruct H as (N & F & _). destruct (exists_last N) as (front & o & E).
  assert (I : In o outs) by (rewrite E; apply in_app_iff; right; now left).
  rewrite Forall_forall in F. destruct (F o I) as (_ & _ & C & _).
  unfold read_output. rewrite (petrasim_recognized outs front o recs E W).
  - cbn [bind]. exact R.
  - unfold no_equal_sign in NE. rewrite Forall_forall in NE. specialize (NE o I). rewrite Forall_forall in NE, C.
    apply Forall_forall. intros k K. split; auto. specialize (C k K). apply plain_lacks in C as (P' & _). intros X. now apply (P' nl).
Qed.
