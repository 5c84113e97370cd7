(** merge and save2incon. *)
From Coq Require Import String Ascii Arith Bool Lia List.
From Verif Require Import Base.Str Model.Py Model.Cli Spec.Cli Spec.Fields Proofs.RecordLemmas Proofs.FileProof Proofs.CellText Proofs.RecognizeProof.
Import ListNotations.
Local Open Scope nat_scope.

Lemma store_same d n t : store d n t n = Some t.
Proof. unfold store. now rewrite streqb_refl. Qed.
Lemma store_other d n t m : m <> n -> store d n t m = d m.
Proof. intros H. unfold store. destruct (streqb m n) eqn:E; auto. apply streqb_eq in E. contradiction. Qed.

Lemma keyword_spec k line : List.length (lit k) = 5 -> streqb (keyword line) (lit k) = true <-> opens_with k line.
Proof.
  intros L. rewrite streqb_eq. unfold keyword, opens_with. split.
  - intros E. exists (firstn 5 line), (skipn 5 line). split; [now rewrite firstn_skipn|]. rewrite <- E.
    unfold upper. symmetry. apply firstn_map.
  - intros (a & b & -> & E). unfold upper in *. rewrite map_app.
    assert (LA : List.length (map upper_c a) = 5) by now rewrite E.
    rewrite firstn_app, LA, Nat.sub_diag, firstn_O, app_nil_r, firstn_all2 by lia. exact E.
Qed.
Lemma is_end_spec line : is_end line = true <-> end_line line.
Proof.
  unfold is_end, end_line. cbn [existsb]. rewrite orb_false_r, orb_true_iff.
  rewrite <- (keyword_spec "ENDFI") by reflexivity. rewrite <- (keyword_spec "ENDCY") by reflexivity. reflexivity.
Qed.
Lemma is_block_spec line : is_block line = true <-> block_line line.
Proof.
  unfold is_block, block_line, end_line. cbn [existsb]. rewrite orb_false_r, !orb_true_iff.
  rewrite <- (keyword_spec "ROCKS"), <- (keyword_spec "PARAM"), <- (keyword_spec "ENDFI"), <- (keyword_spec "ENDCY") by reflexivity.
  reflexivity.
Qed.
Lemma three_spec ls : three block_line ls <-> Nat.leb 3 (List.length (filter is_block ls)) = true.
Proof.
  rewrite Nat.leb_le. split.
  - intros (a & x & b & y & c & z & d & -> & X & Y & Z). apply is_block_spec in X, Y, Z.
    rewrite filter_app. cbn [filter]. rewrite X, filter_app. cbn [filter]. rewrite Y, filter_app. cbn [filter]. rewrite Z.
    rewrite !app_length. cbn [List.length]. rewrite !app_length. cbn [List.length]. rewrite app_length. cbn [List.length]. lia.
  - assert (ONE : forall ls n, S n <= List.length (filter is_block ls) -> exists a x b, ls = a ++ x :: b /\ block_line x /\ n <= List.length (filter is_block b)).
    { clear. induction ls as [|l ls IH]; intros n H; [cbn in H; lia|]. cbn [filter] in H. destruct (is_block l) eqn:E.
      - exists [], l, ls. split; auto. split; [now apply is_block_spec|]. cbn in H. lia.
      - destruct (IH n H) as (a & x & b & -> & X & L). exists (l :: a), x, b. auto. }
    intros H. destruct (ONE _ _ H) as (a & x & r & -> & X & H1). destruct (ONE _ _ H1) as (b & y & r2 & -> & Y & H2).
    destruct (ONE _ _ H2) as (c & z & e & -> & Z & _). exists a, x, b, y, c, z, e. auto.
Qed.
Lemma end_index_spec A e B i : Forall (fun l => ~ end_line l) A -> end_line e -> end_index i (A ++ e :: B) = i + List.length A.
Proof.
  intros F E. revert i. induction F as [|a A H F IH]; intros i; cbn [app end_index List.length].
  - rewrite (proj2 (is_end_spec e) E). lia.
  - destruct (is_end a) eqn:EA; [apply is_end_spec in EA; contradiction|]. rewrite IH. destruct (A ++ e :: B) eqn:X; [destruct A; discriminate|lia].
Qed.
Lemma lines_concat s : concat (lines s) = s.
Proof.
  unfold lines. assert (G : forall s cur, concat (lines_aux cur s) = rev cur ++ s).
  { induction s0 as [|c s0 IH]; intros cur; cbn [lines_aux].
    - destruct cur; [reflexivity|]. cbn [concat]. now rewrite app_nil_r.
    - destruct (Ascii.eqb_spec c nl) as [-> |].
      + cbn [concat]. rewrite IH. cbn [rev app]. now rewrite <- app_assoc.
      + rewrite IH. cbn [rev]. now rewrite <- app_assoc. }
  apply G.
Qed.


Lemma lines_aux_start k r cur : ~ In nl k -> k <> [] \/ cur <> [] ->
  exists t rest, lines_aux cur (k ++ r) = (rev cur ++ k ++ t) :: rest.
Proof.
  revert cur. induction k as [|c k IH]; intros cur NL NE.
  - cbn [app]. destruct NE as [X | NE]; [contradiction|]. clear NL. revert cur NE. induction r as [|x r IH]; intros cur NE; cbn [lines_aux].
    + destruct cur; [contradiction|]. exists [], []. now rewrite app_nil_r.
    + destruct (Ascii.eqb_spec x nl) as [-> |].
      * exists [nl]. eexists. reflexivity.
      * destruct (IH (x :: cur)) as (t & rest & ->); [discriminate|]. exists (x :: t), rest. cbn [rev]. now rewrite <- app_assoc.
  - cbn [app lines_aux]. destruct (Ascii.eqb_spec c nl) as [-> | N]; [destruct NL; now left|].
    destruct (IH (c :: cur)) as (t & rest & ->).
    + intros I. apply NL. now right.
    + right. discriminate.
    + exists t, rest. cbn [rev]. now rewrite <- !app_assoc.
Qed.
Lemma lines_start (k r : str) : ~ In nl k -> k <> [] -> exists (t : str) (rest : list str), lines (k ++ r) = @cons str (k ++ t) rest.
Proof. intros NL NE. destruct (lines_aux_start k r [] NL (or_introl NE)) as (t & rest & E). exists t, rest. exact E. Qed.
Lemma piece_ok k text : ~ In nl (lit k) -> lit k <> [] -> first_line_starts k text -> piece (lit k) text = Ok (lines text).
Proof.
  intros NL NE [r ->]. destruct (lines_start (lit k) r NL NE) as (t & rest & E). unfold piece. rewrite E.
  now rewrite startswith_app.
Qed.
Lemma piece_bad k text : ~ first_line_starts k text -> exists e, piece (lit k) text = Err e.
Proof.
  intros N. unfold piece. destruct (lines text) as [|l rest] eqn:E; [eauto|]. destruct (startswith (lit k) l) eqn:S; [|eauto].
  exfalso. apply N. apply startswith_spec in S as [t ->]. exists (t ++ concat rest).
  rewrite <- (lines_concat text), E. cbn [concat]. now rewrite <- app_assoc.
Qed.

Theorem merge_ok d infile outfile text mesh A e B :
  d infile = Some text -> d (beside infile $"MESH") = Some mesh ->
  lines text = A ++ e :: B -> Forall (fun l => ~ end_line l) A -> end_line e -> three block_line (lines text) ->
  first_line_starts "ELEME" mesh ->
  (forall incon, d (beside infile $"INCON") = Some incon -> first_line_starts "INCON" incon) ->
  merge d infile outfile =
  (Ok tt, store d outfile (concat A ++ mesh ++ match d (beside infile $"INCON") with Some i => i | None => [] end ++ e ++ concat B)).
Proof.
  intros D M L F E T P Q. unfold merge, merged. rewrite D, M. apply three_spec in T. rewrite T. cbn [guard bind].
  assert (NL1 : ~ In nl (lit "ELEME")) by (intros X; vm_compute in X; intuition discriminate).
  assert (NL2 : ~ In nl (lit "INCON")) by (intros X; vm_compute in X; intuition discriminate).
  rewrite (piece_ok "ELEME") by (auto; discriminate). cbn [bind].
  assert (X : match d (beside infile $"INCON") with None => Ok [] | Some incon => piece $"INCON" incon end
              = Ok (match d (beside infile $"INCON") with Some i => lines i | None => [] end)).
  { destruct (d (beside infile $"INCON")) as [i|] eqn:DI; [|reflexivity]. apply (piece_ok "INCON"); auto; discriminate. }
  rewrite X. cbn [bind]. rewrite L, (end_index_spec A e B 0) by auto. rewrite Nat.add_0_l.
  rewrite firstn_app, Nat.sub_diag, firstn_O, app_nil_r, firstn_all. rewrite skipn_app, Nat.sub_diag, skipn_O, skipn_all. cbn [app].
  rewrite !concat_app, lines_concat. cbn [concat]. destruct (d (beside infile $"INCON")); [now rewrite lines_concat|reflexivity].
Qed.
Theorem merge_all_or_nothing d infile outfile x d' : merge d infile outfile = (Err x, d') -> d' = d.
Proof. unfold merge. destruct (merged d infile); intros E; injection E; congruence. Qed.
Theorem merge_refuses d infile outfile :
  (d infile = None \/ d (beside infile $"MESH") = None \/
   (exists t, d infile = Some t /\ ~ three block_line (lines t)) \/
   (exists t, d (beside infile $"MESH") = Some t /\ ~ first_line_starts "ELEME" t) \/
   (exists t, d (beside infile $"INCON") = Some t /\ ~ first_line_starts "INCON" t)) ->
  exists x, merge d infile outfile = (Err x, d).
Proof.
  intros H. unfold merge. assert (X : exists x, merged d infile = Err x); [|destruct X as [x ->]; eauto].
  unfold merged. destruct (d infile) as [text|] eqn:D; [|eauto].
  destruct (d (beside infile $"MESH")) as [mesh|] eqn:M; [|eauto].
  destruct (Nat.leb 3 (List.length (filter is_block (lines text)))) eqn:T; cbn [guard bind]; [|eauto].
  destruct (piece $"ELEME" mesh) as [m|] eqn:PM; cbn [bind]; [|eauto].
  destruct H as [H|[H|[H|[H|H]]]]; try discriminate.
  - destruct H as (t & E & N). injection E as ->. destruct N. now apply three_spec.
  - destruct H as (t & E & N). injection E as ->. destruct (piece_bad "ELEME" t N) as [x Y]. congruence.
  - destruct H as (t & E & N). rewrite E. destruct (piece_bad "INCON" t N) as [x Y]. rewrite Y. cbn [bind]. eauto.
Qed.
Theorem merge_touches d infile outfile n : n <> outfile -> snd (merge d infile outfile) n = d n.
Proof. intros N. unfold merge. destruct (merged d infile); cbn [snd]; auto. now apply store_other. Qed.

Lemma save_lines_keep ls : save_lines false ls = ls.
Proof. induction ls; cbn [save_lines andb]; congruence. Qed.
Lemma save_lines_reset (A B : list str) : Forall (fun l : str => ~ exists r : str, l = $"+++" ++ r) A ->
  (B = [] \/ exists p C, B = ($"+++" ++ p) :: C) -> save_lines true (A ++ B) = A.
Proof.
  intros F H. induction F as [|a A N F IH]; cbn [app save_lines andb].
  - destruct H as [-> | (p & C & ->)]; [reflexivity|]. cbn [save_lines andb]. now rewrite startswith_app.
  - destruct (startswith $"+++" a) eqn:S; [apply startswith_spec in S; contradiction|]. now rewrite IH.
Qed.
Theorem save2incon_copy d infile outfile text : d infile = Some text -> infile <> outfile -> first_line_starts "INCON" text ->
  save2incon d infile outfile false = (Ok tt, store (store d outfile []) outfile text).
Proof.
  intros D N [r E]. unfold save2incon. rewrite D, store_other, D by auto.
  destruct (lines_start (lit "INCON") r) as (t & rest & L); [intros X; vm_compute in X; intuition discriminate|discriminate|].
  pose proof (lines_concat (lit "INCON" ++ r)) as C. rewrite E, L. rewrite startswith_app, save_lines_keep, app_nil_r. rewrite L in C. rewrite C. reflexivity.
Qed.
Theorem save2incon_reset d infile outfile text (A B : list str) : d infile = Some text -> infile <> outfile -> first_line_starts "INCON" text ->
  lines text = A ++ B -> Forall (fun l : str => ~ exists r : str, l = $"+++" ++ r) A -> (B = [] \/ exists p C, B = ($"+++" ++ p) :: C) ->
  save2incon d infile outfile true = (Ok tt, store (store d outfile []) outfile (concat A ++ [nl])).
Proof.
  intros D N [r E] LT F H. unfold save2incon. rewrite D, store_other, D by auto.
  destruct (lines_start (lit "INCON") r) as (t & rest & L); [intros X; vm_compute in X; intuition discriminate|discriminate|].
  rewrite E in *. rewrite LT in L. rewrite LT, L. rewrite startswith_app. cbn iota. pose proof (save_lines_reset A B F H) as SR. rewrite L in SR. rewrite SR. reflexivity.
Qed.
Theorem save2incon_touches d infile outfile reset n : n <> outfile -> snd (save2incon d infile outfile reset) n = d n.
Proof.
  intros N. unfold save2incon. destruct (d infile); [|reflexivity]. destruct (store d outfile [] infile); [|now apply store_other].
  destruct (lines s0) as [|l r]; [cbn [snd]; rewrite store_other by auto; now apply store_other|].
  destruct (startswith $"INCON" l); cbn [snd]; rewrite store_other by auto; auto. now apply store_other.
Qed.
Theorem save2incon_refused d infile outfile reset text : d infile = Some text -> infile <> outfile -> text <> [] ->
  ~ first_line_starts "INCON" text ->
  save2incon d infile outfile reset = (Err ValueError, store d outfile []).
Proof.
  intros D N NE NI. unfold save2incon. rewrite D, store_other, D by auto.
  destruct (lines text) as [|l r] eqn:L.
  - exfalso. apply NE. now rewrite <- (lines_concat text), L.
  - destruct (startswith $"INCON" l) eqn:S; [|reflexivity]. exfalso. apply NI. apply startswith_spec in S as [t ->].
    exists (t ++ concat r). rewrite <- (lines_concat text), L. cbn [concat]. now rewrite <- app_assoc.
Qed.
Theorem save2incon_same d f text : d f = Some text ->
  save2incon d f f false = (Ok tt, store (store d f []) f []).
Proof. intros D. unfold save2incon. now rewrite D, store_same. Qed.

Lemma drop_name_app a b : ~ In "/"%char a -> drop_name (a ++ "/"%char :: b) = "/"%char :: b.
Proof.
  induction a as [|c a IH]; intros H; [reflexivity|]. cbn [app drop_name].
  destruct (Ascii.eqb_spec c "/"); [subst; destruct H; now left|]. apply IH. intros X. apply H. now right.
Qed.
Lemma drop_name_none a : ~ In "/"%char a -> drop_name a = [].
Proof.
  induction a as [|c a IH]; intros H; [reflexivity|]. cbn [drop_name].
  destruct (Ascii.eqb_spec c "/"); [subst; destruct H; now left|]. apply IH. intros X. apply H. now right.
Qed.
Theorem beside_dir dir c name f : ~ In "/"%char name -> c <> "/"%char ->
  beside ((dir ++ [c]) ++ "/"%char :: name) f = (dir ++ [c]) ++ "/"%char :: f.
Proof.
  intros N C. unfold beside, path_head. rewrite rev_app_distr. cbn [rev]. rewrite <- app_assoc. cbn [app].
  rewrite drop_name_app by (intros X; apply N; now apply in_rev). cbn [rev].
  rewrite rev_involutive. unfold rstrip_slash. rewrite rev_app_distr, rev_app_distr. cbn [rev app lstrip_slash].
  rewrite Ascii.eqb_refl. destruct (Ascii.eqb_spec c "/"); [contradiction|]. cbn [rev]. rewrite rev_involutive.
  destruct (dir ++ [c]) eqn:E; [destruct dir; discriminate|]. reflexivity.
Qed.
Theorem beside_here name f : ~ In "/"%char name -> beside name f = f.
Proof.
  intros N. unfold beside, path_head. rewrite drop_name_none by (intros X; apply N; now apply in_rev). reflexivity.
Qed.
