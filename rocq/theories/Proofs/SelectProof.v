(** The blocks written for a selection. *)
From Coq Require Import String Ascii ZArith Bool Lia FinFun List.
From Verif Require Import Base.Str Base.Digits Base.Flt Base.FltText Base.FltInt.
From Verif Require Import Model.Py Model.Records Model.Write Model.Read.
From Verif Require Import Spec.Fields Spec.Values Spec.Types Spec.Layouts Spec.Rocks Spec.Flac Spec.Simple Spec.Param
  Spec.Indom Spec.Outpu Spec.Labels Spec.Mesh Spec.Incon Spec.Gener Spec.File.
From Verif Require Import Proofs.RecordLemmas Proofs.DictLemmas Proofs.Layouts Proofs.Types Proofs.BlockTools Proofs.RocksProof
  Proofs.FlacProof Proofs.SimpleProof Proofs.ParamProof Proofs.IndomProof Proofs.OutpuProof Proofs.LabelProof Proofs.MeshProof
  Proofs.InconProof Proofs.GenerProof Proofs.Samples Proofs.FileProof.
Import ListNotations.
Local Open Scope Z_scope.

Definition reordered (p p' : dict) : Prop := p' = p \/ exists v, p' = dset #"rocks_order" v p.
Lemma dgetE_re k p p' : reordered p p' -> k <> #"rocks_order" -> dgetE k p' = dgetE k p.
Proof. intros [-> | (v & ->)] N; [reflexivity|]. unfold dgetE. now rewrite dget_dset_other. Qed.
Lemma get_dict_re k p p' : reordered p p' -> k <> #"rocks_order" -> get_dict k p' = get_dict k p.
Proof. intros R N. unfold get_dict. now rewrite (dgetE_re k p p'). Qed.
Ltac re R := unfold check_at, check_list; repeat rewrite (dgetE_re _ _ _ R) by discriminate;
  repeat rewrite (get_dict_re _ _ _ R) by discriminate; reflexivity.
Lemma gener_re p p' : reordered p p' -> if_true #"generators" write_gener p' = if_true #"generators" write_gener p.
Proof. intros R. unfold if_true, write_gener. re R. Qed.
Lemma eleme_re p p' : reordered p p' -> if_true #"elements" write_eleme p' = if_true #"elements" write_eleme p.
Proof. intros R. unfold if_true, write_eleme, order_of. re R. Qed.
Lemma coord_re p p' : reordered p p' -> if_true #"coordinates" write_coord p' = if_true #"coordinates" write_coord p.
Proof. intros R. unfold if_true, write_coord, order_of. re R. Qed.
Lemma conne_re p p' : reordered p p' -> if_true #"connections" write_conne p' = if_true #"connections" write_conne p.
Proof. intros R. unfold if_true, write_conne, order_of. re R. Qed.
Lemma incon_re p p' : reordered p p' -> if_true #"initial_conditions" write_incon p' = if_true #"initial_conditions" write_incon p.
Proof. intros R. unfold if_true, write_incon, order_of. re R. Qed.

Lemma bind_Ok {A B} (r : res A) (f : A -> res B) b : bind r f = Ok b -> exists a, r = Ok a /\ f a = Ok b.
Proof. destruct r; cbn; [eauto|discriminate]. Qed.
Lemma rocks_re p o p' : write_rocks p = Ok (o, p') -> reordered p p'.
Proof.
  unfold write_rocks. intros E. do 4 (apply bind_Ok in E as ([] & _ & E)).
  apply bind_Ok in E as (rocks & _ & E). apply bind_Ok in E as (ord & _ & E). apply bind_Ok in E as ([l q] & E1 & E).
  apply bind_Ok in E as (out & _ & E). injection E as _ <-.
  destruct (is_none ord); [injection E1 as _ <-; now left|].
  apply bind_Ok in E1 as (o' & _ & E1). apply bind_Ok in E1 as (l' & _ & E1). injection E1 as _ <-. right. eauto.
Qed.

(** Parts of the file. *)
Definition mesh_part (p : dict) : res (list str) :=
  let* a := if_true #"elements" write_eleme p in
  let* b := if_true #"coordinates" write_coord p in
  let* c := if_true #"connections" write_conne p in
  Ok (a ++ b ++ c).
Lemma mesh_re p p' : reordered p p' -> mesh_part p' = mesh_part p.
Proof. intros R. unfold mesh_part. now rewrite (eleme_re _ _ R), (coord_re _ _ R), (conne_re _ _ R). Qed.

Ltac peel E := apply bind_Ok in E as (? & ? & E).
Lemma buffer_parts p t : write_buffer p SelAll = Ok t ->
  exists a g b m i c, t = a ++ g ++ b ++ m ++ i ++ c ++ [head_noend ($"ENDCY")] /\
    if_true #"generators" write_gener p = Ok g /\ mesh_part p = Ok m /\ if_true #"initial_conditions" write_incon p = Ok i /\
    write_buffer p SelGener = Ok g /\ write_buffer p SelMesh = Ok m /\ write_buffer p SelIncon = Ok i.
Proof.
  unfold write_buffer. intros E.
  apply bind_Ok in E as ([] & E1 & E). rewrite E1. cbn [bind].
  apply bind_Ok in E as (e & E2 & E). rewrite E2. cbn [bind].
  apply bind_Ok in E as (te & E3 & E). rewrite E3. cbn [bind].
  apply bind_Ok in E as ([] & E4 & E). rewrite E4. cbn [bind].
  apply bind_Ok in E as (def & E5 & E). rewrite E5. cbn [bind].
  apply bind_Ok in E as (c1 & E6 & E). rewrite E6. cbn [bind].
  apply bind_Ok in E as (c2 & E7 & E). rewrite E7. cbn [bind].
  apply bind_Ok in E as (rocks & E8 & E). rewrite E8. cbn [bind].
  apply bind_Ok in E as (ind & E9 & E). rewrite E9. cbn [bind].
  apply bind_Ok in E as (nc & E10 & E). rewrite E10. cbn [bind].
  apply bind_Ok in E as (tc & E11 & E). rewrite E11. cbn [bind].
  apply bind_Ok in E as (np & E12 & E). rewrite E12. cbn [bind].
  apply bind_Ok in E as (tp & E13 & E). rewrite E13. cbn [bind].
  apply bind_Ok in E as ([out1 p'] & E14 & E).
  apply bind_Ok in E as (g & Eg & E). apply bind_Ok in E as (b & Eb & E). apply bind_Ok in E as (m & Em & E).
  apply bind_Ok in E as (i & Ei & E). apply bind_Ok in E as (c & Ec & E).
  assert (R : reordered p p').
  { apply bind_Ok in E14 as (o0 & _ & E14). apply bind_Ok in E14 as ([o1 p1] & W & E14).
    apply rocks_re in W. repeat (apply bind_Ok in E14 as (? & _ & E14)). injection E14 as _ <-. exact W. }
  rewrite (gener_re _ _ R) in Eg. rewrite (incon_re _ _ R) in Ei. fold (mesh_part p') in Em. rewrite (mesh_re _ _ R) in Em.
  rewrite Eg, Ei. fold (mesh_part p). rewrite Em. cbn [bind app].
  apply bind_Ok in Ec as (nv & _ & Ec). cbn [write_endcy bind] in Ec.
  unfold write_endcy in Ec. cbn [bind] in Ec. injection Ec as <-. injection E as <-.
  exists out1, g, b, m, i, nv. rewrite !app_nil_r. split; [reflexivity|]. auto 10.
Qed.

Lemma concat_parts (a g b m i c : list str) e :
  concat (a ++ g ++ b ++ m ++ i ++ c ++ [e]) = concat a ++ concat g ++ concat b ++ concat m ++ concat i ++ concat c ++ e.
Proof. rewrite !concat_app. cbn [concat]. now rewrite app_nil_r. Qed.
Theorem selection_parts u t : write_text u ($"all") = Ok t ->
  exists a g b m i c, t = a ++ g ++ b ++ m ++ i ++ c ++ head_noend ($"ENDCY") /\
    write_text u ($"gener") = Ok g /\ write_text u ($"mesh") = Ok m /\ write_text u ($"incon") = Ok i.
Proof.
  unfold write_text. change (sel_of ($"all")) with (Some SelAll). change (sel_of ($"gener")) with (Some SelGener).
  change (sel_of ($"mesh")) with (Some SelMesh). change (sel_of ($"incon")) with (Some SelIncon). cbv iota.
  intros E. apply bind_Ok in E as (p & -> & E). apply bind_Ok in E as (l & W & E). injection E as <-.
  destruct (buffer_parts p l W) as (a & g & b & m & i & c & -> & _ & _ & _ & Wg & Wm & Wi).
  cbn [bind]. rewrite Wg, Wm, Wi. cbn [bind]. do 6 eexists. split; [apply concat_parts|auto].
Qed.
Theorem selection_unknown u s : ~ In s [$"all"; $"gener"; $"mesh"; $"incon"] -> write_text u s = Err ValueError.
Proof.
  intros N. unfold write_text, sel_of.
  repeat match goal with |- context [streqb s ?x] => let F := fresh in destruct (streqb s x) eqn:F; [apply streqb_eq in F; exfalso; apply N; subst; cbn [In]; tauto|] end.
  reflexivity.
Qed.

(** ** Reading the selected blocks *)
Lemma read_first kw ls fuel ll rest q : In kw [$"ELEME"; $"INCON"; $"GENER"] -> Forall good_line ls -> ls = head kw :: rest ->
  label_choice ll -> Run (label_given ll) [] ls (Ok q) -> read_text fuel ll (concat ls) = Ok q.
Proof.
  intros K G -> LC R.
  assert (B : forall t, read_text fuel ll t = read_buffer fuel (label_given ll) t).
  { intros t. unfold read_text, label_given. destruct ll as [z|]; [|reflexivity]. cbn [label_choice] in LC.
    replace (5 <=? z) with true by (symmetry; apply Z.leb_le; lia).
    replace (z <? 10) with true by (symmetry; apply Z.ltb_lt; lia). reflexivity. }
  rewrite B. unfold read_buffer. rewrite lines_all by auto. cbv zeta.
  assert (T : read_title fuel (head kw :: rest) = Ok []).
  { unfold read_title. cbn [readline]. destruct K as [<-|[<-|[<-|[]]]]; reflexivity. }
  rewrite T. cbn [bind]. apply R. auto.
Qed.
Lemma Run_nil ll q : Run ll q [] (Ok q).
Proof. intros fuel _. destruct fuel; reflexivity. Qed.

Section Selected.
Variables (u p : dict) (ll : option Z).
Hypothesis E : prepare u = Ok p.
Hypothesis H : FILE_ok p.
Hypothesis C : label_choice ll.
Hypothesis K : FILE_known (label_given ll) p.

Lemma all_written : exists l, write_buffer p SelAll = Ok l.
Proof.
  destruct (prepare_keys u p E) as [M NS]. pose proof H as (T & TT & R & _).
  assert (Q : is_seq (val #"title" p) = true).
  { pose proof (typed_at _ _ #"title" TextOrSequence T eq_refl) as X. destruct (val #"title" p) eqn:V; try discriminate; auto.
    exfalso. unfold titles_of in TT. rewrite V in TT. inversion_clear TT as [|? ? (s & Y & _)]. discriminate. }
  destruct (FILE_write (label_given ll) p H K M Q) as (os & W & S & _). eauto.
Qed.
Lemma part k kd f : In k top_keys -> kind_of k kinds_PARAMETERS = Some kd ->
  (match kd with Integer | Boolean | Text | Dictionary => true | _ => false end) = true ->
  if_true k f p = when (filled (val k p)) (f p).
Proof.
  intros I1 KK D. destruct (prepare_keys u p E) as [M NS]. pose proof H as (T & _). rewrite forallb_forall in M.
  eapply if_true_ok; eauto.
Qed.
Lemma text_of sel s l : sel_of s = Some sel -> write_buffer p sel = Ok l -> write_text u s = Ok (concat l).
Proof. intros X W. unfold write_text. rewrite X, E. cbn [bind]. now rewrite W. Qed.

Theorem gener_selected : filled (val #"generators" p) = true ->
  exists t, write_text u ($"gener") = Ok t /\ forall fuel, read_text fuel ll t = Ok (GENER_back p).
Proof.
  intros F. destruct all_written as (l & W). destruct (buffer_parts p l W) as (a & g & b & m & i & c & _ & Wg & _ & _ & Bg & _ & _).
  exists (concat g). split; [now apply (text_of SelGener)|]. intros fuel.
  rewrite (part _ Dictionary) in Wg by (auto; cbn; tauto). rewrite F in Wg. cbn [when] in Wg.
  assert (O : GENER_ok p) by (apply H; auto). destruct (GENER_block p O) as (W' & G & X).
  rewrite W' in Wg. injection Wg as <-.
  eapply (read_first ($"GENER")); [cbn; tauto| |reflexivity|auto|].
  - constructor; [now apply good_head|exact G].
  - rewrite <- (app_nil_r (GENER_body p)). eapply Run_block; [apply X; now apply K|]. apply Run_nil.
Qed.
Theorem incon_selected : filled (val #"initial_conditions" p) = true ->
  exists t, write_text u ($"incon") = Ok t /\ forall fuel, read_text fuel ll t = Ok (INCON_back p).
Proof.
  intros F. destruct all_written as (l & W). destruct (buffer_parts p l W) as (a & g & b & m & i & c & _ & _ & _ & Wi & _ & _ & Bi).
  exists (concat i). split; [now apply (text_of SelIncon)|]. intros fuel.
  rewrite (part _ Dictionary) in Wi by (auto; cbn; tauto). rewrite F in Wi. cbn [when] in Wi.
  assert (O : INCON_ok p) by (apply H; auto). destruct (INCON_block p O) as (W' & G & X).
  rewrite W' in Wi. injection Wi as <-.
  eapply (read_first ($"INCON")); [cbn; tauto| |reflexivity|auto|].
  - constructor; [now apply good_head|exact G].
  - rewrite <- (app_nil_r (INCON_body p)). eapply Run_block; [apply X; now apply K|]. apply Run_nil.
Qed.
Lemma coord_ready q : COORD_pre p (ELEME_upd p q).
Proof.
  unfold COORD_pre, ELEME_upd. rewrite !dget_dset_other by discriminate.
  split; [unfold dupdate; cbn [fold_left fst snd]; apply dget_dset_same|].
  exists (elements_back p). split; [unfold dupdate; cbn [fold_left fst snd]; rewrite dget_dset_other by discriminate; apply dget_dset_same|].
  unfold elements_back, dkeys. rewrite map_map. split; [reflexivity|].
  apply Forall_forall. intros kv Hx. apply in_map_iff in Hx as (x & <- & _). reflexivity.
Qed.
Theorem mesh_selected : filled (val #"elements" p) = true ->
  exists t, write_text u ($"mesh") = Ok t /\ forall fuel, read_text fuel ll t = Ok (MESH_back p).
Proof.
  intros F. destruct all_written as (l & W). destruct (buffer_parts p l W) as (a & g & b & m & i & c & _ & _ & Wm & _ & _ & Bm & _).
  exists (concat m). split; [now apply (text_of SelMesh)|]. intros fuel.
  unfold mesh_part in Wm. rewrite (part #"elements" Dictionary), (part #"coordinates" Boolean), (part #"connections" Dictionary) in Wm by (auto; cbn; tauto).
  rewrite F in Wm. cbn [when] in Wm.
  assert (O : ELEME_ok p) by (apply H; auto). destruct (ELEME_block p O) as (W' & G & X).
  rewrite W' in Wm. cbn [bind] in Wm.
  assert (XC : forall q, read_block (label_given ll) (head ($"ELEME")) q (ELEME_body p ++ []) = Ok (true, ELEME_upd p q, [])) by (intros; apply X; now apply K).
  assert (Y : exists cb, when (filled (val #"coordinates" p)) (write_coord p) = Ok cb /\ Forall good_line cb /\
    forall q rest r, COORD_pre p q -> Run (label_given ll) (if filled (val #"coordinates" p) then COORD_upd p q else q) rest r ->
      Run (label_given ll) q (cb ++ rest) r).
  { destruct (filled (val #"coordinates" p)) eqn:FC; cbn [when].
    - assert (OC : COORD_ok p) by (apply H; auto). destruct (COORD_block p OC) as (WC & GC & XX). eexists. split; [exact WC|].
      split; [constructor; [now apply good_head|exact GC]|]. intros q rest r P R. cbn [app]. eapply Run_block; [now apply XX|exact R].
    - exists []. split; [reflexivity|]. split; [constructor|]. intros q rest r _ R. exact R. }
  destruct Y as (cb & Wc & Gc & Yc). rewrite Wc in Wm. cbn [bind] in Wm.
  assert (Z : exists nb, when (filled (val #"connections" p)) (write_conne p) = Ok nb /\ Forall good_line nb /\
    forall q, Run (label_given ll) q nb (Ok (if filled (val #"connections" p) then dupdate q (CONNE_back p) else q))).
  { destruct (filled (val #"connections" p)) eqn:FC; cbn [when].
    - assert (OC : CONNE_ok p) by (apply H; auto). destruct (CONNE_block p OC) as (WC & GC & XX). eexists. split; [exact WC|].
      split; [constructor; [now apply good_head|exact GC]|]. intros q. rewrite <- (app_nil_r (CONNE_body p)).
      eapply Run_block; [apply XX; now apply K|]. apply Run_nil.
    - exists []. split; [reflexivity|]. split; [constructor|]. intros q. apply Run_nil. }
  destruct Z as (nb & Wn & Gn & Yn). rewrite Wn in Wm. cbn [bind] in Wm. injection Wm as <-.
  eapply (read_first ($"ELEME")); [cbn; tauto| |reflexivity|auto|].
  - cbn [app]. constructor; [now apply good_head|]. apply Forall_app. split; [exact G|]. apply Forall_app. now split.
  - cbn [app]. eapply Run_block; [apply X; now apply K|]. apply Yc; [apply coord_ready|].
    exact (Yn _).
Qed.
End Selected.
