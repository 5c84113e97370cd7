(** An entry of the parameters changes nothing but its own block. *)
From Coq Require Import String Ascii Arith ZArith Bool Lia List.
From Verif Require Import Base.Str Base.Digits Base.Flt.
From Verif Require Import Model.Py Model.Records Model.Write.
From Verif Require Import Proofs.DictLemmas Proofs.KnownProof Spec.OwnBlock.
Import ListNotations.
Local Open Scope nat_scope.

(** When both succeed, the results are related. *)
Definition both {A B} (R : A -> B -> Prop) (x : res A) (y : res B) : Prop := forall a b, x = Ok a -> y = Ok b -> R a b.
Lemma bind_both {A B C D} (R : A -> B -> Prop) (Q : C -> D -> Prop) x y (f : A -> res C) (g : B -> res D) : both R x y -> (forall a b, R a b -> both Q (f a) (g b)) -> both Q (bind x f) (bind y g).
Proof. intros H K c d. destruct x as [a|], y as [b|]; cbn [bind]; try discriminate. apply K. now apply H. Qed.
Lemma both_eq {A} (x y : res A) : x = y -> both eq x y. Proof. intros -> a b E F. congruence. Qed.
Lemma both_any {A B} (x : res A) (y : res B) : both (fun _ _ => True) x y. Proof. intros a b _ _. exact I. Qed.

(** Records that differ by one stretch. *)
Definition rshape (kw : str) (c : list str) : Prop := c = [] \/ exists r l, c = (kw ++ r) :: l.
Definition rdiffer (kw : str) (t t' : list str) : Prop := exists a c c' b, t = a ++ c ++ b /\ t' = a ++ c' ++ b /\ rshape kw c /\ rshape kw c'.
Lemma rd_refl kw t : rdiffer kw t t. Proof. exists [], [], [], t. repeat split; now left. Qed.
Lemma rd_l kw a t t' : rdiffer kw t t' -> rdiffer kw (a ++ t) (a ++ t').
Proof. intros (x & c & c' & b & -> & -> & S). exists (a ++ x), c, c', b. rewrite <- !app_assoc. auto. Qed.
Lemma rd_r kw a t t' : rdiffer kw t t' -> rdiffer kw (t ++ a) (t' ++ a).
Proof. intros (x & c & c' & b & -> & -> & S). exists x, c, c', (b ++ a). rewrite <- !app_assoc. auto. Qed.
Lemma rd_shape kw c c' : rshape kw c -> rshape kw c' -> rdiffer kw c c'.
Proof. intros A B. exists [], c, c', []. rewrite !app_nil_r. auto. Qed.
Lemma shape_concat kw c : rshape kw c -> block_text kw (concat c).
Proof. intros [->|(r & l & ->)]; [now left|]. right. cbn [concat]. rewrite <- app_assoc. eauto. Qed.
Lemma rd_concat kw t t' : rdiffer kw t t' -> differ_in kw (concat t) (concat t').
Proof. intros (a & c & c' & b & -> & -> & S & S'). exists (concat a), (concat c), (concat c'), (concat b). rewrite !concat_app. auto using shape_concat. Qed.

(** The results of a block have its keyword. *)
Definition shapes (kw : str) (x : res (list str)) : Prop := forall c, x = Ok c -> rshape kw c.
Lemma sh_bind {A} kw (x : res A) f : (forall a, shapes kw (f a)) -> shapes kw (bind x f).
Proof. intros H c. destruct x; cbn [bind]; [apply H|discriminate]. Qed.
Lemma sh_block kw k b x : ljust 5 k = kw -> shapes kw (block k b x).
Proof. intros <- c. unfold block. destruct x; cbn [bind]; [|discriminate]. intros E. injection E as <-. right. unfold head. eauto. Qed.
Lemma sh_when kw c x : shapes kw x -> shapes kw (when c x).
Proof. intros H. unfold when. destruct c; [exact H|]. intros d E. injection E as <-. now left. Qed.
Lemma sh_true kw k f p : shapes kw (f p) -> shapes kw (if_true k f p).
Proof. intros H. unfold if_true. do 2 (apply sh_bind; intros ?). now apply sh_when. Qed.
Lemma sh_some kw k f p : shapes kw (f p) -> shapes kw (if_some k f p).
Proof. intros H. unfold if_some. apply sh_bind. intros ?. now apply sh_when. Qed.
Lemma sh_both kw x y : shapes kw x -> shapes kw y -> both (rdiffer kw) x y.
Proof. intros H K a b E F. apply rd_shape; auto. Qed.
Ltac shape := first [apply sh_true|apply sh_some|idtac]; cbv beta delta [write_flac write_solvr write_start write_param write_selec write_momop write_times write_foft write_coft write_goft write_oft write_gener write_diffu write_outpu write_coord write_conne write_incon write_nover];
  repeat first [simple apply sh_block; reflexivity|apply sh_bind; intros ?].

(** ** Parameters that agree but for one entry *)
Definition ag (k : key) (p p' : dict) : Prop := forall a, key_eqb a k = false -> dget a p = dget a p'.
Lemma ag_get k p p' a : key_eqb a k = false -> ag k p p' -> dgetE a p = dgetE a p'.
Proof. intros E H. unfold dgetE. now rewrite (H a E). Qed.
Lemma ag_dict k p p' a : key_eqb a k = false -> ag k p p' -> get_dict a p = get_dict a p'.
Proof. intros E H. unfold get_dict. now rewrite (ag_get k p p' a E H). Qed.
Lemma ag_at k t a ks p p' : key_eqb a k = false -> ag k p p' -> check_at t a ks p = check_at t a ks p'.
Proof. intros E H. unfold check_at. now rewrite (ag_get k p p' a E H). Qed.
Lemma ag_list k t a ks p p' : key_eqb a k = false -> ag k p p' -> check_list t a ks p = check_list t a ks p'.
Proof. intros E H. unfold check_list. now rewrite (ag_get k p p' a E H). Qed.
Lemma ag_set k p p' a v : ag k p p' -> ag k (dset a v p) (dset a v p').
Proof. intros H b E. rewrite !dget_dset. destruct (key_eqb b a); [reflexivity|now apply H]. Qed.
Ltac plains H := match type of H with ag ?k ?p ?p' => repeat first
  [match goal with |- context [dgetE ?a p] => rewrite (ag_get k p p' a eq_refl H) end | match goal with |- context [get_dict ?a p] => rewrite (ag_dict k p p' a eq_refl H) end
  |match goal with |- context [check_at ?t ?a ?ks p] => rewrite (ag_at k t a ks p p' eq_refl H) end | match goal with |- context [check_list ?t ?a ?ks p] => rewrite (ag_list k t a ks p p' eq_refl H) end] end.
Ltac pieces := cbv beta delta [if_true if_some write_title write_rpcap write_multi write_indom write_flac rock_order write_solvr write_start write_param write_selec write_momop write_times write_foft write_coft write_goft write_oft
  write_gener write_diffu write_outpu write_eleme write_coord write_conne write_incon write_nover order_of].
Lemma when_both kw c x y : both (rdiffer kw) x y -> both (rdiffer kw) (when c x) (when c y).
Proof. intros H. unfold when. destruct c; [exact H|]. intros a b E F. injection E as <-. injection F as <-. apply rd_refl. Qed.
(** One piece: the same, or the block that may differ. *)
Ltac piece kw H := first
  [apply bind_both with (R := eq); [apply both_eq; solve [reflexivity|pieces; plains H; reflexivity]|]; intros ? ? <-
  |apply bind_both with (R := rdiffer kw); [apply sh_both; shape|]; let D := fresh "D" in intros ? ? D].
Ltac rest := repeat first [apply rd_refl|assumption|apply rd_l|apply rd_r].
Ltac fin := intros ? ? ?E ?F; match goal with E : Ok _ = Ok _, F : Ok _ = Ok _ |- _ => injection E as <-; injection F as <- end.
Lemma rocks_ag k p p' : existsb (fun a => key_eqb a k) [#"default"; #"rocks"; #"rocks_order"] = false -> ag k p p' -> both (fun a b => fst a = fst b /\ ag k (snd a) (snd b)) (write_rocks p) (write_rocks p').
Proof.
  intros K H. cbn [existsb] in K. apply orb_false_iff in K as [K1 K]. apply orb_false_iff in K as [K2 K]. apply orb_false_iff in K as [K3 _].
  unfold write_rocks. rewrite (ag_at k dt_ROCKS #"default" [] p p' K1 H), !(ag_list k _ #"rocks" _ p p' K2 H), (ag_dict k p p' #"rocks" K2 H), (ag_get k p p' #"rocks_order" K3 H).
  do 6 (apply bind_both with (R := eq); [apply both_eq; reflexivity|]; intros ? ? <-). apply bind_both with (R := fun a b => fst a = fst b /\ ag k (snd a) (snd b)).
  - match goal with |- context [is_none ?o] => destruct (is_none o) end; [fin; auto|]. do 2 (apply bind_both with (R := eq); [apply both_eq; reflexivity|]; intros ? ? <-).
    fin. split; [reflexivity|]. now apply ag_set.
  - intros [l q] [l' q'] (E & X). cbn [fst snd] in *. subst l'. apply bind_both with (R := eq); [apply both_eq; reflexivity|]. intros x ? <-. fin. auto.
Qed.
Ltac part kw X := first
  [apply bind_both with (R := eq); [apply both_eq; solve [reflexivity|pieces; plains X; reflexivity]|]; intros ? ? <-
  |apply bind_both with (R := rdiffer kw); [first [apply sh_both; solve [shape]|repeat (piece kw X); fin; rest]|]; let D := fresh "D" in intros ? ? D].
Ltac begin H := unfold write_buffer; cbv zeta; plains H; apply bind_both with (R := fun _ _ => True); [apply both_any|]; intros ? ? _;
  do 12 (apply bind_both with (R := eq); [apply both_eq; reflexivity|]; intros ? ? <-).
(** The blocks up to the histories, and those after. *)
Ltac first_part kw k p p' sel H :=
  destruct sel; cbv iota; try (fin; cbn [fst snd]; split; [first [reflexivity|apply rd_refl]|exact H]);
  piece kw H; eapply bind_both; [exact (rocks_ag k p p' eq_refl H)|]; intros [? ?q] [? ?q'] (?E & ?X); cbn [fst snd] in *; subst;
  match goal with X : ag _ _ _ |- _ => clear H; do 13 piece kw X end; fin; cbn [fst snd]; split; [first [reflexivity|rest]|assumption].
Ltac last_part kw sel :=
  match goal with X : ag _ _ _ |- _ => destruct sel; cbv iota; do 5 part kw X; fin; rest end.
Ltac early kw k p p' sel := intros H; begin H; apply bind_both with (R := fun a b => rdiffer kw (fst a) (fst b) /\ ag k (snd a) (snd b));
  [first_part kw k p p' sel H|intros [? ?q] [? ?q'] (?D & ?X); cbn [fst snd] in *; clear H; last_part kw sel].
Ltac late kw k p p' sel := intros H; begin H; apply bind_both with (R := fun a b => fst a = fst b /\ ag k (snd a) (snd b));
  [first_part kw k p p' sel H|intros [? ?q] [? ?q'] (?D & ?X); cbn [fst snd] in *; subst; clear H; last_part kw sel].
Lemma only_flac p p' sel : ag #"flac" p p' -> both (rdiffer ($"FLAC ")) (write_buffer p sel) (write_buffer p' sel).
Proof. early ($"FLAC ") #"flac" p p' sel. Qed.
Lemma only_solver p p' sel : ag #"solver" p p' -> both (rdiffer ($"SOLVR")) (write_buffer p sel) (write_buffer p' sel).
Proof. early ($"SOLVR") #"solver" p p' sel. Qed.
Lemma only_start p p' sel : ag #"start" p p' -> both (rdiffer ($"START")) (write_buffer p sel) (write_buffer p' sel).
Proof. early ($"START") #"start" p p' sel. Qed.
Lemma only_options p p' sel : ag #"options" p p' -> both (rdiffer ($"PARAM")) (write_buffer p sel) (write_buffer p' sel).
Proof. early ($"PARAM") #"options" p p' sel. Qed.
Lemma only_extra_options p p' sel : ag #"extra_options" p p' -> both (rdiffer ($"PARAM")) (write_buffer p sel) (write_buffer p' sel).
Proof. early ($"PARAM") #"extra_options" p p' sel. Qed.
Lemma only_selections p p' sel : ag #"selections" p p' -> both (rdiffer ($"SELEC")) (write_buffer p sel) (write_buffer p' sel).
Proof. early ($"SELEC") #"selections" p p' sel. Qed.
Lemma only_more_options p p' sel : ag #"more_options" p p' -> both (rdiffer ($"MOMOP")) (write_buffer p sel) (write_buffer p' sel).
Proof. early ($"MOMOP") #"more_options" p p' sel. Qed.
Lemma only_times p p' sel : ag #"times" p p' -> both (rdiffer ($"TIMES")) (write_buffer p sel) (write_buffer p' sel).
Proof. early ($"TIMES") #"times" p p' sel. Qed.
Lemma only_element_history p p' sel : ag #"element_history" p p' -> both (rdiffer ($"FOFT ")) (write_buffer p sel) (write_buffer p' sel).
Proof. early ($"FOFT ") #"element_history" p p' sel. Qed.
Lemma only_connection_history p p' sel : ag #"connection_history" p p' -> both (rdiffer ($"COFT ")) (write_buffer p sel) (write_buffer p' sel).
Proof. early ($"COFT ") #"connection_history" p p' sel. Qed.
Lemma only_generator_history p p' sel : ag #"generator_history" p p' -> both (rdiffer ($"GOFT ")) (write_buffer p sel) (write_buffer p' sel).
Proof. early ($"GOFT ") #"generator_history" p p' sel. Qed.
Lemma only_generators p p' sel : ag #"generators" p p' -> both (rdiffer ($"GENER")) (write_buffer p sel) (write_buffer p' sel).
Proof. late ($"GENER") #"generators" p p' sel. Qed.
Lemma only_output p p' sel : ag #"output" p p' -> both (rdiffer ($"OUTPU")) (write_buffer p sel) (write_buffer p' sel).
Proof. late ($"OUTPU") #"output" p p' sel. Qed.
Lemma only_coordinates p p' sel : ag #"coordinates" p p' -> both (rdiffer ($"COORD")) (write_buffer p sel) (write_buffer p' sel).
Proof. late ($"COORD") #"coordinates" p p' sel. Qed.
Lemma only_connections p p' sel : ag #"connections" p p' -> both (rdiffer ($"CONNE")) (write_buffer p sel) (write_buffer p' sel).
Proof. late ($"CONNE") #"connections" p p' sel. Qed.
Lemma only_connections_order p p' sel : ag #"connections_order" p p' -> both (rdiffer ($"CONNE")) (write_buffer p sel) (write_buffer p' sel).
Proof. late ($"CONNE") #"connections_order" p p' sel. Qed.
Lemma only_initial_conditions p p' sel : ag #"initial_conditions" p p' -> both (rdiffer ($"INCON")) (write_buffer p sel) (write_buffer p' sel).
Proof. late ($"INCON") #"initial_conditions" p p' sel. Qed.
Lemma only_initial_conditions_order p p' sel : ag #"initial_conditions_order" p p' -> both (rdiffer ($"INCON")) (write_buffer p sel) (write_buffer p' sel).
Proof. late ($"INCON") #"initial_conditions_order" p p' sel. Qed.
Lemma only_nover p p' sel : ag #"nover" p p' -> both (rdiffer ($"NOVER")) (write_buffer p sel) (write_buffer p' sel).
Proof. late ($"NOVER") #"nover" p p' sel. Qed.
Lemma buffer_only k kw p p' sel : In (k, kw) own_blocks -> ag k p p' -> both (rdiffer kw) (write_buffer p sel) (write_buffer p' sel).
Proof.
  intros I H. unfold own_blocks in I. cbn [In] in I.
  repeat (destruct I as [I|I]; [injection I as <- <-; first [exact (only_flac p p' sel H)|exact (only_solver p p' sel H)|exact (only_start p p' sel H)|exact (only_options p p' sel H)|exact (only_extra_options p p' sel H)|exact (only_selections p p' sel H)|exact (only_more_options p p' sel H)|exact (only_times p p' sel H)|exact (only_element_history p p' sel H)|exact (only_connection_history p p' sel H)|exact (only_generator_history p p' sel H)|exact (only_generators p p' sel H)|exact (only_output p p' sel H)|exact (only_coordinates p p' sel H)|exact (only_connections p p' sel H)|exact (only_connections_order p p' sel H)|exact (only_initial_conditions p p' sel H)|exact (only_initial_conditions_order p p' sel H)|exact (only_nover p p' sel H)]|]). destruct I.
Qed.
Lemma prepare_only k u u' : existsb (fun a => key_eqb a k) [#"title"; #"default"; #"rocks"] = false -> same_but k u u' -> both (ag k) (prepare u) (prepare u').
Proof.
  intros K (N & N' & S1). cbn [existsb] in K. apply orb_false_iff in K as [K1 K]. apply orb_false_iff in K as [K2 K]. apply orb_false_iff in K as [K3 _].
  unfold prepare. cbv zeta. assert (H : ag k (dupdate d_Parameters u) (dupdate d_Parameters u')).
  { intros a E. rewrite !dget_dupdate by assumption. rewrite (S1 a); [reflexivity|]. intros ->. rewrite key_eqb_refl in E. discriminate E. }
  revert H. generalize (dupdate d_Parameters u) as p, (dupdate d_Parameters u') as p'. intros p p' H. rewrite (ag_get k p p' #"title" K1 H). apply bind_both with (R := eq); [apply both_eq; reflexivity|]. intros t ? <-.
  pose proof (ag_set k p p' #"title" (if is_str t then PSeq SList [t] else t) H) as H2. revert H2. generalize (dset #"title" (if is_str t then PSeq SList [t] else t) p) as q, (dset #"title" (if is_str t then PSeq SList [t] else t) p') as q'. intros q q' H2.
  rewrite (ag_dict k q q' #"default" K2 H2). apply bind_both with (R := eq); [apply both_eq; reflexivity|]. intros def ? <-.
  pose proof (ag_set k q q' #"default" (PDict (fill_default def)) H2) as H3. rewrite (ag_dict k _ _ #"rocks" K3 H3). do 2 (apply bind_both with (R := eq); [apply both_eq; reflexivity|]; intros ? ? <-).
  fin. now apply ag_set.
Qed.
Lemma only_own k kw u u' blk t t' : In (k, kw) own_blocks -> same_but k u u' -> write_text u blk = Ok t -> write_text u' blk = Ok t' -> differ_in kw t t'.
Proof.
  intros I S1. assert (K : existsb (fun a => key_eqb a k) [#"title"; #"default"; #"rocks"] = false).
  { assert (X : forallb (fun kv => negb (existsb (fun a => key_eqb a (fst kv)) [#"title"; #"default"; #"rocks"])) own_blocks = true) by (vm_compute; reflexivity).
    rewrite forallb_forall in X. specialize (X _ I). now apply negb_true_iff in X. }
  enough (B : both (differ_in kw) (write_text u blk) (write_text u' blk)) by (intros E F; exact (B t t' E F)). unfold write_text. destruct (sel_of blk) as [sel|]; [|intros a b E; discriminate E].
  eapply bind_both; [exact (prepare_only k u u' K S1)|]. intros p p' P. eapply bind_both; [exact (buffer_only k kw p p' sel I P)|]. intros r r' R. fin. now apply rd_concat.
Qed.
