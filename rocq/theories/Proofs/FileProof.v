(** The whole input file: what is written is what is read. *)
From Coq Require Import String Ascii ZArith Bool Lia FinFun List.
From Verif Require Import Base.Str Base.Digits Base.Flt Base.FltText Base.FltInt.
From Verif Require Import Model.Py Model.Records Model.Write Model.Read.
From Verif Require Import Spec.Fields Spec.Values Spec.Types Spec.Layouts Spec.Rocks Spec.Flac Spec.Simple Spec.Param
  Spec.Indom Spec.Outpu Spec.Labels Spec.Mesh Spec.Incon Spec.Gener Spec.File.
From Verif Require Import Proofs.RecordLemmas Proofs.DictLemmas Proofs.Layouts Proofs.Types Proofs.BlockTools Proofs.RocksProof
  Proofs.FlacProof Proofs.SimpleProof Proofs.ParamProof Proofs.IndomProof Proofs.OutpuProof Proofs.LabelProof Proofs.MeshProof
  Proofs.InconProof Proofs.GenerProof Proofs.Samples.
Import ListNotations.
Local Open Scope Z_scope.

(** ** Running the main loop with enough fuel *)
Definition Run (ll : option nat) (q : dict) (ls : list str) (r : res dict) : Prop :=
  forall fuel, (List.length ls <= fuel)%nat -> read_blocks fuel ll q ls = r.
Lemma Run_step ll l q q' ls ls' r : read_block ll l q ls = Ok (true, q', ls') ->
  (List.length ls' <= List.length ls)%nat -> Run ll q' ls' r -> Run ll q (l :: ls) r.
Proof.
  intros E L H fuel F. cbn [List.length] in F. destruct fuel as [|fuel]; [lia|].
  cbn [read_blocks]. rewrite E. cbn [bind]. apply H. lia.
Qed.
Lemma Run_block ll l q q' body rest r : read_block ll l q (body ++ rest) = Ok (true, q', rest) ->
  Run ll q' rest r -> Run ll q (l :: body ++ rest) r.
Proof. intros E H. eapply Run_step; [exact E| |exact H]. rewrite app_length. lia. Qed.
Lemma Run_end ll q rest : Run ll q (head_noend ($"ENDCY") :: rest) (Ok q).
Proof. intros [|fuel] F; [cbn in F; lia|]. reflexivity. Qed.

(** ** Segments of a file *)
Definition spaced (b : str) : Prop := forallb is_space b = true.
Definition follows (rest : list str) : Prop :=
  (not_numbers fmt_DIFFU rest /\ not_numbers fmt_PARAM_5 rest) \/ exists b r, rest = b :: r /\ spaced b.
Lemma follows_block rest : block_follows head head_noend rest -> follows rest.
Proof. intros F. left. split; [exact (header_not_numbers fmt_DIFFU rest (or_introl eq_refl) F)|exact (header_not_numbers fmt_PARAM_5 rest (or_intror (or_introl eq_refl)) F)]. Qed.
Lemma spaces_skipped ll b q r : spaced b -> read_block ll b q r = Ok (true, q, r).
Proof.
  intros S. unfold read_block. assert (Y : forallb (fun kw => negb (startswith kw b)) block_names = true).
  { destruct b as [|a b]; [reflexivity|]. unfold spaced in S. cbn [forallb] in S. apply andb_true_iff in S as [S1 _].
    clear -S1. destruct a as [[] [] [] [] [] [] [] []]; try discriminate S1; reflexivity. }
  unfold block_names in Y. cbn [forallb] in Y.
  repeat (apply andb_true_iff in Y as [?X Y]; apply negb_true_iff in X; rewrite X; clear X). reflexivity.
Qed.
Lemma Run_spaces ll q b r x : spaced b -> Run ll q (b :: r) x -> Run ll q r x.
Proof.
  intros S R n L. specialize (R (Datatypes.S n) ltac:(cbn [List.length]; lia)). cbn [read_blocks] in R. rewrite spaces_skipped in R by exact S. exact R.
Qed.
Definition heads (o : list str) : Prop := o = [] \/ exists kw b, In kw block_names /\ o = head kw :: b.
Definition segment (ll : option nat) (I J : dict -> Prop) (o : list str) (upd : dict -> dict) : Prop :=
  heads o /\ Forall good_line o /\ (forall q, I q -> J (upd q)) /\
  forall q rest r, I q -> follows rest -> Run ll (upd q) rest r -> Run ll q (o ++ rest) r.

Lemma heads_follows o rest : heads o -> follows rest -> follows (o ++ rest).
Proof.
  intros [->|(kw & b & K & ->)] F; [exact F|]. apply follows_block. exists kw, (b ++ rest). split; auto.
Qed.
Lemma segment_nil ll (I J : dict -> Prop) upd : (forall q, upd q = q) -> (forall q, I q -> J q) -> segment ll I J [] upd.
Proof.
  intros E IJ. split; [now left|]. split; [constructor|]. split; intros; rewrite E in *; auto.
Qed.
Lemma segment_block ll (I J : dict -> Prop) kw body upd : In kw block_names -> one_line kw = true ->
  Forall good_line body -> (forall q, I q -> J (upd q)) ->
  (forall q rest, I q -> follows rest -> read_block ll (head kw) q (body ++ rest) = Ok (true, upd q, rest)) ->
  segment ll I J (head kw :: body) upd.
Proof.
  intros K O G P R. split; [right; eauto|]. split; [constructor; auto using good_head|]. split; auto.
  intros q rest r Iq F H. cbn [app]. eapply Run_block; eauto.
Qed.
Definition on (s : bool * (dict -> dict)) : dict -> dict := fun q => if fst s then snd s q else q.

Inductive segments (ll : option nat) : (dict -> Prop) -> list (list str) -> list (bool * (dict -> dict)) -> Prop :=
| seg_nil I : segments ll I [] []
| seg_cons (I J : dict -> Prop) o s os ss : segment ll I J o (on s) -> segments ll J os ss -> segments ll I (o :: os) (s :: ss).
Lemma segments_follows ll I os ss rest : segments ll I os ss -> follows rest -> follows (concat os ++ rest).
Proof.
  induction 1 as [|I J o s os ss H S IH]; intros F; cbn [concat app]; auto. rewrite <- app_assoc.
  apply heads_follows; [apply H|auto].
Qed.
Lemma segments_good ll I os ss : segments ll I os ss -> Forall good_line (concat os).
Proof.
  induction 1 as [|I J o s os ss H S IH]; cbn [concat]; auto. apply Forall_app. split; [apply H|auto].
Qed.
Lemma segments_run ll I os ss : segments ll I os ss -> forall q rest r, I q -> follows rest ->
  Run ll (run_steps ss q) rest r -> Run ll q (concat os ++ rest) r.
Proof.
  induction 1 as [|I J o s os ss H S IH]; intros q rest r Iq F R; cbn [concat app]; auto.
  rewrite <- app_assoc. destruct H as (H1 & H2 & H3 & H4). apply H4; [auto|eapply segments_follows; eauto|auto].
Qed.

(** ** Lines of the text *)
Lemma lines_good ls : Forall good_line ls -> forall rest, lines (concat ls ++ rest) = ls ++ lines rest.
Proof.
  induction 1 as [|l ls (b & -> & O) F IH]; intros rest; cbn [concat app]; auto.
  rewrite <- !app_assoc. cbn [app]. rewrite lines_line, IH; auto.
Qed.
Lemma lines_all ls : Forall good_line ls -> lines (concat ls) = ls.
Proof. intros F. rewrite <- (app_nil_r (concat ls)), lines_good by auto. now rewrite app_nil_r. Qed.

(** ** The state while reading *)
Definition Inv (p q : dict) : Prop := FLAC_pre p q /\ default_readable q.
Definition same_at (ks : list key) (q q' : dict) : Prop := forall k, In k ks -> dget k q' = dget k q.
Lemma Inv_same p q q' : same_at [#"rocks"; #"rocks_order"; #"default"] q q' -> Inv p q -> Inv p q'.
Proof.
  intros E [[H1 H2] H3]. unfold Inv, FLAC_pre, has_rocks, default_readable in *.
  rewrite !E by (cbn [In]; tauto). auto.
Qed.
Lemma dget_not_in k u q : no_dup_keys (dkeys u) = true -> existsb (key_eqb k) (dkeys u) = false -> dget k (dupdate q u) = dget k q.
Proof.
  intros U N. rewrite dget_dupdate by now apply no_dup_keys_ok.
  destruct (dget k u) eqn:E; auto. apply dget_in in E. exfalso. apply (in_map fst) in E.
  assert (X : existsb (key_eqb k) (dkeys u) = true); [|congruence]. apply existsb_exists. exists k. split; auto. apply key_eqb_refl.
Qed.
Lemma Inv_update p u q : no_dup_keys (dkeys u) = true ->
  forallb (fun k => negb (existsb (key_eqb k) (dkeys u))) [#"rocks"; #"rocks_order"; #"default"] = true ->
  Inv p q -> Inv p (dupdate q u).
Proof.
  intros U N. apply Inv_same. intros k Hk. rewrite forallb_forall in N. apply dget_not_in; auto.
  apply negb_true_iff. auto.
Qed.
Lemma Inv_set p k v q : existsb (key_eqb k) [#"rocks"; #"rocks_order"; #"default"] = false -> Inv p q -> Inv p (dset k v q).
Proof.
  intros N. apply Inv_same. intros k' Hk. apply dget_dset_other. intros ->.
  assert (X : existsb (key_eqb k) [#"rocks"; #"rocks_order"; #"default"] = true); [|congruence].
  apply existsb_exists. exists k. split; auto. apply key_eqb_refl.
Qed.
Lemma Inv_default p v q : Inv p q -> Inv p (dset #"default" (PDict v) q).
Proof.
  intros [[H1 H2] H3]. unfold Inv, FLAC_pre, has_rocks, default_readable in *.
  rewrite !(dget_dset_other #"rocks_order"), !(dget_dset_other #"rocks") by discriminate. rewrite dget_dset_same. eauto.
Qed.
Lemma Inv_rocks p u q : Inv p q -> Inv p (with_rocks u q).
Proof.
  intros [[H1 (rq & H2 & H3 & H4)] H5]. unfold Inv, FLAC_pre, has_rocks, default_readable, with_rocks in *.
  rewrite !(dget_dset_other #"rocks_order"), !(dget_dset_other #"default") by discriminate. rewrite dget_dset_same.
  split; [|exact H5]. split; [exact H1|]. exists (merge_rocks u rq). rewrite (val_some _ _ _ H2). cbn [entries]. split; auto.
  rewrite merge_rocks_keys. split; auto.
  unfold merge_rocks. apply Forall_forall. intros kv K. apply in_map_iff in K as ([k v] & <- & K). cbn [fst snd].
  rewrite Forall_forall in H4. specialize (H4 _ K). destruct (dget k u) as [[]|]; auto.
Qed.

(** ** The writers do not look at the order of the rocks *)
Lemma after_cases (P : dict -> Prop) p : P p -> (forall v, P (dset #"rocks_order" v p)) -> P (ROCKS_after p).
Proof. intros H1 H2. unfold ROCKS_after. destruct (val #"rocks_order" p); auto. Qed.
Lemma dgetE_after k p : k <> #"rocks_order" -> dgetE k (ROCKS_after p) = dgetE k p.
Proof. intros N. unfold dgetE. apply after_cases; auto. intros v. now rewrite dget_dset_other. Qed.
Lemma get_dict_after k p : k <> #"rocks_order" -> get_dict k (ROCKS_after p) = get_dict k p.
Proof. intros N. unfold get_dict. now rewrite dgetE_after. Qed.
Ltac after := unfold check_at, check_list; repeat rewrite dgetE_after by discriminate;
  repeat rewrite get_dict_after by discriminate; reflexivity.
Lemma rpcap_after p : write_rpcap (ROCKS_after p) = write_rpcap p.
Proof. unfold write_rpcap. after. Qed.
Lemma multi_after p : write_multi (ROCKS_after p) = write_multi p.
Proof. unfold write_multi. after. Qed.
Lemma solvr_after p : write_solvr (ROCKS_after p) = write_solvr p.
Proof. unfold write_solvr. after. Qed.
Lemma param_after p : write_param (ROCKS_after p) = write_param p.
Proof. unfold write_param. after. Qed.
Lemma selec_after p : write_selec (ROCKS_after p) = write_selec p.
Proof. unfold write_selec. after. Qed.
Lemma momop_after p : write_momop (ROCKS_after p) = write_momop p.
Proof. unfold write_momop. after. Qed.
Lemma times_after p : write_times (ROCKS_after p) = write_times p.
Proof. unfold write_times. after. Qed.
Lemma foft_after p : write_foft (ROCKS_after p) = write_foft p.
Proof. unfold write_foft, write_oft. after. Qed.
Lemma coft_after p : write_coft (ROCKS_after p) = write_coft p.
Proof. unfold write_coft, write_oft. after. Qed.
Lemma goft_after p : write_goft (ROCKS_after p) = write_goft p.
Proof. unfold write_goft, write_oft. after. Qed.
Lemma gener_after p : write_gener (ROCKS_after p) = write_gener p.
Proof. unfold write_gener. after. Qed.
Lemma diffu_after p : write_diffu (ROCKS_after p) = write_diffu p.
Proof. unfold write_diffu. after. Qed.
Lemma outpu_after p : write_outpu (ROCKS_after p) = write_outpu p.
Proof. unfold write_outpu. after. Qed.
Lemma eleme_after p : write_eleme (ROCKS_after p) = write_eleme p.
Proof. unfold write_eleme, order_of. after. Qed.
Lemma coord_after p : write_coord (ROCKS_after p) = write_coord p.
Proof. unfold write_coord, order_of. after. Qed.
Lemma conne_after p : write_conne (ROCKS_after p) = write_conne p.
Proof. unfold write_conne, order_of. after. Qed.
Lemma incon_after p : write_incon (ROCKS_after p) = write_incon p.
Proof. unfold write_incon, order_of. after. Qed.

(** FLAC and INDOM do, but the completed order gives the same. *)
Lemma rock_order_after p : ROCKS_ok p -> order_plain (val #"rocks_order" p) ->
  rock_order (ROCKS_after p) (rocks_of p) = rock_order p (rocks_of p).
Proof.
  intros H P. pose proof (ROCKS_names p H) as A. destruct H as (_ & _ & M & O & U & _).
  rewrite rock_order_ok by auto.
  pose proof (full_order_nodup _ _ A U O) as ND.
  pose proof (fun x => full_order_in _ _ x A O) as FI.
  pose proof (fun s => full_order_complete _ _ s O) as FC.
  unfold ROCKS_after. destruct (val #"rocks_order" p) as [| | | | | |k l|] eqn:E; try (rewrite rock_order_ok by (rewrite ?E; auto); reflexivity).
  assert (E1 : val #"rocks_order" (dset #"rocks_order" (PSeq k (rocks_order_of p)) p) = PSeq k (rocks_order_of p)).
  { apply val_some, dget_dset_same. }
  assert (E2 : rocks_of (dset #"rocks_order" (PSeq k (rocks_order_of p)) p) = rocks_of p).
  { unfold rocks_of, val. now rewrite dget_dset_other by discriminate. }
  unfold rocks_order_of in E1, E2 |- *. rewrite E in *.
  assert (O2 : order_ok (PSeq k (full_order (PSeq k l) (rocks_of p))) (rocks_of p)).
  { cbn [order_ok]. split; [exact ND|]. split; [now apply Forall_forall|]. right. exact FC. }
  rewrite <- E2 at 2. rewrite rock_order_ok; rewrite ?E1, ?E2; auto.
  - unfold rocks_order_of. rewrite E1, E2. cbn [full_order] in FC |- *. rewrite (full_order_full _ (dkeys (rocks_of p)) A FC). now rewrite app_nil_r.
  - apply dmem_some with (PSeq k (full_order (PSeq k l) (rocks_of p))). apply dget_dset_same.
Qed.
Lemma flac_after p : ROCKS_ok p -> FLAC_ok p -> write_flac (ROCKS_after p) = write_flac p.
Proof.
  intros H (G & U & T & C1 & C2 & (def & D & FD) & R & RO & O & P & UR & F). unfold write_flac.
  unfold check_at, check_list; repeat rewrite dgetE_after by discriminate; repeat rewrite get_dict_after by discriminate.
  assert (E : get_dict #"rocks" p = Ok (rocks_of p)) by (unfold get_dict, dgetE; now rewrite R).
  rewrite E. cbn [bind]. rewrite rock_order_after by auto. reflexivity.
Qed.
Lemma indom_after p : ROCKS_ok p -> INDOM_ok p -> write_indom (ROCKS_after p) = write_indom p.
Proof.
  intros H (R & RO & O & P & UR & F). unfold write_indom.
  unfold check_at, check_list; repeat rewrite dgetE_after by discriminate; repeat rewrite get_dict_after by discriminate.
  assert (E : get_dict #"rocks" p = Ok (rocks_of p)) by (unfold get_dict, dgetE; now rewrite R).
  rewrite E. cbn [bind]. rewrite rock_order_after by auto. reflexivity.
Qed.

(** ** One segment per block *)
Definition opens (b : bool) (kw : str) (o : list str) : Prop := if b then exists body, o = head kw :: body else o = [].
Lemma seg_opt ll (I J : dict -> Prop) (b : bool) w kw upd : In kw block_names -> one_line kw = true ->
  (b = true -> exists body, w = Ok (head kw :: body) /\ Forall good_line body /\
     forall q rest r, I q -> follows rest -> Run ll (upd q) rest r -> Run ll q (head kw :: body ++ rest) r) ->
  (b = true -> forall q, I q -> J (upd q)) -> (b = false -> forall q, I q -> J q) ->
  exists o, when b w = Ok o /\ segment ll I J o (on (b, upd)) /\ opens b kw o.
Proof.
  intros K L H U N. destruct b.
  - destruct (H eq_refl) as (body & -> & G & R). eexists. split; [reflexivity|]. split; [|eexists; reflexivity].
    split; [right; eauto|]. split; [constructor; auto using good_head|]. split; [apply U; auto|].
    intros q rest r Iq F E. cbn [app]. auto.
  - exists []. split; [reflexivity|]. split; [|reflexivity]. apply segment_nil; auto.
Qed.
Lemma seg_plain ll (I J : dict -> Prop) (b : bool) w kw upd : In kw block_names -> one_line kw = true ->
  (b = true -> exists body, w = Ok (head kw :: body) /\ Forall good_line body /\
     forall q rest, I q -> follows rest -> read_block ll (head kw) q (body ++ rest) = Ok (true, upd q, rest)) ->
  (b = true -> forall q, I q -> J (upd q)) -> (b = false -> forall q, I q -> J q) ->
  exists o, when b w = Ok o /\ segment ll I J o (on (b, upd)) /\ opens b kw o.
Proof.
  intros K L H U N. apply (seg_opt ll I J b w kw); auto. intros E. destruct (H E) as (body & W & G & R).
  exists body. split; auto. split; auto. intros q rest r Iq F X. eapply Run_block; eauto.
Qed.
Ltac kw := cbn [block_names In]; tauto.

Section Blocks.
Variables (ll : option nat) (p : dict).
Hypothesis H : FILE_ok p.
Hypothesis K : FILE_known ll p.
Notation p' := (ROCKS_after p).
Notation seg kw b w upd := (exists o, when b w = Ok o /\ segment ll (Inv p) (Inv p) o (on (b%bool, upd)) /\ opens b kw o).

Lemma seg_RPCAP : seg ($"RPCAP") (rpcap_given p) (write_rpcap p') (with_default (models_back (default_of p))).
Proof.
  rewrite rpcap_after. apply seg_plain; auto; [kw| |].
  - intros _. destruct H as (_ & _ & _ & R & _). pose proof R as (def & D & _).
    assert (E : default_of p = def) by (unfold default_of; now rewrite (val_some _ _ _ D)). rewrite E.
    destruct (RPCAP_block p def D R) as (W & G & X). eexists. do 2 (split; [eassumption|]).
    intros q rest [_ I] _. now apply X.
  - intros _ q I. now apply Inv_default.
Qed.
Lemma seg_FLAC : seg ($"FLAC") (given #"flac" p) (write_flac p') (FLAC_upd p).
Proof.
  destruct H as (_ & _ & R & _ & _ & _ & F & _).
  apply seg_opt; auto; [kw| |].
  - intros E. specialize (F E). rewrite flac_after by auto. destruct (FLAC_block p F) as (W & G & X).
    eexists. do 2 (split; [eassumption|]). intros q rest r [I _] _ Y.
    eapply Run_step; [now apply X| |].
    + cbn [List.length]. rewrite app_length. unfold FLAC_body. cbn [List.length]. lia.
    + eapply Run_step; [reflexivity|auto|exact Y].
  - intros _ q I. unfold FLAC_upd. now apply Inv_rocks, Inv_set.
Qed.
Lemma seg_MULTI : seg ($"MULTI") (multi_given p) (write_multi p') (fun q => dupdate q (MULTI_back p)).
Proof.
  destruct H as (_ & _ & _ & _ & _ & _ & _ & F & _).
  rewrite multi_after. apply seg_plain; auto; [kw| |].
  - intros E. destruct (MULTI_block p (F E)) as (W & G & X). eexists. do 2 (split; [eassumption|]). intros; apply X.
  - intros _ q. now apply Inv_update.
Qed.
Lemma seg_SOLVR : seg ($"SOLVR") (filled (val #"solver" p)) (write_solvr p') (fun q => dupdate q (SOLVR_back p)).
Proof.
  destruct H as (_ & _ & _ & _ & _ & _ & _ & _ & F & _).
  rewrite solvr_after. apply seg_plain; auto; [kw| |].
  - intros E. destruct (SOLVR_block p (F E)) as (W & G & X). eexists. do 2 (split; [eassumption|]). intros; apply X.
  - intros _ q. now apply Inv_update.
Qed.
Lemma seg_START : seg ($"START") (filled (val #"start" p)) write_start (dset #"start" (PBool true)).
Proof.
  apply seg_opt; auto; [kw| |].
  - intros E. destruct (START_block ll [] [] 0) as (W & G & _). apply Forall_cons_iff in G as [G1 G2].
    exists [start_line]. do 2 (split; [assumption|]). intros q rest r _ _ Y. cbn [app].
    eapply Run_step; [reflexivity|auto|]. eapply Run_step; [reflexivity|auto|exact Y].
  - intros _ q. now apply Inv_set.
Qed.
Lemma seg_PARAM : seg ($"PARAM") true (write_param p') (PARAM_upd p).
Proof.
  destruct H as (_ & _ & _ & _ & F & _).
  rewrite param_after. apply seg_opt; auto; [kw| |].
  - intros E. destruct (PARAM_block p F) as (W & G & _). eexists. do 2 (split; [eassumption|]).
    intros q rest r [_ I] Y Z. destruct (Nat.le_gt_cases (List.length (conditions_of p)) 4) as [L|L].
    + destruct Y as [(_ & N)|(b & s & -> & S)].
      * eapply Run_block; [|exact Z]. apply PARAM_passed; auto. right. split; auto. left. auto.
      * eapply Run_step; [apply PARAM_passed; auto; right; split; auto; right; exists b; split; [reflexivity|exact S]| |exact (Run_spaces _ _ _ _ _ S Z)].
        rewrite app_length. cbn [List.length]. lia.
    + eapply Run_block; [|exact Z]. apply PARAM_passed; auto. left. auto.
  - intros _ q I. unfold PARAM_upd. apply Inv_default. apply Inv_set; auto. apply Inv_set; auto.
Qed.
Lemma seg_SELEC : seg ($"SELEC") (filled (val #"selections" p)) (write_selec p') (fun q => dupdate q (SELEC_back p)).
Proof.
  destruct H as (_ & _ & _ & _ & _ & _ & _ & _ & _ & F & _).
  rewrite selec_after. apply seg_plain; auto; [kw| |].
  - intros E. destruct (SELEC_block p (F E)) as (W & G & X). eexists. do 2 (split; [eassumption|]). intros; apply X.
  - intros _ q. now apply Inv_update.
Qed.
Lemma seg_INDOM : seg ($"INDOM") (indom_given p) (write_indom p') (with_rocks (indom_back p)).
Proof.
  destruct H as (_ & _ & R & _ & _ & _ & _ & _ & _ & _ & F & _).
  apply seg_plain; auto; [kw| |].
  - intros E. specialize (F E). rewrite indom_after by auto. destruct (INDOM_block p F) as (W & G & X).
    eexists. do 2 (split; [eassumption|]). intros q rest [[_ I] _] _. now apply X.
  - intros _ q. apply Inv_rocks.
Qed.
Lemma seg_MOMOP : seg ($"MOMOP") (filled (val #"more_options" p)) (write_momop p') (fun q => dupdate q (MOMOP_back p)).
Proof.
  destruct H as (_ & _ & _ & _ & _ & _ & _ & _ & _ & _ & _ & F & _).
  rewrite momop_after. apply seg_plain; auto; [kw| |].
  - intros E. destruct (MOMOP_block p (F E)) as (W & G & X). eexists. do 2 (split; [eassumption|]). intros; apply X.
  - intros _ q. now apply Inv_update.
Qed.
Lemma seg_TIMES : seg ($"TIMES") (given #"times" p) (write_times p') (fun q => dupdate q (TIMES_back p)).
Proof.
  destruct H as (_ & _ & _ & _ & _ & _ & _ & _ & _ & _ & _ & _ & F & _).
  rewrite times_after. apply seg_plain; auto; [kw| |].
  - intros E. destruct (TIMES_block p (F E)) as (W & G & X). eexists. do 2 (split; [eassumption|]). intros; apply X.
  - intros _ q. now apply Inv_update.
Qed.
Lemma seg_FOFT : seg ($"FOFT") (given #"element_history" p) (write_foft p') (fun q => dupdate q (OFT_back #"element_history" p)).
Proof.
  destruct H as (_ & _ & _ & _ & _ & _ & _ & _ & _ & _ & _ & _ & _ & F & _).
  rewrite foft_after. apply seg_plain; auto; [kw| |].
  - intros E. destruct (FOFT_block p (F E)) as (W & G & X). eexists. do 2 (split; [eassumption|]). intros; apply X.
  - intros _ q. now apply Inv_update.
Qed.
Lemma seg_COFT : seg ($"COFT") (given #"connection_history" p) (write_coft p') (fun q => dupdate q (OFT_back #"connection_history" p)).
Proof.
  destruct H as (_ & _ & _ & _ & _ & _ & _ & _ & _ & _ & _ & _ & _ & _ & F & _).
  rewrite coft_after. apply seg_plain; auto; [kw| |].
  - intros E. destruct (COFT_block p (F E)) as (W & G & X). eexists. do 2 (split; [eassumption|]). intros; apply X.
  - intros _ q. now apply Inv_update.
Qed.
Lemma seg_GOFT : seg ($"GOFT") (given #"generator_history" p) (write_goft p') (fun q => dupdate q (OFT_back #"generator_history" p)).
Proof.
  destruct H as (_ & _ & _ & _ & _ & _ & _ & _ & _ & _ & _ & _ & _ & _ & _ & F & _).
  rewrite goft_after. apply seg_plain; auto; [kw| |].
  - intros E. destruct (GOFT_block p (F E)) as (W & G & X). eexists. do 2 (split; [eassumption|]). intros; apply X.
  - intros _ q. now apply Inv_update.
Qed.
Lemma seg_GENER : seg ($"GENER") (filled (val #"generators" p)) (write_gener p') (fun q => dupdate q (GENER_back p)).
Proof.
  destruct H as (_ & _ & _ & _ & _ & _ & _ & _ & _ & _ & _ & _ & _ & _ & _ & _ & F & _). destruct K as (L & _).
  rewrite gener_after. apply seg_plain; auto; [kw| |].
  - intros E. destruct (GENER_block p (F E)) as (W & G & X). eexists. do 2 (split; [eassumption|]). intros; apply X; auto.
  - intros _ q. now apply Inv_update.
Qed.
Lemma seg_DIFFU : seg ($"DIFFU") (given #"diffusion" p) (write_diffu p') (fun q => dupdate q (DIFFU_back p)).
Proof.
  destruct H as (_ & _ & _ & _ & _ & _ & _ & _ & _ & _ & _ & _ & _ & _ & _ & _ & _ & F & _).
  rewrite diffu_after. apply seg_opt; auto; [kw| |].
  - intros E. destruct (DIFFU_block p (F E)) as (W & G & _). eexists. do 2 (split; [eassumption|]).
    intros q rest r _ [(N & _)|(b & s & -> & S)] Z.
    + eapply Run_block; [|exact Z]. apply DIFFU_passed; auto. left. auto.
    + eapply Run_step; [apply DIFFU_passed; auto; right; exists b; split; [reflexivity|exact S]| |exact (Run_spaces _ _ _ _ _ S Z)].
      rewrite app_length. cbn [List.length]. lia.
  - intros _ q. now apply Inv_update.
Qed.
Lemma seg_OUTPU : seg ($"OUTPU") (filled (val #"output" p)) (write_outpu p') (fun q => dupdate q (OUTPU_back p)).
Proof.
  destruct H as (_ & _ & _ & _ & _ & _ & _ & _ & _ & _ & _ & _ & _ & _ & _ & _ & _ & _ & F & _).
  rewrite outpu_after. apply seg_plain; auto; [kw| |].
  - intros E. destruct (OUTPU_block p (F E)) as (W & G & X). eexists. do 2 (split; [eassumption|]). intros; apply X; auto.
  - intros _ q. now apply Inv_update.
Qed.
Definition Inv2 (q : dict) : Prop := Inv p q /\ (filled (val #"elements" p) = true -> COORD_pre p q).
Lemma seg_ELEME : exists o, when (filled (val #"elements" p)) (write_eleme p') = Ok o /\
  segment ll (Inv p) Inv2 o (on (filled (val #"elements" p), ELEME_upd p)) /\ opens (filled (val #"elements" p)) ($"ELEME") o.
Proof.
  destruct H as (_ & _ & _ & _ & _ & _ & _ & _ & _ & _ & _ & _ & _ & _ & _ & _ & _ & _ & _ & F & _). destruct K as (_ & L & _).
  rewrite eleme_after. apply seg_plain; auto; [kw| | |].
  - intros E. destruct (ELEME_block p (F E)) as (W & G & X). eexists. do 2 (split; [eassumption|]). intros; apply X; auto.
  - intros _ q I. split.
    + unfold ELEME_upd. apply Inv_set; auto. now apply Inv_update.
    + intros _. unfold COORD_pre, ELEME_upd. rewrite !dget_dset_other by discriminate.
      split; [reflexivity || (unfold dupdate; cbn [fold_left fst snd]; apply dget_dset_same)|].
      exists (elements_back p). split; [unfold dupdate; cbn [fold_left fst snd]; rewrite dget_dset_other by discriminate; apply dget_dset_same|].
      unfold elements_back, dkeys. rewrite map_map. split; [reflexivity|].
      apply Forall_forall. intros kv Hx. apply in_map_iff in Hx as (x & <- & _). reflexivity.
  - intros E q I. split; auto. rewrite E. discriminate.
Qed.
Lemma seg_COORD : exists o, when (filled (val #"coordinates" p)) (write_coord p') = Ok o /\
  segment ll Inv2 (Inv p) o (on (filled (val #"coordinates" p), COORD_upd p)) /\ opens (filled (val #"coordinates" p)) ($"COORD") o.
Proof.
  destruct H as (_ & _ & _ & _ & _ & _ & _ & _ & _ & _ & _ & _ & _ & _ & _ & _ & _ & _ & _ & _ & F & _).
  rewrite coord_after. apply seg_plain; auto; [kw| | |].
  - intros E. destruct (F E) as [F1 F2]. destruct (COORD_block p F2) as (W & G & X). eexists. do 2 (split; [eassumption|]).
    intros q rest [_ I] _. apply X; auto.
  - intros _ q [I _]. unfold COORD_upd. apply Inv_set; auto. apply Inv_set; auto.
  - intros _ q [I _]. exact I.
Qed.
Lemma seg_CONNE : seg ($"CONNE") (filled (val #"connections" p)) (write_conne p') (fun q => dupdate q (CONNE_back p)).
Proof.
  destruct H as (_ & _ & _ & _ & _ & _ & _ & _ & _ & _ & _ & _ & _ & _ & _ & _ & _ & _ & _ & _ & _ & F & _). destruct K as (_ & _ & L & _).
  rewrite conne_after. apply seg_plain; auto; [kw| |].
  - intros E. destruct (CONNE_block p (F E)) as (W & G & X). eexists. do 2 (split; [eassumption|]). intros; apply X; auto.
  - intros _ q. now apply Inv_update.
Qed.
Lemma seg_INCON : seg ($"INCON") (filled (val #"initial_conditions" p)) (write_incon p') (fun q => dupdate q (INCON_back p)).
Proof.
  destruct H as (_ & _ & _ & _ & _ & _ & _ & _ & _ & _ & _ & _ & _ & _ & _ & _ & _ & _ & _ & _ & _ & _ & F). destruct K as (_ & _ & _ & L).
  rewrite incon_after. apply seg_plain; auto; [kw| |].
  - intros E. destruct (INCON_block p (F E)) as (W & G & X). eexists. do 2 (split; [eassumption|]). intros; apply X; auto.
  - intros _ q. now apply Inv_update.
Qed.
Lemma seg_NOVER : seg ($"NOVER") (filled (val #"nover" p)) write_nover (dset #"nover" (PBool true)).
Proof.
  apply seg_opt; auto; [kw| |].
  - intros E. exists []. split; [reflexivity|]. split; [constructor|]. intros q rest r _ _ Y. cbn [app].
    eapply Run_step; [reflexivity|auto|exact Y].
  - intros _ q. now apply Inv_set.
Qed.
End Blocks.

(** ** The title *)
Definition title_line (v : pyval) : str := match v with PStr s => ljust 80 s ++ [nl] | _ => [] end.
Definition title_text (v : pyval) : str := match v with PStr s => s | _ => [] end.
Lemma startswith_pad kw s t : forallb (fun c => negb (is_space c)) kw = true -> forallb is_space t = true ->
  startswith kw (s ++ t) = startswith kw s.
Proof.
  revert s. induction kw as [|c kw IH]; intros s N T; [reflexivity|].
  cbn [forallb] in N. apply andb_true_iff in N as [N1 N2]. destruct s as [|d s].
  - cbn [app startswith]. destruct t as [|d t]; [reflexivity|]. cbn [forallb] in T. apply andb_true_iff in T as [T1 _].
    destruct (Ascii.eqb c d) eqn:E; auto. apply Ascii.eqb_eq in E. subst. now rewrite T1 in N1.
  - cbn [app startswith]. destruct (Ascii.eqb c d); auto. now apply IH.
Qed.
Lemma spaces_nl_space n : forallb is_space (spaces n ++ [nl]) = true.
Proof. rewrite forallb_app. induction n; auto. Qed.
Lemma title_line_starts s kw : In kw block_names -> startswith kw (ljust 80 s ++ [nl]) = startswith kw s.
Proof.
  intros K. unfold ljust. rewrite <- app_assoc. apply startswith_pad; [|apply spaces_nl_space].
  assert (X : forallb (fun kw => forallb (fun c => negb (is_space c)) kw) block_names = true) by reflexivity.
  rewrite forallb_forall in X. auto.
Qed.
Lemma not_block s kw : starts_block s = false -> In kw block_names -> startswith kw s = false.
Proof.
  unfold starts_block. intros H K. destruct (startswith kw s) eqn:E; auto.
  assert (X : existsb (fun kw => startswith kw s) block_names = true); [|congruence]. apply existsb_exists. eauto.
Qed.
Lemma title_skipped ll q ls s : starts_block s = false -> read_block ll (ljust 80 s ++ [nl]) q ls = Ok (true, q, ls).
Proof.
  intros H. unfold read_block. rewrite !title_line_starts by kw.
  rewrite !(not_block s) by (auto; kw). reflexivity.
Qed.
Lemma titles_run ll l : Forall title_ok l -> forall q rest r, Run ll q rest r -> Run ll q (map title_line l ++ rest) r.
Proof.
  induction 1 as [|v l (s & -> & T & O & N) F IH]; intros q rest r R; cbn [map app title_line]; auto.
  eapply Run_step; [now apply title_skipped|auto|]. now apply IH.
Qed.
Lemma title_good l : Forall title_ok l -> Forall good_line (map title_line l).
Proof.
  induction 1 as [|v l (s & -> & T & O & N) F IH]; cbn [map title_line]; auto. constructor; auto.
  exists (ljust 80 s). split; auto. unfold ljust. now rewrite one_line_app, O, one_line_spaces.
Qed.
Lemma title_strip s : trimmed s = true -> strip (ljust 80 s ++ [nl]) = s.
Proof. intros T. rewrite strip_app_space by reflexivity. now apply strip_ljust. Qed.
Lemma write_title_ok p : dmem #"title" p = true -> is_seq (val #"title" p) = true -> Forall title_ok (titles_of p) ->
  write_title p = Ok (map title_line (titles_of p)).
Proof.
  intros M Q F. unfold write_title. rewrite dgetE_val by auto. cbn [bind]. unfold titles_of in *.
  destruct (val #"title" p); try discriminate. cbn [py_iter bind times_list] in *.
  apply mapM_ok. intros x Hx. rewrite Forall_forall in F. destruct (F x Hx) as (s & -> & _). reflexivity.
Qed.
Lemma rocks_strip : startswith ($"ROCKS") (strip (head ($"ROCKS"))) = true. Proof. byc. Qed.
Lemma title_loop_ok l : Forall title_ok l -> forall fuel acc rest, (List.length l < fuel)%nat ->
  title_loop fuel acc (map title_line l ++ head ($"ROCKS") :: rest) = Ok (acc ++ map title_text l).
Proof.
  induction 1 as [|v l (s & -> & T & O & N) F IH]; intros fuel acc rest L; cbn [List.length] in L;
    (destruct fuel as [|fuel]; [lia|]).
  - cbn [map app title_loop readline]. rewrite rocks_strip. now rewrite app_nil_r.
  - cbn [map app title_loop readline title_line title_text]. rewrite title_strip by auto.
    rewrite not_block by (auto; kw). rewrite IH by lia. now rewrite <- app_assoc.
Qed.
Lemma titles_text l : Forall title_ok l -> map PStr (map title_text l) = l.
Proof. induction 1 as [|v l (s & -> & _) F IH]; cbn [map title_text]; [auto|now rewrite IH]. Qed.
Lemma read_title_ok p fuel rest : Forall title_ok (titles_of p) -> (List.length (titles_of p) < fuel)%nat ->
  read_title fuel (map title_line (titles_of p) ++ head ($"ROCKS") :: rest) = Ok (title_back p).
Proof.
  unfold title_back. generalize (titles_of p). intros l F L. destruct F as [|v l X F].
  - reflexivity.
  - destruct X as (s & -> & T & O & N). cbn [map app read_title readline title_line].
    unfold read_title. cbn [readline]. rewrite title_strip by auto.
    assert (E : existsb (streqb (firstn 5 s)) [$"ROCKS"; $"ELEME"; $"INCON"; $"GENER"] = false).
    { apply existsb_false. intros kw Hk. destruct (streqb (firstn 5 s) kw) eqn:E; auto. apply streqb_eq in E.
      assert (Y : startswith kw s = true).
      { rewrite <- (firstn_skipn 5 s), E. apply startswith_app. }
      rewrite not_block in Y; auto. clear - Hk. cbn [In] in Hk. cbn [block_names In]. tauto. }
    rewrite E. rewrite title_loop_ok; [|auto|cbn [List.length] in L; lia]. cbn [bind].
    destruct F as [|v' l (s' & -> & _) F]; [reflexivity|].
    cbn [app map title_text one_or_list]. now rewrite titles_text.
Qed.

(** ** The writer *)
Definition top_keys : list key := dkeys d_Parameters.
Lemma truthy_filled v : (match v with PFloat _ | PSeq SArray _ => false | _ => true end) = true -> truthy v = Ok (filled v).
Proof. destruct v as [| | | | |s|[]|d]; try discriminate; intros _; try reflexivity; [destruct l|destruct l|destruct d]; reflexivity. Qed.
Lemma typed_at t d k kd : well_typed t d = true -> kind_of k t = Some kd -> is_none (val k d) || of_kind kd (val k d) = true.
Proof.
  intros T E. unfold val. destruct (dget k d) as [v|] eqn:G; [|reflexivity]. apply dget_in in G.
  unfold well_typed in T. rewrite forallb_forall in T. specialize (T _ G). unfold entry_typed in T. cbn [fst snd] in T.
  now rewrite E in T.
Qed.
Lemma typed_truthy p k kd : well_typed kinds_PARAMETERS p = true -> kind_of k kinds_PARAMETERS = Some kd ->
  (match kd with Integer | Boolean | Text | Dictionary => true | _ => false end) = true ->
  truthy (val k p) = Ok (filled (val k p)).
Proof.
  intros T E K. pose proof (typed_at _ _ _ _ T E) as X. apply truthy_filled.
  destruct (val k p) as [| | | | | |[]|]; auto; destruct kd; try discriminate; auto.
Qed.
Lemma if_true_ok p k kd f : dmem k p = true -> well_typed kinds_PARAMETERS p = true -> kind_of k kinds_PARAMETERS = Some kd ->
  (match kd with Integer | Boolean | Text | Dictionary => true | _ => false end) = true ->
  if_true k f p = when (filled (val k p)) (f p).
Proof. intros M T E K. unfold if_true. rewrite dgetE_val by auto. cbn [bind]. now rewrite (typed_truthy p k kd). Qed.
Lemma if_some_ok p k f : dmem k p = true -> if_some k f p = when (given k p) (f p).
Proof. intros M. unfold if_some. now rewrite dgetE_val by auto. Qed.
Lemma if_true_after k f p : k <> #"rocks_order" -> if_true k f (ROCKS_after p) = if_true k (fun _ => f (ROCKS_after p)) p.
Proof. intros N. unfold if_true. now rewrite dgetE_after. Qed.
Lemma if_some_after k f p : k <> #"rocks_order" -> if_some k f (ROCKS_after p) = if_some k (fun _ => f (ROCKS_after p)) p.
Proof. intros N. unfold if_some. now rewrite dgetE_after. Qed.

Lemma model_set_ok def k : match dget k def with Some m => model_ok 5 3 m | None => false end = true ->
  model_set def k = Ok (model_given def k).
Proof.
  unfold model_set, model_given, val at 2. destruct (dget k def) as [m|]; [|discriminate]. intros M.
  destruct m as [| | | | | | |m]; try discriminate. cbn [subscript entries].
  unfold model_ok in M. rewrite !andb_true_iff in M. destruct M as (((((_ & M) & _) & _) & _) & _).
  rewrite dgetE_val by auto. reflexivity.
Qed.
Lemma indom_flag_ok d : Forall (fun kv => is_dict (snd kv) = true /\ match dget #"initial_condition" (entries (snd kv)) with
                    | None | Some (PSeq _ _) => True | _ => False end) d ->
  indom_flag d = Ok (existsb (fun kv => existsb not_none (firstn 4 (condition_of (entries (snd kv))))) d).
Proof.
  unfold indom_flag. induction 1 as [|[k v] d [D X] F IH]; [reflexivity|]. cbn [anyM existsb fst snd] in *.
  destruct v as [| | | | | | |r]; try discriminate. cbn [as_dict bind entries] in *.
  unfold condition_of at 1, val at 1. destruct (dget #"initial_condition" r) as [[]|]; try contradiction.
  - cbn [slice_to bind py_iter items]. destruct (existsb not_none (firstn 4 l)); [reflexivity|exact IH].
  - cbn [bind items firstn existsb orb]. exact IH.
Qed.
Lemma eos_same s t : eos_find s t = None -> eos_get s (map (fun e => (fst e, [])) t) = None.
Proof. induction t as [|[k v] t IH]; cbn; auto. destruct (streqb s k); [discriminate|auto]. Qed.
Lemma eos_known s : s <> [] -> eos_counts (PStr s) <> None -> exists l, eos_get s d_eos = Some l.
Proof.
  intros N. destruct s as [|c s]; [congruence|]. cbn [eos_counts]. unfold eos_table, d_eos. cbn [eos_find eos_get].
  repeat (destruct (streqb _ _); [eauto|]). congruence.
Qed.

Definition middle_names : list str :=
  [$"RPCAP"; $"FLAC"; $"MULTI"; $"SOLVR"; $"START"; $"PARAM"; $"SELEC"; $"INDOM"; $"MOMOP"; $"TIMES"; $"FOFT"; $"COFT"; $"GOFT"; $"GENER"; $"DIFFU";
   $"OUTPU"; $"ELEME"; $"COORD"; $"CONNE"; $"INCON"; $"NOVER"].
(** A block on its own. *)
Definition part_ok (ll : option nat) (p : dict) (kw : str) (o : list str) (s : bool * (dict -> dict)) : Prop :=
  opens (fst s) kw o /\ (kw = $"ELEME" -> segment ll (Inv p) (Inv2 p) o (on s)) /\ (kw = $"COORD" -> segment ll (Inv2 p) (Inv p) o (on s)) /\
  (kw <> $"ELEME" -> kw <> $"COORD" -> segment ll (Inv p) (Inv p) o (on s)).
Lemma part_plain ll p kw o b f : segment ll (Inv p) (Inv p) o (on (b, f)) -> opens b kw o -> streqb kw ($"ELEME") || streqb kw ($"COORD") = false -> part_ok ll p kw o (b, f).
Proof.
  intros A B C. split; [exact B|]. split; [|split; [|intros _ _; exact A]]; intros ->; discriminate C.
Qed.
Lemma FILE_write ll p : FILE_ok p -> FILE_known ll p -> forallb (fun k => dmem k p) top_keys = true ->
  is_seq (val #"title" p) = true ->
  exists os, write_buffer p SelAll = Ok (map title_line (titles_of p) ++ (head ($"ROCKS") :: ROCKS_body p) ++ concat os ++ [head_noend ($"ENDCY")]) /\
    segments ll (Inv p) os (FILE_steps p) /\ In (head ($"PARAM")) (concat os) /\
    Forall2 (fun ko s => part_ok ll p (fst ko) (snd ko) s) (combine middle_names os) (FILE_steps p) /\ List.length os = 21%nat.
Proof.
  intros H K M Q. pose proof H as (T & TT & R & RP & _ & IC & _ & MU & _).
  assert (MK : forall k, In k top_keys -> dmem k p = true) by (rewrite forallb_forall in M; auto).
  unfold write_buffer. rewrite (check_dict_ok _ _ _ st_PARAMETERS), T. cbn [bind].
  assert (GE : forall k, existsb (key_eqb k) top_keys = true -> dgetE k p = Ok (val k p)).
  { intros k Hk. apply dgetE_val, MK. apply existsb_exists in Hk as (k' & I & E). apply key_eqb_eq in E. now subst. }
  rewrite !GE by reflexivity. cbn [bind].
  rewrite (typed_truthy p #"eos" Text), (typed_truthy p #"n_component" Integer), (typed_truthy p #"n_phase" Integer) by auto.
  cbn [bind].
  assert (EOS : negb (filled (val #"eos" p)) || match val #"eos" p with
                              | PStr s => match eos_get s d_eos with Some _ => true | None => false end
                              | _ => false end = true).
  { pose proof (typed_at _ _ #"eos" Text T eq_refl) as X. destruct (val #"eos" p) as [| | | | |s| |] eqn:E; try discriminate; [reflexivity|].
    destruct s as [|c s]; [reflexivity|]. assert (Y : multi_given p = true) by (unfold multi_given; now rewrite E).
    destruct (MU Y) as (_ & Z & _). rewrite E in Z. destruct (eos_known (c :: s)) as (l & L); [discriminate|exact Z|].
    rewrite L. reflexivity. }
  rewrite EOS. cbn [guard bind].
  pose proof RP as (def & D & U & MD). unfold get_dict at 1, dgetE at 1. rewrite D. cbn [bind as_dict].
  rewrite forallb_forall in MD.
  rewrite !model_set_ok by (apply MD; cbn [model_keys In]; tauto). cbn [bind].
  pose proof R as (_ & RR & _ & _ & _ & FR). unfold get_dict at 1, dgetE at 1. rewrite RR. cbn [bind as_dict].
  rewrite indom_flag_ok.
  2:{ apply Forall_forall. intros kv Hk. rewrite Forall_forall in FR, IC. split; [|now apply IC].
      destruct (FR kv Hk) as (s & r & -> & _). reflexivity. }
  cbn [bind].
  fold (indom_given p) (multi_given p).
  replace (model_given def #"relative_permeability" || model_given def #"capillarity") with (rpcap_given p).
  2:{ unfold rpcap_given, default_of. rewrite (val_some _ _ _ D). cbn [entries model_keys existsb]. now rewrite orb_false_r. }
  rewrite write_title_ok by (auto; apply MK; cbn; tauto). cbn [bind].
  rewrite write_rocks_ok by auto. cbn [bind].
  repeat rewrite if_true_after by discriminate. repeat rewrite if_some_after by discriminate.
  rewrite (if_true_ok p #"solver" Dictionary), (if_true_ok p #"start" Boolean), (if_true_ok p #"selections" Dictionary),
    (if_true_ok p #"more_options" Dictionary) by (auto; apply MK; cbn; tauto).
  repeat rewrite if_some_ok by (apply MK; cbn; tauto).
  destruct (seg_RPCAP ll p H) as (o1 & -> & S1 & O1). cbn [bind].
  destruct (seg_FLAC ll p H) as (o2 & -> & S2 & O2). cbn [bind].
  destruct (seg_MULTI ll p H) as (o3 & -> & S3 & O3). cbn [bind].
  destruct (seg_SOLVR ll p H) as (o4 & -> & S4 & O4). cbn [bind].
  destruct (seg_START ll p) as (o5 & -> & S5 & O5). cbn [bind].
  destruct (seg_PARAM ll p H) as (o6 & W6 & S6 & O6). cbn [when] in W6. rewrite W6. cbn [bind].
  destruct (seg_SELEC ll p H) as (o7 & -> & S7 & O7). cbn [bind].
  destruct (seg_INDOM ll p H) as (o8 & -> & S8 & O8). cbn [bind].
  destruct (seg_MOMOP ll p H) as (o9 & -> & S9 & O9). cbn [bind].
  destruct (seg_TIMES ll p H) as (o10 & -> & S10 & O10). cbn [bind].
  destruct (seg_FOFT ll p H) as (o11 & -> & S11 & O11). cbn [bind].
  destruct (seg_COFT ll p H) as (o12 & -> & S12 & O12). cbn [bind].
  destruct (seg_GOFT ll p H) as (o13 & -> & S13 & O13). cbn [bind].
  repeat rewrite if_true_after by discriminate. repeat rewrite if_some_after by discriminate.
  rewrite (if_true_ok p #"generators" Dictionary), (if_true_ok p #"output" Dictionary),
    (if_true_ok p #"elements" Dictionary), (if_true_ok p #"coordinates" Boolean), (if_true_ok p #"connections" Dictionary),
    (if_true_ok p #"initial_conditions" Dictionary), (if_true_ok p #"nover" Boolean) by (auto; apply MK; cbn; tauto).
  repeat rewrite if_some_ok by (apply MK; cbn; tauto).
  destruct (seg_GENER ll p H K) as (o14 & W14 & S14 & O14).
  destruct (seg_DIFFU ll p H) as (o15 & W15 & S15 & O15).
  destruct (seg_OUTPU ll p H) as (o16 & W16 & S16 & O16).
  destruct (seg_ELEME ll p H K) as (o17 & W17 & S17 & O17).
  destruct (seg_COORD ll p H) as (o18 & W18 & S18 & O18).
  destruct (seg_CONNE ll p H K) as (o19 & W19 & S19 & O19).
  destruct (seg_INCON ll p H K) as (o20 & W20 & S20 & O20).
  destruct (seg_NOVER ll p) as (o21 & W21 & S21 & O21).
  rewrite W14. cbn [bind]. rewrite W15. cbn [bind]. rewrite W16. cbn [bind]. rewrite W17. cbn [bind]. rewrite W18. cbn [bind].
  rewrite W19. cbn [bind]. rewrite W20. cbn [bind]. rewrite W21. cbn [bind].
  exists [o1; o2; o3; o4; o5; o6; o7; o8; o9; o10; o11; o12; o13; o14; o15; o16; o17; o18; o19; o20; o21]. split.
  - f_equal. cbn [concat write_endcy bind]. rewrite app_nil_r, <- !app_assoc. reflexivity.
  - split; [unfold FILE_steps; repeat (eapply seg_cons; [eassumption|]); apply seg_nil|].
    split; [|split; [|reflexivity]].
    2:{ unfold FILE_steps, middle_names. cbn [combine].
        repeat (apply Forall2_cons; [cbn [fst snd]; first [apply part_plain; [assumption|assumption|reflexivity]
          | split; [assumption|]; split; [intros _; assumption|]; split; [discriminate|]; intros N; now elim N
          | split; [assumption|]; split; [discriminate|]; split; [intros _; assumption|]; intros _ N; now elim N]|]). apply Forall2_nil. }
    rewrite param_after in W6. destruct H as (_ & _ & _ & _ & F & _). destruct (PARAM_next p F) as (body & W & _). rewrite W in W6. injection W6 as <-.
    cbn [concat]. do 5 (apply in_or_app; right). apply in_or_app. left. now left.
Qed.

(** ** Completed parameters *)
Lemma dmem_dset k k' v d : dmem k d = true -> dmem k (dset k' v d) = true.
Proof. unfold dmem. rewrite dget_dset. destruct (key_eqb k k'); auto. Qed.
Lemma prepare_keys u p : prepare u = Ok p -> forallb (fun k => dmem k p) top_keys = true /\ is_str (val #"title" p) = false.
Proof.
  unfold prepare. set (p0 := dupdate d_Parameters u).
  assert (K : forall k, In k top_keys -> dmem k p0 = true).
  { intros k Hk. apply dmem_dupdate. now apply dmem_in. }
  rewrite dgetE_val by (apply K; cbn; tauto). cbn [bind]. set (t := if is_str _ then _ else _).
  assert (IS : is_str t = false) by (unfold t; destruct (val #"title" p0); reflexivity).
  intros E. destruct (get_dict #"default" _) as [def|]; [|discriminate]. cbn [bind] in E.
  destruct (get_dict #"rocks" _) as [rocks|]; [|discriminate]. cbn [bind] in E.
  destruct (mapM _ rocks) as [rocks'|]; [|discriminate]. cbn [bind] in E. injection E as <-. split.
  - apply forallb_forall. intros k Hk. now apply dmem_dset, dmem_dset, dmem_dset, K.
  - unfold val. rewrite !dget_dset. change (key_eqb #"title" #"rocks") with false. change (key_eqb #"title" #"default") with false.
    change (key_eqb #"title" #"title") with true. cbv iota. exact IS.
Qed.

Definition label_choice (ll : option Z) : Prop := match ll with None => True | Some z => 5 <= z < 10 end.
Definition label_given (ll : option Z) : option nat := option_map Z.to_nat ll.

(** Blocks may come after those written, before the end line. *)
Lemma FILE_extended u p ll fuel : prepare u = Ok p -> FILE_ok p -> label_choice ll -> FILE_known (label_given ll) p ->
  (List.length (titles_of p) < fuel)%nat ->
  exists a b c, write_text u ($"all") = Ok (concat (a ++ head ($"ROCKS") :: b ++ head ($"PARAM") :: c) ++ head_noend ($"ENDCY")) /\
    Forall good_line (a ++ head ($"ROCKS") :: b ++ head ($"PARAM") :: c) /\
    forall more q, heads more -> Forall good_line more -> Run (label_given ll) (FILE_back p) (more ++ [head_noend ($"ENDCY")]) (Ok q) ->
      read_text fuel ll (concat (a ++ head ($"ROCKS") :: b ++ head ($"PARAM") :: c) ++ concat more ++ head_noend ($"ENDCY")) = Ok q.
Proof.
  intros E H LC K L. destruct (prepare_keys u p E) as [M NS]. pose proof H as (T & TT & R & _).
  assert (Q : is_seq (val #"title" p) = true).
  { pose proof (typed_at _ _ #"title" TextOrSequence T eq_refl) as X. destruct (val #"title" p) eqn:V; try discriminate; auto.
    exfalso. unfold titles_of in TT. rewrite V in TT. inversion_clear TT as [|? ? (s & Y & _)]. discriminate. }
  destruct (FILE_write (label_given ll) p H K M Q) as (os & W & S & IP & _). apply in_split in IP as (b & c & EP).
  set (ls := map title_line (titles_of p) ++ (head ($"ROCKS") :: ROCKS_body p) ++ concat os).
  assert (EL : map title_line (titles_of p) ++ head ($"ROCKS") :: (ROCKS_body p ++ b) ++ head ($"PARAM") :: c = ls).
  { unfold ls. rewrite EP. cbn [app]. now rewrite <- !app_assoc. }
  assert (LG : Forall good_line ls).
  { unfold ls. apply Forall_app. split; [now apply title_good|]. apply Forall_app. split.
    - constructor; [now apply good_head|now apply ROCKS_good].
    - eapply segments_good; eauto. }
  exists (map title_line (titles_of p)), (ROCKS_body p ++ b), c. rewrite EL. split; [|split; [exact LG|]].
  - unfold write_text. change (sel_of ($"all")) with (Some SelAll). cbv iota. rewrite E. cbn [bind]. rewrite W. cbn [bind].
    replace (map title_line (titles_of p) ++ (head ($"ROCKS") :: ROCKS_body p) ++ concat os ++ [head_noend ($"ENDCY")])
      with (ls ++ [head_noend ($"ENDCY")]) by (unfold ls; now rewrite <- !app_assoc).
    rewrite concat_app. reflexivity.
  - intros more q HM GM RM.
    assert (B : forall t, read_text fuel ll t = read_buffer fuel (label_given ll) t).
    { intros t. unfold read_text, label_given. destruct ll as [z|]; [|reflexivity]. cbn [label_choice] in LC.
      replace (5 <=? z) with true by (symmetry; apply Z.leb_le; lia).
      replace (z <? 10) with true by (symmetry; apply Z.ltb_lt; lia). reflexivity. }
    rewrite B. unfold read_buffer.
    assert (LE : lines (concat ls ++ concat more ++ head_noend ($"ENDCY")) = ls ++ more ++ [head_noend ($"ENDCY")]).
    { rewrite lines_good by exact LG. f_equal. rewrite lines_good by exact GM. reflexivity. }
    rewrite LE. unfold ls. rewrite <- !app_assoc. cbn [app].
    rewrite read_title_ok by auto. cbn [bind].
    match goal with |- read_blocks ?n ?a ?b ?c = ?r => cut (Run a b c r); [intros X; apply X; auto|] end.
    change (Run (label_given ll) (title_back p) (map title_line (titles_of p) ++ head ($"ROCKS") :: ROCKS_body p ++ concat os ++ more ++ [head_noend ($"ENDCY")]) (Ok q)).
    apply titles_run; auto.
    eapply Run_block; [apply ROCKS_block; auto|].
    assert (FE : follows (more ++ [head_noend ($"ENDCY")])).
    { apply heads_follows; [exact HM|]. apply follows_block. exists ($"ENDCY"), []. split; [kw|now right]. }
    apply (segments_run _ _ _ _ S); [|exact FE|exact RM].
    unfold Inv, FLAC_pre, has_rocks, default_readable.
    assert (KU : keys_unique (ROCKS_back p)) by (apply no_dup_keys_ok; reflexivity).
    rewrite !dget_dupdate by exact KU. split; [split|].
    + reflexivity.
    + exists (rocks_back p). split; [reflexivity|]. split; [unfold rocks_back, dkeys; now rewrite map_map|].
      apply Forall_forall. intros kv Hx. apply in_map_iff in Hx as (x & <- & _). reflexivity.
    + left. unfold title_back. destruct (titles_of p); reflexivity.
Qed.
Lemma FILE_roundtrip u p ll fuel : prepare u = Ok p -> FILE_ok p -> label_choice ll -> FILE_known (label_given ll) p ->
  (List.length (titles_of p) < fuel)%nat ->
  exists t, write_text u ($"all") = Ok t /\ read_text fuel ll t = Ok (FILE_back p).
Proof.
  intros E H LC K L. destruct (FILE_extended u p ll fuel E H LC K L) as (a & b & c & W & _ & R). eexists. split; [exact W|].
  apply (R [] (FILE_back p)); [now left|constructor|apply Run_end].
Qed.
